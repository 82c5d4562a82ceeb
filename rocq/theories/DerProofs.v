(* Proofs about the encodings of signatures: the lax reader *)
From Coq Require Import Lia ZifyBool ZifyNat ZifyN.
From Verif Require Import Base BaseProofs WireModel WireProofs ScriptProofs TextModel BoostRunProofs DerModel DerSpec.
Local Open Scope N_scope.

Lemma length_len (l : bytes) : length l = N.to_nat (len l).
Proof. unfold len. lia. Qed.
Lemma byte_at_here pre c post : byte_at (pre ++ c :: post) (len pre) = Ret (b2n c).
Proof.
  unfold byte_at. rewrite len_app, len_cons. replace (len pre <? len pre + (1 + len post)) with true by lia.
  rewrite nth_error_app2 by (rewrite length_len; lia). rewrite length_len, Nat.sub_diag. reflexivity.
Qed.
Lemma byte_at_eq x p pre c post : x = pre ++ c :: post -> p = len pre -> byte_at x p = Ret (b2n c).
Proof. intros -> ->. apply byte_at_here. Qed.

(* ---- leading zeros *)
Fixpoint strip (v : bytes) : bytes := match v with [] => [] | c :: w => if b2n c =? 0 then strip w else v end.
Lemma strip_zeros v : exists z, v = repeat x00 z ++ strip v.
Proof.
  induction v as [|c v [z IH]]; [exists O; reflexivity|]. cbn [strip]. destruct (b2n c =? 0) eqn:E.
  - exists (S z). cbn [repeat app]. rewrite <- IH. f_equal. apply b2n_inj. change (b2n x00) with 0. lia.
  - exists O. reflexivity.
Qed.
Lemma strip_val v : be_val (strip v) = be_val v.
Proof. destruct (strip_zeros v) as [z E]. rewrite E at 2. rewrite be_val_app, be_val_repeat0. lia. Qed.
Lemma strip_length v : (length (strip v) <= length v)%nat.
Proof. destruct (strip_zeros v) as [z E]. rewrite E at 2. rewrite app_length. lia. Qed.
Lemma be_val_cons c v : be_val (c :: v) = b2n c * pow256 (length v) + be_val v.
Proof. change (c :: v) with ([c] ++ v). rewrite be_val_app. f_equal. f_equal. unfold be_val. cbn [rev app le_val]. lia. Qed.
Lemma pow256_mono a b : (a <= b)%nat -> pow256 a <= pow256 b.
Proof. intros L. replace b with (a + (b - a))%nat by lia. rewrite pow256_add. pose proof (pow256_pos (b - a)). pose proof (pow256_pos a). nia. Qed.
Lemma strip_fits v k : (length (strip v) <= k)%nat <-> be_val v < pow256 k.
Proof.
  rewrite <- strip_val. split; intros L.
  - apply N.lt_le_trans with (1 := be_val_bound _). apply pow256_mono, L.
  - destruct (strip v) as [|c w] eqn:E; [cbn [length]; lia|].
    assert (b2n c <> 0) by (clear L; revert E; induction v as [|d v IH]; cbn [strip]; [discriminate|]; destruct (b2n d =? 0) eqn:D; [exact IH|];
      intros X; assert (d = c) as -> by congruence; lia).
    rewrite be_val_cons in L. destruct (Nat.le_gt_cases (length (c :: w)) k) as [?|G]; [assumption|]. cbn [length] in G.
    assert (pow256 k <= pow256 (length w)) by (apply pow256_mono; lia). pose proof (pow256_pos (length w)). nia.
Qed.
Lemma skip_zeros_here v : forall pre post, skip_zeros (pre ++ v ++ post) (length v) (len pre) = Ret (length (strip v), len pre + len v - len (strip v)).
Proof.
  induction v as [|c v IH]; intros pre post; [cbn [length skip_zeros strip]; f_equal; f_equal; change (len []) with 0; lia|].
  cbn [length skip_zeros app]. rewrite byte_at_here. cbn [obind strip]. destruct (b2n c =? 0) eqn:E.
  - specialize (IH (pre ++ [c]) post). rewrite <- app_assoc in IH. cbn [app] in IH. rewrite len_app in IH. change (len [c]) with 1 in IH. rewrite IH. f_equal. f_equal.
    rewrite len_cons. lia.
  - rewrite len_cons. cbn [length]. f_equal. f_equal. lia.
Qed.
Lemma long_length_here w : forall a pre post, (a * pow256 (length w) + be_val w) < 2 ^ 64 ->
  long_length (pre ++ w ++ post) (length w) a (len pre) = Ret (a * pow256 (length w) + be_val w, len pre + len w).
Proof.
  induction w as [|c w IH]; intros a pre post L; [cbn [length long_length]; f_equal; f_equal; unfold be_val; cbn [rev le_val]; rewrite ?pow256_0; change (len []) with 0; lia|].
  cbn [length long_length app]. rewrite byte_at_here. cbn [obind]. specialize (IH ((a * 256 + b2n c) mod 2 ^ 64) (pre ++ [c]) post).
  rewrite <- app_assoc in IH. cbn [app] in IH. rewrite len_app in IH. change (len [c]) with 1 in IH.
  rewrite be_val_cons in *. cbn [length] in L. rewrite pow256_S in *. pose proof (pow256_pos (length w)).
  assert (a * 256 + b2n c < 2 ^ 64) by nia. rewrite N.mod_small in IH by assumption. rewrite N.mod_small by assumption. rewrite IH by nia. f_equal. f_equal; [nia|rewrite len_cons; lia].
Qed.

(* ---- the parts of the reader, on what is left *)
Definition left_length (l : bytes) : option (N * bytes) :=
  match l with
  | [] => None
  | b :: t => if b2n b <? 128 then Some (b2n b, t) else
              let k := N.to_nat (b2n b - 128) in
              if (length t <? k)%nat then None else if be_val (firstn k t) <? 2 ^ 56 then Some (be_val (firstn k t), skipn k t) else None
  end.
Definition left_integer (l : bytes) : option (bytes * bytes) :=
  match l with
  | [] => None
  | t :: l' => if b2n t =? 2 then match left_length l' with
                                  | None => None
                                  | Some (n, q) => if len q <? n then None else Some (firstn (N.to_nat n) q, skipn (N.to_nat n) q) end
               else None
  end.
Definition left_sequence (l : bytes) : option bytes :=
  match l with
  | [] => None
  | t :: l' => if b2n t =? 0x30 then match l' with
                                     | [] => None
                                     | b :: q => if b2n b <? 128 then Some q else
                                                 if (length q <? N.to_nat (b2n b - 128))%nat then None else Some (skipn (N.to_nat (b2n b - 128)) q) end
               else None
  end.

Lemma lax_length_left pre l : lax_length (pre ++ l) (len pre) =
  Ret (match left_length l with None => None | Some (n, q) => Some (n, len (pre ++ l) - len q) end).
Proof.
  unfold lax_length. destruct l as [|b t]; [rewrite app_nil_r, N.eqb_refl; reflexivity|].
  rewrite byte_at_here, len_app, len_cons. replace (len pre =? len pre + (1 + len t)) with false by lia. cbn [obind left_length].
  destruct (b2n b <? 128) eqn:E; [f_equal; f_equal; f_equal; lia|].
  set (k := N.to_nat (b2n b - 128)). replace (len pre + (1 + len t) <? len pre + 1 + (b2n b - 128)) with (length t <? k)%nat by (rewrite length_len; lia).
  destruct (length t <? k)%nat eqn:F; [reflexivity|].
  assert (Hk : length (firstn k t) = k) by (rewrite firstn_length; lia).
  pose proof (skip_zeros_here (firstn k t) (pre ++ [b]) (skipn k t)) as Hs. rewrite firstn_skipn, <- app_assoc, len_app in Hs. cbn [app] in Hs. change (len [b]) with 1 in Hs.
  rewrite Hk in Hs. rewrite Hs. cbn [obind]. pose proof (strip_fits (firstn k t) 7) as Hf. change (pow256 7) with (2 ^ 56) in Hf.
  destruct (be_val (firstn k t) <? 2 ^ 56) eqn:G.
  - replace (8 <=? length (strip (firstn k t)))%nat with false by lia.
    destruct (strip_zeros (firstn k t)) as [z Hz].
    pose proof (long_length_here (strip (firstn k t)) 0 (pre ++ [b] ++ repeat x00 z) (skipn k t)) as Hl.
    rewrite strip_val in Hl. rewrite N.mul_0_l, N.add_0_l in Hl. specialize (Hl ltac:(change (2 ^ 56) with 72057594037927936 in G; change (2 ^ 64) with 18446744073709551616; lia)).
    assert (Hx : (pre ++ [b] ++ repeat x00 z) ++ strip (firstn k t) ++ skipn k t = pre ++ b :: t).
    { rewrite <- !app_assoc. cbn [app]. f_equal. f_equal. rewrite app_assoc, <- Hz. apply firstn_skipn. }
    rewrite Hx in Hl.
    assert (Hp : len (firstn k t) = N.of_nat z + len (strip (firstn k t))) by (rewrite Hz at 1; rewrite len_app; f_equal; unfold len; rewrite repeat_length; lia).
    replace (len (pre ++ [b] ++ repeat x00 z)) with (len pre + 1 + len (firstn k t) - len (strip (firstn k t))) in Hl
      by (rewrite !len_app; change (len [b]) with 1; assert (len (repeat x00 z) = N.of_nat z) by (unfold len; rewrite repeat_length; reflexivity); lia).
    rewrite Hl. cbn [obind]. f_equal. f_equal. f_equal. unfold len in *. rewrite skipn_length. lia.
  - replace (8 <=? length (strip (firstn k t)))%nat with true by lia. reflexivity.
Qed.
Lemma left_length_rest l n q : left_length l = Some (n, q) -> exists a, l = a ++ q /\ length_of n a.
Proof.
  destruct l as [|b t]; cbn [left_length]; [discriminate|]. destruct (b2n b <? 128) eqn:E.
  - intros X. assert (n = b2n b /\ q = t) as [-> ->] by (split; congruence). exists [b]. split; [reflexivity|]. left. exists b. repeat split; lia.
  - set (k := N.to_nat (b2n b - 128)). destruct (length t <? k)%nat eqn:F; [discriminate|]. destruct (be_val (firstn k t) <? 2 ^ 56) eqn:G; [|discriminate].
    intros X. assert (n = be_val (firstn k t) /\ q = skipn k t) as [-> ->] by (split; congruence). exists (b :: firstn k t). split; [cbn [app]; rewrite firstn_skipn; reflexivity|].
    right. exists b, (firstn k t). split; [reflexivity|]. split; [unfold len; rewrite firstn_length; lia|]. split; [lia|reflexivity].
Qed.
Lemma left_length_of n a q : length_of n a -> left_length (a ++ q) = Some (n, q).
Proof.
  intros [(b & -> & L & ->)|(b & v & -> & L & F & ->)]; cbn [app left_length].
  - replace (b2n b <? 128) with true by lia. reflexivity.
  - replace (b2n b <? 128) with false by lia. replace (N.to_nat (b2n b - 128)) with (length v) by (rewrite length_len; lia).
    rewrite app_length. replace (length v + length q <? length v)%nat with false by lia.
    rewrite firstn_app, firstn_all, Nat.sub_diag, firstn_O, app_nil_r. rewrite skipn_app, skipn_all, Nat.sub_diag. cbn [skipn app].
    replace (be_val v <? 2 ^ 56) with true by lia. reflexivity.
Qed.
Lemma left_integer_exact l R q : left_integer l = Some (R, q) <-> exists a, l = [x02] ++ a ++ R ++ q /\ length_of (len R) a.
Proof.
  split.
  - destruct l as [|t l']; cbn [left_integer]; [discriminate|]. destruct (b2n t =? 2) eqn:E; [|discriminate].
    destruct (left_length l') as [[n p]|] eqn:L; [|discriminate]. destruct (len p <? n) eqn:F; [discriminate|]. intros X.
    assert (R = firstn (N.to_nat n) p /\ q = skipn (N.to_nat n) p) as [-> ->] by (split; congruence).
    destruct (left_length_rest _ _ _ L) as (a & -> & Ha). exists a. split.
    + rewrite firstn_skipn. cbn [app]. f_equal. apply b2n_inj. change (b2n x02) with 2. lia.
    + rewrite len_firstn by lia. exact Ha.
  - intros (a & -> & Ha). cbn [app left_integer]. change (b2n x02 =? 2) with true. cbn iota. rewrite (left_length_of _ _ _ Ha). rewrite len_app.
    replace (len R + len q <? len R) with false by lia. rewrite <- length_len. rewrite firstn_app, firstn_all, Nat.sub_diag, firstn_O, app_nil_r.
    rewrite skipn_app, skipn_all, Nat.sub_diag. reflexivity.
Qed.
Lemma left_sequence_exact l q : left_sequence l = Some q <-> exists a, l = [x30] ++ a ++ q /\ some_length a.
Proof.
  split.
  - destruct l as [|t l']; cbn [left_sequence]; [discriminate|]. destruct (b2n t =? 0x30) eqn:E; [|discriminate].
    assert (t = x30) as -> by (apply b2n_inj; change (b2n x30) with 0x30; lia). destruct l' as [|b p]; [discriminate|].
    destruct (b2n b <? 128) eqn:F.
    + intros X. assert (q = p) as -> by congruence. exists [b]. split; [reflexivity|]. left. exists b. split; [reflexivity|lia].
    + set (k := N.to_nat (b2n b - 128)). destruct (length p <? k)%nat eqn:G; [discriminate|]. intros X. assert (q = skipn k p) as -> by congruence.
      exists (b :: firstn k p). split; [cbn [app]; rewrite firstn_skipn; reflexivity|]. right. exists b, (firstn k p). split; [reflexivity|]. unfold len. rewrite firstn_length. lia.
  - intros (a & -> & [(b & -> & L)|(b & v & -> & L)]); cbn [app left_sequence]; change (b2n x30 =? 48) with true; cbn iota.
    + replace (b2n b <? 128) with true by lia. reflexivity.
    + replace (b2n b <? 128) with false by lia. replace (N.to_nat (b2n b - 128)) with (length v) by (rewrite length_len; lia).
      rewrite app_length. replace (length v + length q <? length v)%nat with false by lia. rewrite skipn_app, skipn_all, Nat.sub_diag. reflexivity.
Qed.
Lemma lax_integer_left pre l : len (pre ++ l) < 2 ^ 63 -> lax_integer (pre ++ l) (len pre) =
  Ret (match left_integer l with None => None | Some (R, q) => Some (len (pre ++ l) - len q - len R, len R, len (pre ++ l) - len q) end).
Proof.
  intros Big. unfold lax_integer. destruct l as [|t l']; [rewrite app_nil_r, N.eqb_refl; reflexivity|].
  rewrite byte_at_here. replace (len pre =? len (pre ++ t :: l')) with false by (rewrite len_app, len_cons; lia). cbn [obind left_integer].
  destruct (b2n t =? 2) eqn:E; cbn [negb]; [|reflexivity].
  pose proof (lax_length_left (pre ++ [t]) l') as Hl. rewrite <- app_assoc in Hl. cbn [app] in Hl. rewrite len_app in Hl at 1. change (len [t]) with 1 in Hl. rewrite Hl. clear Hl. cbn [obind].
  destruct (left_length l') as [[n q]|] eqn:L; [|reflexivity]. destruct (left_length_rest _ _ _ L) as (a & -> & _).
  assert (Hsz : len (pre ++ t :: a ++ q) = len pre + 1 + len a + len q) by (rewrite len_app, len_cons, len_app; lia). rewrite Hsz in *.
  replace (size_sub (len pre + 1 + len a + len q) (len pre + 1 + len a + len q - len q)) with (len q).
  - destruct (len q <? n) eqn:F; [reflexivity|]. f_equal. f_equal. rewrite len_firstn by lia.
    replace (len (skipn (N.to_nat n) q)) with (len q - n) by (unfold len in *; rewrite skipn_length; lia). f_equal; [f_equal|]; lia.
  - unfold size_sub. replace (2 ^ 64 + (len pre + 1 + len a + len q) - (len pre + 1 + len a + len q - len q)) with (len q + 1 * 2 ^ 64) by (change (2 ^ 64) with 18446744073709551616; lia).
    rewrite N.mod_add by discriminate. rewrite N.mod_small; [reflexivity|]. change (2 ^ 63) with 9223372036854775808 in Big. change (2 ^ 64) with 18446744073709551616. lia.
Qed.
Lemma lax_sequence_left x : lax_sequence x = Ret (match left_sequence x with None => None | Some q => Some (len x - len q) end).
Proof.
  unfold lax_sequence. destruct x as [|t l']; [reflexivity|]. rewrite len_cons. replace (0 =? 1 + len l') with false by lia.
  rewrite (byte_at_eq (t :: l') 0 [] t l') by reflexivity. cbn [obind left_sequence].
  destruct (b2n t =? 48) eqn:E; cbn [negb]; [|reflexivity]. destruct l' as [|b p]; [reflexivity|]. rewrite len_cons. replace (1 =? 1 + (1 + len p)) with false by lia.
  rewrite (byte_at_eq (t :: b :: p) 1 [t] b p) by reflexivity. cbn [obind]. destruct (b2n b <? 128) eqn:F; [f_equal; f_equal; lia|].
  replace (1 + (1 + len p) <? 2 + (b2n b - 128)) with (length p <? N.to_nat (b2n b - 128))%nat by (rewrite length_len; lia).
  destruct (length p <? N.to_nat (b2n b - 128))%nat eqn:G; [reflexivity|]. f_equal. f_equal. unfold len. rewrite skipn_length. lia.
Qed.
Lemma lax_value_here pre R post : lax_value (pre ++ R ++ post) (len pre) (len R) = Ret (if be_val R <? 2 ^ 256 then Some (be_val R) else None).
Proof.
  unfold lax_value. rewrite <- length_len, skip_zeros_here. cbn [obind]. pose proof (strip_fits R 32) as Hf. change (pow256 32) with (2 ^ 256) in Hf.
  destruct (be_val R <? 2 ^ 256) eqn:E.
  - replace (32 <? length (strip R))%nat with false by lia. destruct (strip_zeros R) as [z Hz]. pose proof (strip_length R) as Hn.
    rewrite !len_app. replace (len pre + len R - len (strip R) + N.of_nat (length (strip R)) <=? len pre + (len R + len post)) with true by (unfold len; lia).
    f_equal. f_equal. rewrite <- (strip_val R). f_equal.
    assert (Hp : N.to_nat (len pre + len R - len (strip R)) = length (pre ++ repeat x00 z))
      by (rewrite app_length, repeat_length; rewrite Hz at 1; unfold len; rewrite app_length, repeat_length; lia).
    rewrite Hp. rewrite Hz at 2. rewrite <- app_assoc, app_assoc, skipn_app, skipn_all, Nat.sub_diag. cbn [skipn app].
    rewrite firstn_app, firstn_all, Nat.sub_diag, firstn_O, app_nil_r. reflexivity.
  - replace (32 <? length (strip R))%nat with true by lia. reflexivity.
Qed.
Lemma order_fits : secp_order < 2 ^ 256. Proof. reflexivity. Qed.
Lemma signature_of_fits R S :
  match (if be_val R <? 2 ^ 256 then Some (be_val R) else None), (if be_val S <? 2 ^ 256 then Some (be_val S) else None) with
  | Some r, Some s => match parse_compact r s with Some y => y | None => (0, 0) end
  | _, _ => (0, 0)
  end = signature_of R S.
Proof.
  unfold parse_compact, signature_of. pose proof order_fits as O.
  destruct (be_val R <? 2 ^ 256) eqn:A, (be_val S <? 2 ^ 256) eqn:B;
    destruct (be_val R <? secp_order) eqn:C, (be_val S <? secp_order) eqn:D; cbn [andb]; try reflexivity; exfalso; lia.
Qed.

(* ---- the reader *)
Definition left_signature (x : bytes) : option (bytes * bytes) :=
  match left_sequence x with None => None | Some l =>
  match left_integer l with None => None | Some (R, l) =>
  match left_integer l with None => None | Some (T, _) => Some (R, T) end end end.
Lemma left_signature_exact x R S : left_signature x = Some (R, S) <-> holds_integers x R S.
Proof.
  unfold left_signature, holds_integers. split.
  - destruct (left_sequence x) as [p|] eqn:A; [|discriminate]. destruct (left_integer p) as [[R' q]|] eqn:B; [|discriminate].
    destruct (left_integer q) as [[S' r]|] eqn:C; [|discriminate]. intros X. assert (R' = R /\ S' = S) as [-> ->] by (split; congruence).
    apply left_sequence_exact in A as (l & -> & Hl). apply left_integer_exact in B as (lr & -> & Hr). apply left_integer_exact in C as (ls & -> & Hs).
    exists l, lr, ls, r. repeat split; assumption.
  - intros (l & lr & ls & rest & -> & Hl & Hr & Hs).
    rewrite (proj2 (left_sequence_exact _ _) (ex_intro _ l (conj eq_refl Hl))).
    rewrite (proj2 (left_integer_exact _ _ _) (ex_intro _ lr (conj eq_refl Hr))).
    rewrite (proj2 (left_integer_exact _ _ _) (ex_intro _ ls (conj eq_refl Hs))). reflexivity.
Qed.
Lemma lax_parse_left x : len x < 2 ^ 63 -> lax_parse x = Ret (match left_signature x with None => None | Some (R, T) => Some (signature_of R T) end).
Proof.
  intros Big. unfold lax_parse, left_signature. rewrite lax_sequence_left. cbn [obind]. destruct (left_sequence x) as [p|] eqn:A; [|reflexivity].
  apply left_sequence_exact in A as (l & -> & Hl). rewrite app_assoc in *.
  replace (len (([x30] ++ l) ++ p) - len p) with (len ([x30] ++ l)) by (rewrite (len_app _ p); lia).
  rewrite lax_integer_left by exact Big. cbn [obind]. destruct (left_integer p) as [[R q]|] eqn:B; [|reflexivity].
  apply left_integer_exact in B as (lr & -> & Hr). set (pre := [x30] ++ l) in *.
  set (x := pre ++ [x02] ++ lr ++ R ++ q) in *.
  assert (X1 : x = (pre ++ [x02] ++ lr ++ R) ++ q) by (unfold x; rewrite <- !app_assoc; reflexivity).
  assert (P1 : len x - len q = len (pre ++ [x02] ++ lr ++ R)) by (rewrite X1; rewrite (len_app _ q); lia).
  rewrite P1. rewrite X1 at 1. rewrite lax_integer_left by (rewrite <- X1; exact Big). cbn [obind]. destruct (left_integer q) as [[S r]|] eqn:C; [|reflexivity].
  apply left_integer_exact in C as (ls & -> & Hs). rewrite <- X1.
  assert (X2 : x = (pre ++ [x02] ++ lr) ++ R ++ ([x02] ++ ls ++ S ++ r)) by (unfold x; rewrite <- !app_assoc; reflexivity).
  assert (X3 : x = (pre ++ [x02] ++ lr ++ R ++ [x02] ++ ls) ++ S ++ r) by (unfold x; rewrite <- !app_assoc; reflexivity).
  replace (len (pre ++ [x02] ++ lr ++ R) - len R) with (len (pre ++ [x02] ++ lr)) by (rewrite !len_app; lia).
  replace (len x - len r - len S) with (len (pre ++ [x02] ++ lr ++ R ++ [x02] ++ ls)) by (rewrite X3; rewrite (len_app _ (S ++ r)), (len_app S); lia).
  rewrite X2 at 1. rewrite lax_value_here. cbn [obind]. rewrite X3 at 1. rewrite lax_value_here. cbn [obind]. rewrite signature_of_fits. reflexivity.
Qed.
Lemma lax_exact x y : len x < 2 ^ 63 -> lax_parse x = Ret (Some y) <-> exists R S, holds_integers x R S /\ y = signature_of R S.
Proof.
  intros Big. rewrite lax_parse_left by exact Big. split.
  - destruct (left_signature x) as [[R S]|] eqn:E; [|discriminate]. intros X. exists R, S. split; [apply left_signature_exact, E|congruence].
  - intros (R & S & H & ->). apply left_signature_exact in H. rewrite H. reflexivity.
Qed.
Lemma lax_refuses x : len x < 2 ^ 63 -> lax_parse x = Ret None <-> ~ exists R S, holds_integers x R S.
Proof.
  intros Big. rewrite lax_parse_left by exact Big. split.
  - intros X (R & S & H). apply left_signature_exact in H. rewrite H in X. discriminate.
  - intros H. destruct (left_signature x) as [[R S]|] eqn:E; [|reflexivity]. exfalso. apply H. exists R, S. apply left_signature_exact, E.
Qed.
Lemma lax_defined x : len x < 2 ^ 63 -> exists r, lax_parse x = Ret r.
Proof. intros Big. rewrite lax_parse_left by exact Big. eexists. reflexivity. Qed.
Lemma integers_determined x R S R' S' : holds_integers x R S -> holds_integers x R' S' -> R = R' /\ S = S'.
Proof. intros A B. apply left_signature_exact in A, B. split; congruence. Qed.
Lemma normalized_exact x : x <> [] -> len x < 2 ^ 63 ->
  (yes (sig_normalized x) <-> exists R S, holds_integers x R S /\ snd (signature_of R S) <= secp_order / 2) /\
  (sig_normalized x = Ret true \/ sig_normalized x = Ret false).
Proof.
  intros NE Big. unfold yes, sig_normalized. destruct x as [|c x']; [congruence|]. remember (c :: x') as x. rewrite lax_parse_left by exact Big. cbn [obind].
  destruct (left_signature x) as [[R S]|] eqn:E.
  - destruct (signature_of R S) as [r s] eqn:F. split.
    + split.
      * intros X. exists R, S. split; [apply left_signature_exact, E|]. rewrite F. cbn [snd]. assert (negb (secp_order / 2 <? s) = true) by congruence. lia.
      * intros (R' & S' & H & L). apply left_signature_exact in H. assert (R' = R /\ S' = S) as [-> ->] by (split; congruence). rewrite F in L. cbn [snd] in L. f_equal. lia.
    + destruct (secp_order / 2 <? s); [right|left]; reflexivity.
  - split; [|right; reflexivity]. split; [discriminate|]. intros (R & S & H & _). apply left_signature_exact in H. congruence.
Qed.
Lemma normalized_undefined x : len x < 2 ^ 63 -> sig_normalized x = Undef <-> x = [].
Proof.
  intros Big. split; [|intros ->; reflexivity]. intros U. destruct x as [|c x]; [reflexivity|exfalso].
  destruct (normalized_exact (c :: x) ltac:(discriminate) Big) as [_ [E|E]]; congruence.
Qed.
