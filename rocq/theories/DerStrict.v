(* Proofs about the encodings of signatures: strict encodings and points *)
From Coq Require Import Lia ZifyBool ZifyNat ZifyN.
From Verif Require Import Base BaseProofs WireModel WireProofs ScriptProofs NumModel TextModel BoostRunProofs DerModel DerSpec DerProofs.
Local Open Scope N_scope.

Lemma bit7 b : N.testbit (b2n b) 7 = (128 <=? b2n b).
Proof. destruct b; reflexivity. Qed.
Definition tightb (R : bytes) : bool :=
  match R with [] => false | a :: R' => negb (b2n a =? 0) || match R' with [] => false | b :: _ => 128 <=? b2n b end end.
Lemma tightb_iff R : tightb R = true <-> tight R.
Proof. destruct R as [|a [|b R]]; cbn [tightb tight]; [split; [discriminate|tauto]| |]; destruct (b2n a =? 0) eqn:E; cbn [negb orb]; lia. Qed.
Lemma no_padding_here pre R post : R <> [] -> no_padding (pre ++ R ++ post) (len pre) (len R) = Ret (tightb R).
Proof.
  intros NE. unfold no_padding. destruct R as [|a R]; [congruence|]. cbn [app]. rewrite byte_at_here. cbn [obind tightb]. destruct (b2n a =? 0) eqn:E; cbn [negb orb]; [|reflexivity].
  rewrite len_cons. destruct R as [|b R]; [reflexivity|]. rewrite len_cons. replace (1 <? 1 + (1 + len R)) with true by lia.
  rewrite (byte_at_eq _ _ (pre ++ [a]) b (R ++ post)); [cbn [obind]; rewrite bit7; reflexivity|rewrite <- app_assoc; reflexivity|rewrite len_app; reflexivity].
Qed.

(* ---- valid and minimal *)
Lemma sub_two n : 6 <= n -> n < 2 ^ 63 -> size_sub n 2 = n - 2.
Proof.
  intros A B. unfold size_sub. replace (2 ^ 64 + n - 2) with (n - 2 + 1 * 2 ^ 64) by (change (2 ^ 64) with 18446744073709551616; lia).
  rewrite N.mod_add by discriminate. apply N.mod_small. change (2 ^ 63) with 9223372036854775808 in B. change (2 ^ 64) with 18446744073709551616. lia.
Qed.
Lemma shape x : len x < 6 \/ (exists a b c d l, x = a :: b :: c :: d :: l /\ len l < b2n d + 2 /\ 6 <= len x) \/
  (exists a b c d R e f q, x = a :: b :: c :: d :: R ++ e :: f :: q /\ len R = b2n d).
Proof.
  destruct x as [|a [|b [|c [|d l]]]]; try (left; cbn; lia).
  destruct (N.lt_ge_cases (len (a :: b :: c :: d :: l)) 6) as [A|A]; [left; exact A|right].
  destruct (N.lt_ge_cases (len l) (b2n d + 2)) as [B|B]; [left; exists a, b, c, d, l; repeat split; assumption|right].
  assert (L : len (skipn (N.to_nat (b2n d)) l) = len l - b2n d) by (unfold len; rewrite skipn_length; lia).
  destruct (skipn (N.to_nat (b2n d)) l) as [|e [|f q]] eqn:E; [cbn in L; lia|change (len [e]) with 1 in L; lia|].
  exists a, b, c, d, (firstn (N.to_nat (b2n d)) l), e, f, q. rewrite <- E, firstn_skipn. split; [reflexivity|]. apply len_firstn. lia.
Qed.
Lemma valid_short x : len x < 6 -> sig_valid x = Ret false.
Proof. intros L. unfold sig_valid. replace (len x <? 6) with true by lia. reflexivity. Qed.
Lemma byte_0 a l : byte_at (a :: l) 0 = Ret (b2n a). Proof. apply (byte_at_here []). Qed.
Lemma byte_1 a b l : byte_at (a :: b :: l) 1 = Ret (b2n b). Proof. apply (byte_at_here [a]). Qed.
Lemma byte_2 a b c l : byte_at (a :: b :: c :: l) 2 = Ret (b2n c). Proof. apply (byte_at_here [a; b]). Qed.
Lemma byte_3 a b c d l : byte_at (a :: b :: c :: d :: l) 3 = Ret (b2n d). Proof. apply (byte_at_here [a; b; c]). Qed.
Lemma valid_cut a b c d l : len l < b2n d + 2 -> 6 <= len (a :: b :: c :: d :: l) -> len (a :: b :: c :: d :: l) < 2 ^ 63 -> sig_valid (a :: b :: c :: d :: l) = Ret false.
Proof.
  intros L G Big. unfold sig_valid. rewrite sub_two by assumption. replace (len (a :: b :: c :: d :: l) <? 6) with false by lia. rewrite byte_0, byte_1, byte_2, byte_3. cbn [obind].
  rewrite !len_cons. replace (1 + (1 + (1 + (1 + len l))) <? b2n d + 6) with true by lia.
  destruct (b2n a =? 48); cbn [negb]; [|reflexivity]. destruct (b2n b =? _); cbn [negb]; [|reflexivity]. destruct (b2n c =? 2); reflexivity.
Qed.
Definition framed (a b c : byte) (R : bytes) (e f : byte) (q : bytes) : bool :=
  (b2n a =? 0x30) && (b2n b =? len R + len q + 4) && (b2n c =? 2) && (b2n e =? 2) && (b2n f <=? len q).
Lemma len_shape a b c d R e f q : len (a :: b :: c :: d :: R ++ e :: f :: q) = len R + len q + 6.
Proof. rewrite !len_cons, len_app, !len_cons. lia. Qed.
Lemma byte_e a b c d R e f q : len R = b2n d -> byte_at (a :: b :: c :: d :: R ++ e :: f :: q) (4 + b2n d) = Ret (b2n e).
Proof. intros L. apply (byte_at_eq _ _ (a :: b :: c :: d :: R) e (f :: q)); [reflexivity|rewrite !len_cons; lia]. Qed.
Lemma byte_f a b c d R e f q : len R = b2n d -> byte_at (a :: b :: c :: d :: R ++ e :: f :: q) (5 + b2n d) = Ret (b2n f).
Proof.
  intros L. apply (byte_at_eq _ _ (a :: b :: c :: d :: R ++ [e]) f q); [cbn [app]; rewrite <- app_assoc; reflexivity|].
  rewrite !len_cons, len_app. change (len [e]) with 1. lia.
Qed.
Lemma valid_eq a b c d R e f q : len R = b2n d -> len (a :: b :: c :: d :: R ++ e :: f :: q) < 2 ^ 63 ->
  sig_valid (a :: b :: c :: d :: R ++ e :: f :: q) = Ret (framed a b c R e f q).
Proof.
  intros L Big. unfold sig_valid. rewrite sub_two by (rewrite ?len_shape in *; lia). rewrite byte_0, byte_1, byte_2, byte_3. rewrite len_shape in *.
  replace (len R + len q + 6 <? 6) with false by lia. cbn [obind]. rewrite byte_e, byte_f by exact L. cbn [obind].
  replace (len R + len q + 6 <? b2n d + 6) with false by lia. replace (len R + len q + 6 - 2) with (len R + len q + 4) by lia.
  replace (b2n d + b2n f + 6 <=? len R + len q + 6) with (b2n f <=? len q) by lia. unfold framed.
  destruct (b2n a =? 48); cbn [negb andb]; [|reflexivity]. destruct (b2n b =? _); cbn [negb andb]; [|reflexivity].
  destruct (b2n c =? 2); cbn [negb andb]; [|reflexivity]. destruct (b2n e =? 2); reflexivity.
Qed.
Lemma minimal_eq a b c d R e f q : len R = b2n d -> len (a :: b :: c :: d :: R ++ e :: f :: q) < 2 ^ 63 ->
  sig_minimal (a :: b :: c :: d :: R ++ e :: f :: q) = Ret (framed a b c R e f q && (len q =? b2n f) && tightb R && tightb q).
Proof.
  intros L Big. unfold sig_minimal. rewrite valid_eq by assumption. cbn [obind]. destruct (framed a b c R e f q); cbn [negb andb]; [|reflexivity].
  rewrite byte_3. cbn [obind]. rewrite byte_f by exact L. cbn [obind]. rewrite len_shape.
  replace (len R + len q + 6 =? 6 + b2n d + b2n f) with (len q =? b2n f) by lia. destruct (len q =? b2n f) eqn:E; cbn [negb andb]; [|reflexivity].
  rewrite <- L. destruct R as [|r R]; [reflexivity|]. replace (len (r :: R) =? 0) with false by (rewrite len_cons; lia).
  destruct q as [|s q]; [change (len []) with 0 in E; replace (b2n f =? 0) with true by lia; rewrite andb_false_r; reflexivity|].
  replace (b2n f =? 0) with false by (rewrite len_cons in E; lia).
  pose proof (no_padding_here [a; b; c; d] (r :: R) (e :: f :: s :: q) ltac:(discriminate)) as H1. cbn [app] in H1. cbn [app].
  change (len [a; b; c; d]) with 4 in H1. rewrite H1. cbn [obind]. destruct (tightb (r :: R)); cbn [negb andb]; [|reflexivity].
  pose proof (no_padding_here (a :: b :: c :: d :: (r :: R) ++ [e; f]) (s :: q) [] ltac:(discriminate)) as H2. rewrite app_nil_r in H2. cbn [app] in H2. rewrite <- app_assoc in H2. cbn [app] in H2.
  replace (6 + len (r :: R)) with (len (a :: b :: c :: d :: r :: R ++ [e; f])) by (rewrite !len_cons, len_app; change (len [e; f]) with 2; lia).
  replace (b2n f) with (len (s :: q)) by lia. exact H2.
Qed.
Lemma valid_defined x : len x < 2 ^ 63 -> yes (sig_valid x) \/ no (sig_valid x).
Proof.
  intros Big. unfold yes, no. destruct (shape x) as [L|[(a & b & c & d & l & -> & L & G)|(a & b & c & d & R & e & f & q & -> & L)]].
  - right. apply valid_short, L.
  - right. apply valid_cut; assumption.
  - rewrite valid_eq by assumption. destruct (framed a b c R e f q); [left|right]; reflexivity.
Qed.
Lemma minimal_false x : sig_valid x = Ret false -> sig_minimal x = Ret false.
Proof. intros E. unfold sig_minimal. rewrite E. reflexivity. Qed.
Lemma minimal_defined x : len x < 2 ^ 63 -> yes (sig_minimal x) \/ no (sig_minimal x).
Proof.
  intros Big. unfold yes, no. destruct (shape x) as [L|[(a & b & c & d & l & -> & L & G)|(a & b & c & d & R & e & f & q & -> & L)]].
  - right. apply minimal_false, valid_short, L.
  - right. apply minimal_false, valid_cut; assumption.
  - rewrite minimal_eq by assumption. destruct (framed _ _ _ _ _ _ _ && _ && _ && _); [left|right]; reflexivity.
Qed.
Lemma byte_is n b : b2n b = n -> b = n2b n.
Proof. intros <-. symmetry. apply n2b_b2n. Qed.
Lemma valid_exact x : len x < 2 ^ 63 -> yes (sig_valid x) <->
  exists R T rest, x = [x30; n2b (len x - 2); x02; n2b (len R)] ++ R ++ [x02; n2b (len T)] ++ T ++ rest /\ len x <= 257.
Proof.
  intros Big. unfold yes. split.
  - destruct (shape x) as [L|[(a & b & c & d & l & -> & L & G)|(a & b & c & d & R & e & f & q & -> & L)]].
    + rewrite valid_short by exact L. discriminate.
    + rewrite valid_cut by assumption. discriminate.
    + rewrite valid_eq by assumption. unfold framed. intros X. assert (Y : (b2n a =? 48) && (b2n b =? len R + len q + 4) && (b2n c =? 2) && (b2n e =? 2) && (b2n f <=? len q) = true) by congruence. clear X.
      rewrite !andb_true_iff in Y. destruct Y as ((((A & B) & C) & E) & F). exists R, (firstn (N.to_nat (b2n f)) q), (skipn (N.to_nat (b2n f)) q).
      rewrite firstn_skipn, len_firstn by lia. pose proof (b2n_lt b). rewrite len_shape. split; [|lia]. cbn [app].
      rewrite (byte_is 48 a), (byte_is (len R + len q + 4) b), (byte_is 2 c), (byte_is (len R) d), (byte_is 2 e) by lia. rewrite n2b_b2n.
      replace (len R + len q + 6 - 2) with (len R + len q + 4) by lia. reflexivity.
  - intros (R & T & rest & X & S257).
    assert (E : len x = len R + len (T ++ rest) + 6) by (rewrite X at 1; cbn [app]; apply len_shape). rewrite len_app in E.
    cbn [app] in X. rewrite X. rewrite valid_eq; [|rewrite n2b_val; lia|rewrite <- X; exact Big]. unfold framed. rewrite !n2b_val by lia. rewrite len_app.
    change (b2n x30) with 48. change (b2n x02) with 2. f_equal. lia.
Qed.
Lemma minimal_exact x : len x < 2 ^ 63 -> yes (sig_minimal x) <-> exists R T, x = wrapped R T /\ len x <= 257 /\ tight R /\ tight T.
Proof.
  intros Big. unfold yes. split.
  - destruct (shape x) as [L|[(a & b & c & d & l & -> & L & G)|(a & b & c & d & R & e & f & q & -> & L)]].
    + rewrite minimal_false by (apply valid_short, L). discriminate.
    + rewrite minimal_false by (apply valid_cut; assumption). discriminate.
    + rewrite minimal_eq by assumption. unfold framed. intros X.
      assert (Y : (b2n a =? 48) && (b2n b =? len R + len q + 4) && (b2n c =? 2) && (b2n e =? 2) && (b2n f <=? len q) && (len q =? b2n f) && tightb R && tightb q = true) by congruence. clear X.
      rewrite !andb_true_iff in Y. destruct Y as (((((((A & B) & C) & E) & F) & H) & T1) & T2). exists R, q. pose proof (b2n_lt b). rewrite len_shape.
      split; [|split; [lia|split; apply tightb_iff; assumption]]. unfold wrapped. cbn [app].
      rewrite (byte_is 48 a), (byte_is (len R + len q + 4) b), (byte_is 2 c), (byte_is (len R) d), (byte_is 2 e), (byte_is (len q) f) by lia. reflexivity.
  - intros (R & T & -> & S257 & T1 & T2). unfold wrapped in *. cbn [app] in *. rewrite len_shape in S257. rewrite minimal_eq; [|rewrite n2b_val; lia|exact Big]. unfold framed.
    rewrite !n2b_val by lia. apply tightb_iff in T1, T2. rewrite T1, T2. change (b2n x30) with 48. change (b2n x02) with 2. f_equal. lia.
Qed.

(* ---- integers *)
Lemma size_le n k : n < 2 ^ k -> N.size n <= k.
Proof. intros L. destruct (N.eq_dec n 0) as [->|NZ]; [cbn; lia|]. rewrite N.size_log2 by exact NZ. pose proof (proj1 (N.log2_lt_pow2 n k ltac:(lia)) L). lia. Qed.
Lemma size_ge n k : 2 ^ k <= n -> k < N.size n.
Proof.
  intros L. assert (n <> 0) by (pose proof (N.pow_nonzero 2 k ltac:(lia)); lia). rewrite N.size_log2 by assumption.
  pose proof (proj1 (N.log2_le_pow2 n k ltac:(lia)) L). lia.
Qed.
Lemma pow256_two k : pow256 k = 2 ^ (8 * N.of_nat k).
Proof. unfold pow256. change 256 with (2 ^ 8). rewrite <- N.pow_mul_r. reflexivity. Qed.
Lemma double_half k : 128 * 2 ^ (8 * k) = 2 ^ (8 * k + 7).
Proof. rewrite N.pow_add_r. change (2 ^ 7) with 128. lia. Qed.
Lemma bip66_size R : bip66_integer R -> N.size (be_val R) / 8 + 1 = len R.
Proof.
  destruct R as [|a R]; cbn [bip66_integer]; [tauto|]. intros [A B]. rewrite be_val_cons, len_cons. pose proof (be_val_bound R) as V. rewrite pow256_two in *.
  assert (U : N.size (b2n a * 2 ^ (8 * N.of_nat (length R)) + be_val R) <= 8 * len R + 7).
  { apply size_le. rewrite <- double_half. unfold len. nia. }
  assert (W : R = [] \/ 8 * len R <= N.size (b2n a * 2 ^ (8 * N.of_nat (length R)) + be_val R)).
  { destruct R as [|b R]; [left; reflexivity|right]. destruct (N.eq_dec (b2n a) 0) as [Z|NZ].
    - specialize (B Z). rewrite Z, N.mul_0_l, N.add_0_l, be_val_cons, pow256_two. rewrite len_cons.
      assert (8 * len R + 7 < N.size (b2n b * 2 ^ (8 * N.of_nat (length R)) + be_val R)); [|lia].
      apply size_ge. rewrite <- double_half. unfold len. nia.
    - apply N.lt_le_incl, size_ge. unfold len. nia. }
  destruct W as [->|W].
  - change (len []) with 0 in *. assert (N.size (b2n a * 2 ^ (8 * N.of_nat (length (@nil byte))) + be_val []) / 8 = 0) by (apply N.div_small; lia). lia.
  - assert (N.size (b2n a * 2 ^ (8 * N.of_nat (length R)) + be_val R) / 8 = len R); [|lia]. symmetry. apply N.div_unique with (N.size (b2n a * 2 ^ (8 * N.of_nat (length R)) + be_val R) - 8 * len R); lia.
Qed.
Lemma bip66_der R : bip66_integer R -> R = der_integer (be_val R).
Proof. intros H. unfold der_integer. rewrite (bip66_size _ H), <- length_len. symmetry. apply be_be_val. Qed.
Lemma der_fits n : n < 2 ^ (8 * (N.size n / 8 + 1) - 1).
Proof.
  apply N.lt_le_trans with (1 := N.size_gt n). apply N.pow_le_mono_r; [lia|]. pose proof (N.div_mod (N.size n) 8 ltac:(lia)). pose proof (N.mod_lt (N.size n) 8 ltac:(lia)). lia.
Qed.
Lemma der_len n : len (der_integer n) = N.size n / 8 + 1.
Proof. unfold der_integer, len. rewrite be_length. lia. Qed.
Lemma der_val n : be_val (der_integer n) = n.
Proof.
  unfold der_integer. rewrite be_val_be. apply N.mod_small. rewrite pow256_two. pose proof (der_fits n).
  apply N.lt_le_trans with (1 := H). apply N.pow_le_mono_r; lia.
Qed.
Lemma der_bip66 n : bip66_integer (der_integer n).
Proof.
  pose proof (der_val n) as V. pose proof (der_len n) as L. pose proof (der_fits n) as F.
  destruct (der_integer n) as [|a R] eqn:E; [change (len []) with 0 in L; lia|]. cbn [bip66_integer]. rewrite len_cons in L. rewrite be_val_cons, pow256_two in V.
  replace (8 * (N.size n / 8 + 1) - 1) with (8 * len R + 7) in F by lia. rewrite <- double_half in F. unfold len in *. pose proof (N.pow_nonzero 2 (8 * N.of_nat (length R)) ltac:(lia)).
  split; [nia|]. intros Z. destruct R as [|b R]; [exact Logic.I|]. destruct (N.lt_ge_cases (b2n b) 128) as [G|G]; [exfalso|exact G].
  rewrite Z, N.mul_0_l, N.add_0_l, be_val_cons, pow256_two in V. pose proof (be_val_bound R) as W. rewrite pow256_two in W.
  assert (Q : n < 2 ^ (8 * N.of_nat (length R) + 7)) by (rewrite <- double_half; nia). apply size_le in Q. cbn [length] in L.
  pose proof (N.div_mod (N.size n) 8 ltac:(lia)). lia.
Qed.
Lemma der_integer_inj a b : der_integer a = der_integer b -> a = b.
Proof. intros E. rewrite <- (der_val a), <- (der_val b), E. reflexivity. Qed.
Lemma tight_der n : tight (der_integer n) <-> n <> 0.
Proof.
  pose proof (der_bip66 n) as B. pose proof (der_val n) as V. destruct (der_integer n) as [|a R] eqn:E; [cbn in B; tauto|]. cbn [bip66_integer tight] in *.
  destruct R as [|b R].
  - assert (b2n a = n) by (rewrite <- V, be_val_cons; cbn [length]; rewrite pow256_0; unfold be_val; cbn [rev le_val]; lia). lia.
  - destruct B as [B C]. split; [|intros _; exact C]. intros _ Z. rewrite Z in *. rewrite be_val_cons in V.
    destruct (N.eq_dec (b2n a) 0) as [A|A]; [|pose proof (pow256_pos (length (b :: R))); nia]. specialize (C A). rewrite be_val_cons in V. pose proof (pow256_pos (length R)). nia.
Qed.
Lemma der_len_le n k : n < 2 ^ (8 * k) -> len (der_integer n) <= k + 1.
Proof. intros L. rewrite der_len. apply size_le in L. pose proof (N.div_le_mono _ _ 8 ltac:(lia) L). rewrite N.mul_comm, N.div_mul in H by lia. lia. Qed.
Lemma len_wrapped R T : len (wrapped R T) = len R + len T + 6.
Proof. unfold wrapped. cbn [app]. apply len_shape. Qed.
Lemma order_256 n : n < secp_order -> n < 2 ^ (8 * 32).
Proof. intros L. pose proof order_fits. change (8 * 32) with 256. lia. Qed.
Lemma der_size r s : r < 2 ^ 256 -> s < 2 ^ 256 -> len (der_signature r s) <= 72.
Proof. intros A B. unfold der_signature. rewrite len_wrapped. pose proof (der_len_le r 32 A). pose proof (der_len_le s 32 B). lia. Qed.
Lemma wrapped_holds R T rest : len R < 128 -> len T < 128 -> len R + len T + 4 < 128 -> holds_integers (wrapped R T ++ rest) R T.
Proof.
  intros A B C. exists [n2b (len R + len T + 4)], [n2b (len R)], [n2b (len T)], rest. split; [unfold wrapped; cbn [app]; rewrite <- !app_assoc; reflexivity|].
  split; [left; exists (n2b (len R + len T + 4)); split; [reflexivity|rewrite n2b_val; lia]|].
  split; left; eexists; (split; [reflexivity|]); rewrite n2b_val by lia; split; lia.
Qed.
Lemma der_holds r s rest : r < 2 ^ 256 -> s < 2 ^ 256 -> holds_integers (der_signature r s ++ rest) (der_integer r) (der_integer s).
Proof. intros A B. pose proof (der_len_le r 32 A). pose proof (der_len_le s 32 B). apply wrapped_holds; lia. Qed.
Lemma signature_of_der r s : r < secp_order -> s < secp_order -> signature_of (der_integer r) (der_integer s) = (r, s).
Proof. intros A B. unfold signature_of. rewrite !der_val. replace (r <? secp_order) with true by lia. replace (s <? secp_order) with true by lia. reflexivity. Qed.
Lemma lax_reads_der r s rest : r < secp_order -> s < secp_order -> len (der_signature r s ++ rest) < 2 ^ 63 -> lax_parse (der_signature r s ++ rest) = Ret (Some (r, s)).
Proof.
  intros A B Big. apply lax_exact; [exact Big|]. exists (der_integer r), (der_integer s). split; [|symmetry; apply signature_of_der; assumption].
  apply der_holds; apply (order_256 _); assumption.
Qed.
Lemma wrapped_inj R T R' T' : len R < 256 -> len R' < 256 -> wrapped R T = wrapped R' T' -> R = R' /\ T = T'.
Proof.
  unfold wrapped. cbn [app]. intros A B E. assert (L : n2b (len R) = n2b (len R')) by congruence. assert (F : R ++ x02 :: n2b (len T) :: T = R' ++ x02 :: n2b (len T') :: T') by congruence.
  assert (len R = len R') by (rewrite <- (n2b_val (len R)), <- (n2b_val (len R')) by assumption; rewrite L; reflexivity).
  apply app_inj_len in F; [|unfold len in *; lia]. destruct F as [-> F]. split; [reflexivity|congruence].
Qed.
Lemma der_inj r s r' s' : r < 2 ^ 256 -> s < 2 ^ 256 -> r' < 2 ^ 256 -> s' < 2 ^ 256 -> der_signature r s = der_signature r' s' -> r = r' /\ s = s'.
Proof.
  intros A B C D E. pose proof (der_len_le r 32 A). pose proof (der_len_le r' 32 C). apply wrapped_inj in E; [|lia|lia]. destruct E as [E F]. split; apply der_integer_inj; assumption.
Qed.
Lemma der_minimal r s : r < 2 ^ 256 -> s < 2 ^ 256 -> (yes (sig_minimal (der_signature r s)) <-> r <> 0 /\ s <> 0).
Proof.
  intros A B. pose proof (der_size r s A B) as Z. assert (Big : len (der_signature r s) < 2 ^ 63) by (change (2 ^ 63) with 9223372036854775808; lia).
  rewrite minimal_exact by exact Big. split.
  - intros (R & T & E & Q & T1 & T2). pose proof (der_len_le r 32 A). apply wrapped_inj in E; [|lia|rewrite E, len_wrapped in Q; lia]. destruct E as [<- <-]. apply tight_der in T1, T2. split; assumption.
  - intros [P Q]. exists (der_integer r), (der_integer s). split; [reflexivity|]. split; [lia|]. split; apply tight_der; assumption.
Qed.
Lemma der_normalized r s : r < secp_order -> s < secp_order -> sig_normalized (der_signature r s) = Ret (s <=? secp_order / 2).
Proof.
  intros A B. pose proof (lax_reads_der r s [] A B) as H. rewrite app_nil_r in H.
  assert (Big : len (der_signature r s) < 2 ^ 63) by (pose proof (der_size r s (order_256 _ A) (order_256 _ B)); change (2 ^ 63) with 9223372036854775808; lia).
  specialize (H Big). unfold sig_normalized. destruct (der_signature r s) as [|c l] eqn:E; [discriminate|]. rewrite H. cbn [obind]. f_equal. lia.
Qed.
Lemma bip66_exact x : bip66 x <-> exists r s, x = der_signature r s /\ len x <= 72.
Proof.
  split.
  - intros (R & T & -> & L & A & B). exists (be_val R), (be_val T). unfold der_signature. rewrite <- bip66_der, <- bip66_der by assumption. split; [reflexivity|exact L].
  - intros (r & s & -> & L). exists (der_integer r), (der_integer s). split; [reflexivity|]. split; [exact L|]. split; apply der_bip66.
Qed.
(* of the two signatures that verify with the same r, one is normalized *)
Lemma one_of_two r s : r < secp_order -> 0 < s -> s < secp_order ->
  (yes (sig_normalized (der_signature r s)) <-> no (sig_normalized (der_signature r (secp_order - s)))).
Proof.
  intros A B C. unfold yes, no. rewrite !der_normalized by lia. assert (O : secp_order = 2 * (secp_order / 2) + 1) by reflexivity.
  destruct (s <=? secp_order / 2) eqn:E.
  - replace (secp_order - s <=? secp_order / 2) with false by lia. tauto.
  - replace (secp_order - s <=? secp_order / 2) with true by lia. split; discriminate.
Qed.
Lemma produced r s : 0 < r -> r < secp_order -> 0 < s -> s <= secp_order / 2 ->
  yes (sig_minimal (der_signature r s)) /\ yes (sig_normalized (der_signature r s)) /\ bip66 (der_signature r s) /\ len (der_signature r s) <= 72 /\
  lax_parse (der_signature r s) = Ret (Some (r, s)).
Proof.
  intros A B C D. assert (E : s < secp_order) by (assert (secp_order / 2 < secp_order) by reflexivity; lia).
  pose proof (order_256 _ B) as B'. pose proof (order_256 _ E) as E'. pose proof (der_size r s B' E') as L.
  split; [apply der_minimal; [assumption|assumption|lia]|]. split; [unfold yes; rewrite der_normalized by assumption; f_equal; lia|].
  split; [apply bip66_exact; exists r, s; split; [reflexivity|exact L]|]. split; [exact L|].
  rewrite <- (app_nil_r (der_signature r s)). apply lax_reads_der; [assumption|assumption|]. rewrite app_nil_r. change (2 ^ 63) with 9223372036854775808. lia.
Qed.
(* what passes both tests has been read by the lax reader *)
Lemma accepted_reads x : yes (sig_minimal x) -> len x <= 129 -> exists R T, x = wrapped R T /\ tight R /\ tight T /\ lax_parse x = Ret (Some (signature_of R T)).
Proof.
  intros M L. assert (Big : len x < 2 ^ 63) by (change (2 ^ 63) with 9223372036854775808; lia). apply (proj1 (minimal_exact x Big)) in M as (R & T & E & _ & A & B).
  exists R, T. split; [exact E|]. split; [exact A|]. split; [exact B|]. apply lax_exact; [exact Big|]. exists R, T. split; [|reflexivity].
  rewrite E in *. rewrite len_wrapped in L. rewrite <- (app_nil_r (wrapped R T)). apply wrapped_holds; lia.
Qed.
Lemma checked_in_order x : len x < 2 ^ 63 -> yes (sig_minimal x) -> yes (sig_normalized x) \/ no (sig_normalized x).
Proof.
  intros Big M. destruct x as [|c l]; [discriminate M|]. destruct (normalized_exact (c :: l) ltac:(discriminate) Big) as [_ H]. exact H.
Qed.
Lemma positive_unique x : yes (sig_minimal x) -> bip66 x -> exists r s, x = der_signature r s /\ 0 < r /\ 0 < s.
Proof.
  intros M Bp. pose proof Bp as (R & T & E & L & A & B).
  assert (Big : len x < 2 ^ 63) by (change (2 ^ 63) with 9223372036854775808; lia). apply (proj1 (minimal_exact x Big)) in M as (R' & T' & E' & L' & A' & B').
  assert (L1 : len x = len R + len T + 6) by (rewrite E; apply len_wrapped). assert (L2 : len x = len R' + len T' + 6) by (rewrite E'; apply len_wrapped).
  rewrite E in E'. apply wrapped_inj in E'; [|lia|lia]. destruct E' as [<- <-].
  assert (P : tight (der_integer (be_val R))) by (rewrite <- bip66_der; assumption). assert (Q : tight (der_integer (be_val T))) by (rewrite <- bip66_der; assumption).
  apply tight_der in P, Q. exists (be_val R), (be_val T). unfold der_signature. rewrite <- !bip66_der by assumption. split; [exact E|]. split; lia.
Qed.

(* ---- points *)
Definition lastnz := fix last_nonzero (i : N) (l : bytes) (acc : N) : N :=
  match l with [] => acc | x :: l' => last_nonzero (i + 1) l' (if b2n x =? 0 then acc else i + 1) end.
Lemma lastnz_zeros z : forall i acc, lastnz i (repeat x00 z) acc = acc.
Proof. induction z as [|z IH]; intros i acc; [reflexivity|]. cbn [repeat lastnz]. change (b2n x00 =? 0) with true. apply IH. Qed.
Lemma lastnz_app v c z : b2n c <> 0 -> forall i acc, lastnz i (v ++ c :: repeat x00 z) acc = i + len v + 1.
Proof.
  intros NZ. induction v as [|d v IH]; intros i acc; cbn [app lastnz].
  - replace (b2n c =? 0) with false by lia. rewrite lastnz_zeros. change (len []) with 0. lia.
  - rewrite IH, len_cons. lia.
Qed.
Lemma repeat_rev (z : nat) : rev (repeat x00 z) = repeat x00 z.
Proof. induction z as [|z IH]; [reflexivity|]. cbn [repeat rev]. rewrite IH. symmetry. apply repeat_cons. Qed.
Lemma strip_head v c w : strip v = c :: w -> b2n c <> 0.
Proof. induction v as [|d v IH]; cbn [strip]; [discriminate|]. destruct (b2n d =? 0) eqn:E; [exact IH|]. intros X. assert (d = c) as -> by congruence. lia. Qed.
Lemma uint_size_exact u : uint_serialized_size u = if le_val u =? 0 then 1 else N.size (le_val u) / 8 + 2.
Proof.
  unfold uint_serialized_size. fold lastnz. replace (le_val u) with (be_val (rev u)) by (unfold be_val; rewrite rev_involutive; reflexivity).
  destruct (strip_zeros (rev u)) as [z Hz]. rewrite <- strip_val.
  assert (Hu : u = rev (strip (rev u)) ++ repeat x00 z) by (rewrite <- (repeat_rev z), <- rev_app_distr, <- Hz, rev_involutive; reflexivity).
  destruct (strip (rev u)) as [|c w] eqn:E.
  - rewrite Hu. cbn [rev app]. rewrite lastnz_zeros. reflexivity.
  - pose proof (strip_head _ _ _ E) as NZ. cbn [rev] in Hu. rewrite <- app_assoc in Hu. cbn [app] in Hu. rewrite Hu, lastnz_app by exact NZ. rewrite N.add_0_l.
    replace (len (rev w) + 1 =? 0) with false by lia. rewrite N.add_sub. unfold len at 1. rewrite Nnat.Nat2N.id, app_nth2, Nat.sub_diag by lia. cbn [nth].
    assert (Lw : len (rev w) = len w) by (unfold len; rewrite rev_length; reflexivity). rewrite Lw.
    pose proof (be_val_bound w) as Bw. rewrite be_val_cons. rewrite pow256_two in *. pose proof (N.pow_nonzero 2 (8 * N.of_nat (length w)) ltac:(lia)) as P.
    replace (b2n c * 2 ^ (8 * N.of_nat (length w)) + be_val w =? 0) with false by nia. change (N.of_nat (length w)) with (len w) in *.
    pose proof (b2n_lt c). destruct (0x80 <=? b2n c) eqn:F.
    + assert (G : 8 * len w + 7 < N.size (b2n c * 2 ^ (8 * len w) + be_val w)) by (apply size_ge; rewrite <- double_half; nia).
      assert (K : N.size (b2n c * 2 ^ (8 * len w) + be_val w) <= 8 * (len w + 1)).
      { apply size_le. replace (8 * (len w + 1)) with (8 * len w + 8) by lia. rewrite N.pow_add_r. change (2 ^ 8) with 256. nia. }
      assert (N.size (b2n c * 2 ^ (8 * len w) + be_val w) / 8 = len w + 1); [|lia]. symmetry. apply N.div_unique with 0; lia.
    + assert (G : 8 * len w < N.size (b2n c * 2 ^ (8 * len w) + be_val w)) by (apply size_ge; nia).
      assert (K : N.size (b2n c * 2 ^ (8 * len w) + be_val w) <= 8 * len w + 7) by (apply size_le; rewrite <- double_half; nia).
      assert (N.size (b2n c * 2 ^ (8 * len w) + be_val w) / 8 = len w); [|lia].
      symmetry. apply N.div_unique with (N.size (b2n c * 2 ^ (8 * len w) + be_val w) - 8 * len w); lia.
Qed.
Lemma le_val_le32 n : n < 2 ^ 256 -> le_val (le 32 n) = n.
Proof. intros L. rewrite le_val_le. apply N.mod_small. exact L. Qed.
Lemma declared_exact n : n < 2 ^ 256 -> uint_serialized_size (le 32 n) = point_part n.
Proof. intros L. rewrite uint_size_exact, le_val_le32 by exact L. unfold point_part. reflexivity. Qed.
Lemma point_part_range n : n < 2 ^ 256 -> 1 <= point_part n <= 34.
Proof.
  intros L. unfold point_part. destruct (n =? 0); [lia|]. apply size_le in L. pose proof (N.div_le_mono _ _ 8 ltac:(lia) L) as H. change (256 / 8) with 32 in H. lia.
Qed.
Lemma point_written r s : r < 2 ^ 256 -> s < 2 ^ 256 -> point_write r s = [x30; n2b (point_part r + point_part s + 4)] ++ le 32 r ++ le 32 s.
Proof.
  intros A B. unfold point_write. rewrite !declared_exact by assumption. pose proof (point_part_range r A). pose proof (point_part_range s B).
  unfold var_int_write. replace (point_part r + point_part s + 4 <=? 252) with true by lia. reflexivity.
Qed.
Lemma point_read_exact r s rest : r < 2 ^ 256 -> s < 2 ^ 256 -> point_read (point_write r s ++ rest) =
  let size := point_part r + point_part s + 4 in
  if (size <? 64) || (64 + len rest <? size) then None else Some ((r, s), skipn (N.to_nat (size - 64)) rest).
Proof.
  intros A B. rewrite point_written by assumption. pose proof (point_part_range r A). pose proof (point_part_range s B). cbn zeta.
  set (size := point_part r + point_part s + 4) in *. unfold point_read, rd_bind, rd_byte, rd_ret. cbn [app]. change (b2n x30 =? 48) with true. cbn [negb].
  rewrite n2b_val by lia. replace (size <? 4) with false by lia. unfold rd_bytes. rewrite <- app_assoc, !app_length, !le_length.
  replace (N.of_nat (32 + (32 + length rest))) with (64 + len rest) by (unfold len; lia).
  destruct (64 + len rest <? size) eqn:E; [rewrite orb_true_r; reflexivity|]. rewrite orb_false_r.
  unfold rd_le, rd_bind, rd_bytes, rd_ret. rewrite firstn_length, !app_length, !le_length.
  replace (N.of_nat (Nat.min (N.to_nat size) (32 + (32 + length rest)))) with size by (unfold len in E; lia).
  destruct (size <? N.of_nat 32) eqn:F; [replace (size <? 64) with true by lia; reflexivity|].
  rewrite skipn_length, firstn_length, !app_length, !le_length.
  replace (N.of_nat (Nat.min (N.to_nat size) (32 + (32 + length rest)) - N.to_nat (N.of_nat 32))) with (size - 32) by (unfold len in E; lia).
  destruct (size - 32 <? N.of_nat 32) eqn:G; [replace (size <? 64) with true by lia; reflexivity|]. replace (size <? 64) with false by lia.
  assert (S1 : firstn (N.to_nat size) (le 32 r ++ le 32 s ++ rest) = le 32 r ++ le 32 s ++ firstn (N.to_nat size - 64) rest).
  { rewrite !firstn_app, !le_length. rewrite !firstn_all2 by (rewrite le_length; lia). do 3 f_equal. lia. }
  rewrite S1. rewrite Nnat.Nat2N.id.
  assert (A1 : forall (x y : bytes), length x = 32%nat -> firstn 32 (x ++ y) = x) by (intros x y Q; rewrite <- Q, firstn_app, firstn_all, Nat.sub_diag, firstn_O, app_nil_r; reflexivity).
  assert (A2 : forall (x y : bytes), length x = 32%nat -> skipn 32 (x ++ y) = y) by (intros x y Q; rewrite <- Q, skipn_app, skipn_all, Nat.sub_diag; reflexivity).
  rewrite !A1, !A2 by apply le_length. rewrite A1 by apply le_length. rewrite !le_val_le32 by assumption. f_equal. f_equal.
  rewrite !skipn_app, !le_length. rewrite !skipn_all2 by (rewrite le_length; lia). cbn [app]. f_equal. lia.
Qed.
Lemma point_round_trip r s : r < 2 ^ 256 -> s < 2 ^ 256 -> point_read (point_write r s) = Some ((r, s), []) <-> point_part r + point_part s = 60.
Proof.
  intros A B. rewrite <- (app_nil_r (point_write r s)), point_read_exact by assumption. cbn zeta. change (len []) with 0. rewrite skipn_nil.
  destruct ((point_part r + point_part s + 4 <? 64) || (64 + 0 <? point_part r + point_part s + 4)) eqn:E; [split; [discriminate|lia]|split; [lia|reflexivity]].
Qed.
Lemma point_usual r s : 2 ^ 248 <= r -> r < 2 ^ 256 -> 2 ^ 248 <= s -> s < 2 ^ 256 -> point_read (point_write r s) = None.
Proof.
  intros A B C D. rewrite <- (app_nil_r (point_write r s)), point_read_exact by assumption. cbn zeta. change (len []) with 0.
  assert (G : forall n, 2 ^ 248 <= n -> 33 <= point_part n).
  { intros n L. unfold point_part. replace (n =? 0) with false by (assert (0 < 2 ^ 248) by reflexivity; lia). apply size_ge in L. assert (248 <= N.size n) as L' by lia.
    pose proof (N.div_le_mono _ _ 8 ltac:(lia) L') as H. change (248 / 8) with 31 in H. lia. }
  pose proof (G r A). pose proof (G s C). replace (64 + 0 <? point_part r + point_part s + 4) with true by lia. rewrite orb_true_r. reflexivity.
Qed.
Lemma signature_of_point_exact r s d : r < 2 ^ 256 -> s < 2 ^ 256 -> signature_of_point r s d = Some (point_write r s ++ [d] ++ repeat x00 4).
Proof.
  intros A B. unfold signature_of_point, buffer_write. rewrite point_written by assumption.
  assert (L : length (([x30; n2b (point_part r + point_part s + 4)] ++ le 32 r ++ le 32 s) ++ [d]) = 67%nat) by (rewrite !app_length, !le_length; reflexivity).
  unfold len. rewrite L. replace (32 + 32 + 6 + 1 <? N.of_nat 67) with false by reflexivity. rewrite <- app_assoc. reflexivity.
Qed.
