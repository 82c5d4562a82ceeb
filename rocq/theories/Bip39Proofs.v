(* Proofs about mnemonic sentences. *)
From Coq Require Import Lia ZifyBool ZifyNat ZifyN.
From Verif Require Import Base BaseProofs WireModel MerkleModel TextModel Bip39Words Bip39Model Bip39Spec Bip39Bits.
Local Open Scope N_scope.

Definition electrum_label : bytes := [x65; x6c; x65; x63; x74; x72; x75; x6d].

(* ---- words ---- *)
Lemma letter_facts c : letter c = true -> is_space c = false /\ byte_eqb c x20 = false.
Proof.
  assert (G : forallb (fun n => negb (letter (n2b (N.of_nat n))) || (negb (is_space (n2b (N.of_nat n))) && negb (byte_eqb (n2b (N.of_nat n)) x20))) (seq 0 256) = true) by (vm_compute; reflexivity).
  intros L. rewrite forallb_forall in G. pose proof (b2n_lt c). specialize (G (N.to_nat (b2n c)) ltac:(apply List.in_seq; lia)). cbv beta in G. rewrite N2Nat.id, n2b_b2n, L in G.
  destruct (is_space c), (byte_eqb c x20); try discriminate. split; reflexivity.
Qed.
Lemma word_letters w : word w = true -> w <> [] /\ Forall (fun c => letter c = true) w.
Proof. unfold word. destruct w as [|c r]; [discriminate|]. intros W. split; [discriminate|]. apply Forall_forall. apply forallb_forall. exact W. Qed.

(* ---- splitting and joining ---- *)
Lemma split_nospace w : Forall (fun c => letter c = true) w -> forall cur r, split_any [x20] cur (w ++ r) = split_any [x20] (rev w ++ cur) r.
Proof.
  induction 1 as [|c w L F IH]; intros cur r; [reflexivity|]. cbn [app split_any existsb]. destruct (letter_facts c L) as [_ ->]. cbn [orb]. rewrite IH. cbn [rev]. rewrite <- app_assoc. reflexivity.
Qed.
Lemma split_join l : l <> [] -> Forall (fun w => word w = true) l -> split_any [x20] [] (join l) = l.
Proof.
  induction l as [|w l IH]; intros Ne F; [congruence|]. apply Forall_cons_iff in F. destruct F as [W F]. destruct (word_letters w W) as [_ Lw].
  destruct l as [|v l].
  - cbn [join]. rewrite <- (app_nil_r w) at 1. rewrite split_nospace by exact Lw. cbn [split_any]. rewrite app_nil_r, rev_involutive. reflexivity.
  - change (join (w :: v :: l)) with (w ++ x20 :: join (v :: l)). rewrite split_nospace by exact Lw. cbn [split_any existsb]. change (byte_eqb x20 x20) with true. cbn [orb]. rewrite app_nil_r, rev_involutive. f_equal.
    apply IH; [discriminate|exact F].
Qed.
Lemma split_nonempty seps : forall s cur, split_any seps cur s <> [].
Proof. induction s as [|c s IH]; intros cur; cbn [split_any]; [discriminate|]. destruct (existsb _ _); [discriminate|apply IH]. Qed.
Lemma join_cons w l : l <> [] -> join (w :: l) = w ++ x20 :: join l.
Proof. destruct l; [congruence|reflexivity]. Qed.
Lemma join_split : forall s cur, join (split_any [x20] cur s) = rev cur ++ s.
Proof.
  induction s as [|c s IH]; intros cur; cbn [split_any existsb]; [cbn [join]; rewrite app_nil_r; reflexivity|]. rewrite orb_false_r. destruct (byte_eqb c x20) eqn:E.
  - apply byte_eqb_eq in E. subst c. rewrite join_cons by apply split_nonempty. rewrite IH. reflexivity.
  - rewrite IH. cbn [rev]. rewrite <- app_assoc. reflexivity.
Qed.
Lemma fold_join l : forall acc, l <> [] -> fold_left (fun out w => out ++ w ++ [x20]) l acc = acc ++ join l ++ [x20].
Proof.
  induction l as [|w l IH]; intros acc Ne; [congruence|]. cbn [fold_left]. destruct l as [|v l].
  - reflexivity.
  - rewrite IH by discriminate. rewrite (join_cons w) by discriminate. rewrite <- !app_assoc. reflexivity.
Qed.
Lemma join_last l : l <> [] -> Forall (fun w => word w = true) l -> exists p c, join l = p ++ [c] /\ letter c = true.
Proof.
  induction l as [|w l IH]; intros Ne F; [congruence|]. apply Forall_cons_iff in F. destruct F as [W F]. destruct l as [|v l].
  - destruct (word_letters w W) as [Nw Lw]. cbn [join]. destruct (exists_last Nw) as (p & c & ->). exists p, c. split; [reflexivity|]. apply Forall_app in Lw. destruct Lw as [_ Lw]. inversion Lw; assumption.
  - destruct (IH ltac:(discriminate) F) as (p & c & E & L). rewrite join_cons by discriminate. rewrite E. exists (w ++ x20 :: p), c. split; [rewrite <- app_assoc; reflexivity|exact L].
Qed.
Lemma trim_join l : l <> [] -> Forall (fun w => word w = true) l -> trim_right (join l ++ [x20]) = join l.
Proof.
  intros Ne F. destruct (join_last l Ne F) as (p & c & E & L). rewrite E. unfold trim_right. rewrite !rev_app_distr. cbn [rev app drop_spaces]. change (is_space x20) with true. cbn iota.
  destruct (letter_facts c L) as [-> _]. cbn [rev]. rewrite rev_involutive. reflexivity.
Qed.

(* ---- looking words up ---- *)
Lemma find_not w l : forall j f, ~ In w l -> find_word w j f l = f.
Proof.
  induction l as [|x l IH]; intros j f N; [reflexivity|]. cbn [find_word]. destruct (bytes_eqb x w) eqn:E; [apply bytes_eqb_eq in E; subst; exfalso; apply N; left; reflexivity|].
  apply IH. intros C. apply N. right. exact C.
Qed.
Lemma find_at w l : forall i j f, NoDup l -> nth_error l i = Some w -> find_word w j f l = Some (j + i)%nat.
Proof.
  induction l as [|x l IH]; intros i j f N E; [destruct i; discriminate|]. inversion N as [|? ? Nx Nl]; subst. cbn [find_word]. destruct i as [|i].
  - cbn [nth_error] in E. assert (x = w) by congruence. subst x. replace (bytes_eqb w w) with true by (symmetry; apply bytes_eqb_eq; reflexivity). rewrite find_not by exact Nx. f_equal. lia.
  - cbn [nth_error] in E. rewrite (IH i) by assumption. f_equal. lia.
Qed.
Lemma find_exact ws w i : NoDup ws -> find_word w 0 None ws = Some i <-> (i < length ws)%nat /\ nth i ws [] = w.
Proof.
  intros N. split.
  - intros E. destruct (in_dec (list_eq_dec Byte.byte_eq_dec) w ws) as [I|NI]; [|rewrite find_not in E by exact NI; discriminate].
    apply In_nth_error in I. destruct I as [j J]. rewrite (find_at w ws j 0%nat None N J) in E. assert (i = j) by (cbn [Nat.add] in E; congruence). subst j.
    split; [apply nth_error_Some; congruence|]. apply nth_error_nth. exact J.
  - intros [L E]. rewrite (find_at w ws i 0%nat None N); [reflexivity|]. rewrite <- E. apply nth_error_nth'. exact L.
Qed.
Lemma finds_exact ws : NoDup ws -> forall l idx, find_words ws l = Some idx <-> Forall (fun i => (i < length ws)%nat) idx /\ map (fun i => nth i ws []) idx = l.
Proof.
  intros N. induction l as [|w l IH]; intros idx; cbn [find_words].
  - split; [intros E; assert (idx = []) by congruence; subst; split; [constructor|reflexivity]|]. intros [_ E]. destruct idx; [reflexivity|discriminate].
  - split.
    + destruct (find_word w 0 None ws) as [j|] eqn:J; [|discriminate]. destruct (find_words ws l) as [js|] eqn:Js; [|discriminate]. intros E. assert (idx = j :: js) by congruence. subst.
      apply (find_exact ws w j N) in J. destruct J as [J1 J2]. destruct (proj1 (IH js) eq_refl) as [K1 K2]. split; [constructor; assumption|]. cbn [map]. congruence.
    + intros [F E]. destruct idx as [|j js]; [discriminate|]. cbn [map] in E. apply Forall_cons_iff in F. destruct F as [F1 F2].
      assert (E1 : nth j ws [] = w) by congruence. assert (E2 : map (fun i => nth i ws []) js = l) by congruence.
      rewrite (proj2 (find_exact ws w j N) (conj F1 E1)). rewrite (proj2 (IH js) (conj F2 E2)). reflexivity.
Qed.
Lemma good_map ws idx : good_words ws -> Forall (fun i => (i < 2048)%nat) idx -> Forall (fun w => word w = true) (map (fun i => nth i ws []) idx).
Proof.
  intros (L & _ & W) F. rewrite Forall_map. eapply Forall_impl; [|exact F]. intros i I. cbv beta in I |- *. rewrite Forall_forall in W. apply W. apply nth_In. lia.
Qed.
Lemma split_find ws s idx : good_words ws ->
  find_words ws (split_any [x20] [] s) = Some idx <-> idx <> [] /\ Forall (fun i => (i < 2048)%nat) idx /\ s = sentence ws idx.
Proof.
  intros G. pose proof G as (L & N & W). rewrite (finds_exact ws N). rewrite L. split.
  - intros [F E]. split; [intros ->; cbn [map] in E; symmetry in E; exact (split_nonempty _ _ _ E)|]. split; [exact F|]. unfold sentence. rewrite E, join_split. reflexivity.
  - intros (Ne & F & ->). split; [exact F|]. unfold sentence. rewrite split_join; [reflexivity|destruct idx; [congruence|discriminate]|apply good_map; assumption].
Qed.
Lemma index_bits_inj a : forall b, Forall (fun i => (i < 2048)%nat) a -> Forall (fun i => (i < 2048)%nat) b -> index_bits a = index_bits b -> a = b.
Proof.
  induction a as [|x a IH]; intros [|y b] Fa Fb E; [reflexivity| | |].
  - apply (f_equal (@length bool)) in E. rewrite !index_bits_length in E. cbn [length] in E. lia.
  - apply (f_equal (@length bool)) in E. rewrite !index_bits_length in E. cbn [length] in E. lia.
  - unfold index_bits in E. cbn [flat_map] in E. apply app_split in E; [|rewrite !to_bits_length; reflexivity]. destruct E as [E1 E2].
    apply Forall_cons_iff in Fa, Fb. destruct Fa as [X Fa], Fb as [Y Fb]. f_equal; [|apply IH; assumption].
    apply Nat2N.inj. apply (to_bits_inj 11); [change (2 ^ N.of_nat 11) with 2048; lia|change (2 ^ N.of_nat 11) with 2048; lia|exact E1].
Qed.
Lemma sentence_inj ws a b : good_words ws -> Forall (fun i => (i < 2048)%nat) a -> Forall (fun i => (i < 2048)%nat) b -> a <> [] -> b <> [] -> sentence ws a = sentence ws b -> a = b.
Proof.
  intros G Fa Fb Na Nb E. assert (X : find_words ws (split_any [x20] [] (sentence ws a)) = Some a) by (apply split_find; [exact G|split; [exact Na|split; [exact Fa|reflexivity]]]).
  assert (Y : find_words ws (split_any [x20] [] (sentence ws a)) = Some b) by (apply split_find; [exact G|split; [exact Nb|split; [exact Fb|exact E]]]). congruence.
Qed.

Lemma size_k e : (length e mod 4 =? 0)%nat && (16 <=? length e)%nat && (length e <=? 32)%nat = true <-> exists k, entropy_size e k.
Proof.
  unfold entropy_size. split.
  - intros E. apply andb_true_iff in E. destruct E as [E C]. apply andb_true_iff in E. destruct E as [A B]. apply Nat.eqb_eq in A. apply Nat.leb_le in B, C.
    exists (length e / 4)%nat. pose proof (Nat.div_mod (length e) 4 ltac:(discriminate)) as D. lia.
  - intros (k & L & B). rewrite L. rewrite (Nat.mul_comm 4 k), Nat.mod_mul by discriminate. lia.
Qed.

Section Main.
Variable sha : bytes -> bytes.
Hypothesis sha32 : forall m, length (sha m) = 32%nat.
Variable ws : list bytes.
Hypothesis G : good_words ws.

Lemma sha_first m k : (k <= 8)%nat -> firstn k (bits (sha m)) = firstn k (to_bits 8 (b2n (nth 0 (sha m) x00))).
Proof.
  intros L. pose proof (sha32 m) as S. destruct (sha m) as [|x r]; [discriminate|]. rewrite bits_cons. cbn [nth]. rewrite firstn_app, to_bits_length.
  replace (k - 8)%nat with 0%nat by lia. rewrite firstn_O. apply app_nil_r.
Qed.

Definition generate_with (ent : bytes) : outcome bip39_exn bytes :=
    let size := length ent in
    if (size mod 4 =? 0)%nat && (16 <=? size)%nat && (size <=? 32)%nat then
      let len := (size * 8 / 32)%nat in
      let check := N.land (b2n (nth 0 (sha ent) x00)) (check_mask len) in
      let idx := word_indices ((size * 8 + len) / 11) (ent ++ [n2b check]) in
      let words := map (fun i => nth (N.to_nat i) ws []) idx in
      Ret (trim_right (fold_left (fun out w => out ++ w ++ [x20]) words []))
    else Undef.
Definition valid_with (s : bytes) : outcome bip39_exn bool :=
  match find_words ws (split_any [x20] [] s) with
  | None => Ret false
  | Some idx =>
    let b := index_bytes idx in
    let check := nth (length b - 1) b x00 in
    let digest := sha (firstn (length b - 1) b) in
    let len := ((length b - 1) * 8 / 32)%nat in
    if (8 <? len)%nat then Undef
    else Ret (N.land (b2n (nth 0 digest x00)) (check_mask len) =? b2n check)
  end.

Lemma generate_form e k : entropy_size e k -> exists idx, generate_with e = Ret (sentence ws idx) /\ Forall (fun i => (i < 2048)%nat) idx /\
  index_bits idx = bits e ++ firstn k (bits (sha e)).
Proof.
  intros S. pose proof (proj2 (size_k e) (ex_intro _ k S)) as C. destruct S as [L B]. unfold generate_with. cbv zeta. rewrite C.
  replace (length e * 8 / 32)%nat with k by (rewrite L; replace (4 * k * 8)%nat with (k * 32)%nat by lia; symmetry; apply Nat.div_mul; discriminate).
  replace ((length e * 8 + k) / 11)%nat with (3 * k)%nat by (rewrite L; replace (4 * k * 8 + k)%nat with (3 * k * 11)%nat by lia; symmetry; apply Nat.div_mul; discriminate).
  set (check := N.land (b2n (nth 0 (sha e) x00)) (check_mask k)). destruct (word_indices_bits (3 * k) (e ++ [n2b check])) as [I F]; [rewrite app_length; cbn [length]; lia|].
  set (idx := map N.to_nat (word_indices (3 * k) (e ++ [n2b check]))) in *. exists idx.
  assert (Ib : index_bits idx = bits e ++ firstn k (bits (sha e))).
  { rewrite I, bits_app, bits_one. rewrite b2n_n2b, N.mod_small by (apply mask_bound; lia). unfold check. rewrite mask_bits by lia. rewrite <- sha_first by lia.
    rewrite app_assoc. rewrite firstn_app. rewrite app_length, bits_length, firstn_length, bits_length, sha32.
    replace (3 * k * 11 - (8 * length e + Nat.min k (8 * 32)))%nat with 0%nat by lia. rewrite firstn_O, app_nil_r. apply firstn_all2.
    rewrite app_length, bits_length, firstn_length, bits_length, sha32. lia. }
  assert (Ne : idx <> []) by (intros C0; apply (f_equal (@length bool)) in Ib; rewrite C0, app_length, bits_length in Ib; cbn [index_bits flat_map length] in Ib; lia).
  split; [|split; [exact F|exact Ib]]. f_equal. unfold sentence.
  replace (map (fun i => nth (N.to_nat i) ws []) (word_indices (3 * k) (e ++ [n2b check]))) with (map (fun i => nth i ws []) idx) by (unfold idx; rewrite map_map; reflexivity).
  rewrite fold_join by (destruct idx; [congruence|discriminate]). rewrite app_nil_l. apply trim_join; [destruct idx; [congruence|discriminate]|apply good_map; assumption].
Qed.
Lemma entropy_size_fun e k j : entropy_size e k -> entropy_size e j -> k = j.
Proof. intros [A _] [B _]. lia. Qed.
Lemma generate_exact e s : generate_with e = Ret s <-> mnemonic sha ws e s.
Proof.
  unfold mnemonic. split.
  - intros E. assert (C : exists k, entropy_size e k).
    { apply size_k. unfold generate_with in E. cbv zeta in E. destruct (_ && _ && _); [reflexivity|discriminate]. }
    destruct C as [k K]. destruct (generate_form e k K) as (idx & E2 & F & I). exists k, idx. split; [exact K|]. split; [exact F|]. split; [exact I|]. congruence.
  - intros (k & idx & K & F & I & ->). destruct (generate_form e k K) as (idx2 & E2 & F2 & I2). rewrite E2. do 2 f_equal. apply index_bits_inj; [exact F2|exact F|congruence].
Qed.
Lemma generate_undefined e : generate_with e = Undef <-> ~ exists k, entropy_size e k.
Proof using.
  clear sha32 G. rewrite <- size_k. unfold generate_with. cbv zeta. destruct (_ && _ && _); split; intuition congruence. Qed.

Lemma mnemonic_facts e s : mnemonic sha ws e s -> exists k idx, entropy_size e k /\ s = sentence ws idx /\ length idx = (3 * k)%nat /\ Forall (fun i => (i < 2048)%nat) idx /\ idx <> [] /\ index_bits idx = bits e ++ firstn k (bits (sha e)).
Proof.
  intros (k & idx & K & F & I & ->). exists k, idx. split; [exact K|]. split; [reflexivity|]. destruct K as [L B].
  pose proof (f_equal (@length bool) I) as Li. rewrite index_bits_length, app_length, bits_length, firstn_length, bits_length, sha32 in Li.
  split; [lia|]. split; [exact F|]. split; [intros ->; cbn [length] in Li; lia|exact I].
Qed.
Lemma mnemonic_inj e f s : mnemonic sha ws e s -> mnemonic sha ws f s -> e = f.
Proof.
  intros A B. apply mnemonic_facts in A, B. destruct A as (k & a & [Ka Kb] & Ea & La & Fa & Na & Ia), B as (j & b & [Ja Jb] & Eb & Lb & Fb & Nb & Ib).
  assert (a = b) by (apply (sentence_inj ws); auto; congruence). subst b. assert (k = j) by lia. subst j. rewrite Ia in Ib. apply app_split in Ib; [|rewrite !bits_length; lia].
  apply bits_inj. apply Ib.
Qed.

(* ---- checking ---- *)
Lemma valid_form idx : idx <> [] -> Forall (fun i => (i < 2048)%nat) idx -> exists e c, index_bits idx = bits e ++ c /\ (1 <= length c <= 8)%nat /\
  valid_with (sentence ws idx) = (if (8 <? length e / 4)%nat then Undef else Ret (if list_eq_dec Bool.bool_dec (fill c) (fill (firstn (length e / 4) (bits (sha e)))) then true else false)).
Proof.
  intros Ne F. destruct (index_bytes_bits idx Ne) as (m & c & [D1 D2] & Lb & Eb).
  unfold valid_with. rewrite (proj2 (split_find ws (sentence ws idx) idx G) (conj Ne (conj F eq_refl))). cbv zeta. set (b := index_bytes idx) in *.
  rewrite Lb. replace (m + 1 - 1)%nat with m by lia. set (e := firstn m b). assert (Le : length e = m) by (unfold e; rewrite firstn_length; lia).
  assert (Eb2 : b = e ++ [nth m b x00]).
  { unfold e. rewrite <- (firstn_skipn m b) at 1. f_equal. assert (Ls : length (skipn m b) = 1%nat) by (rewrite skipn_length; lia).
    rewrite <- (Nat.add_0_r m) at 2. rewrite <- (firstn_skipn m b) at 2. rewrite app_nth2; fold e; rewrite Le; [|lia]. replace (m + 0 - m)%nat with 0%nat by lia. destruct (skipn m b) as [|x [|? ?]]; try discriminate. reflexivity. }
  set (last := nth m b x00) in *. exists e, (skipn (8 * m) (index_bits idx)).
  assert (Lc : length (skipn (8 * m) (index_bits idx)) = c) by (rewrite skipn_length, index_bits_length; lia).
  assert (Sp : bits e = firstn (8 * m) (index_bits idx) /\ to_bits 8 (b2n last) = skipn (8 * m) (index_bits idx) ++ repeat false (8 - c)).
  { rewrite Eb2, bits_app, bits_one in Eb. rewrite <- (firstn_skipn (8 * m) (index_bits idx)) in Eb. rewrite <- app_assoc in Eb. apply app_split in Eb; [exact Eb|]. rewrite bits_length, firstn_length, index_bits_length. lia. }
  destruct Sp as [S1 S2]. split; [rewrite S1; symmetry; apply firstn_skipn|]. rewrite Lc. split; [exact D2|]. rewrite Le.
  replace (m * 8 / 32)%nat with (m / 4)%nat by (change 32%nat with (4 * 8)%nat; symmetry; apply Nat.div_mul_cancel_r; discriminate).
  destruct (Nat.ltb_spec 8 (m / 4)) as [H|H]; [reflexivity|]. f_equal.
  assert (FillC : fill (skipn (8 * m) (index_bits idx)) = to_bits 8 (b2n last)) by (unfold fill; rewrite Lc, S2; reflexivity).
  assert (FillH : fill (firstn (m / 4) (bits (sha e))) = to_bits 8 (N.land (b2n (nth 0 (sha e) x00)) (check_mask (m / 4)))).
  { rewrite mask_bits by exact H. rewrite <- sha_first by exact H. unfold fill. do 2 f_equal. rewrite firstn_length, bits_length, sha32. lia. }
  rewrite FillC, FillH. destruct (list_eq_dec _ _ _) as [E|E].
  - apply N.eqb_eq. symmetry. apply (to_bits_inj 8); [apply byte_bound|change (2 ^ N.of_nat 8) with 256; apply mask_bound; exact H|exact E].
  - apply N.eqb_neq. intros C. apply E. rewrite C. reflexivity.
Qed.
Lemma split_unique e c f d : bits e ++ c = bits f ++ d -> (1 <= length c <= 8)%nat -> (1 <= length d <= 8)%nat -> e = f /\ c = d.
Proof.
  intros E Lc Ld. pose proof (f_equal (@length bool) E) as L. rewrite !app_length, !bits_length in L. apply app_split in E; [|rewrite !bits_length; lia]. destruct E as [E1 E2].
  split; [apply bits_inj; exact E1|exact E2].
Qed.
Lemma valid_exact s : valid_with s = Ret true <->
  exists idx e c, idx <> [] /\ Forall (fun i => (i < 2048)%nat) idx /\ s = sentence ws idx /\ index_bits idx = bits e ++ c /\ accepted sha e c.
Proof.
  unfold accepted. split.
  - intros V. destruct (find_words ws (split_any [x20] [] s)) as [idx|] eqn:Fi; [|unfold valid_with in V; rewrite Fi in V; discriminate].
    apply split_find in Fi; [|exact G]. destruct Fi as (Ne & F & ->). destruct (valid_form idx Ne F) as (e & c & I & Lc & E). rewrite E in V. exists idx, e, c.
    split; [exact Ne|]. split; [exact F|]. split; [reflexivity|]. split; [exact I|]. split; [exact Lc|].
    destruct (Nat.ltb_spec 8 (length e / 4)) as [H|H]; [discriminate|]. split; [exact H|]. destruct (list_eq_dec _ _ _) as [X|X]; [exact X|discriminate].
  - intros (idx & e & c & Ne & F & -> & I & Lc & H & X). destruct (valid_form idx Ne F) as (f & d & J & Ld & E). rewrite E. rewrite I in J. destruct (split_unique _ _ _ _ J Lc Ld) as [<- <-].
    destruct (Nat.ltb_spec 8 (length e / 4)); [lia|]. destruct (list_eq_dec _ _ _) as [Y|Y]; [reflexivity|congruence].
Qed.
Lemma valid_undefined s : valid_with s = Undef <-> exists idx, (27 <= length idx)%nat /\ Forall (fun i => (i < 2048)%nat) idx /\ s = sentence ws idx.
Proof.
  assert (K : forall e n c, (11 * n = 8 * e + c)%nat -> (1 <= c <= 8)%nat -> (8 <? e / 4)%nat = true <-> (27 <= n)%nat).
  { intros e n c L C. rewrite Nat.ltb_lt. pose proof (Nat.div_mod e 4 ltac:(discriminate)) as D. pose proof (Nat.mod_upper_bound e 4 ltac:(discriminate)) as M. lia. }
  split.
  - intros V. destruct (find_words ws (split_any [x20] [] s)) as [idx|] eqn:Fi; [|unfold valid_with in V; rewrite Fi in V; discriminate].
    apply split_find in Fi; [|exact G]. destruct Fi as (Ne & F & ->). destruct (valid_form idx Ne F) as (e & c & I & Lc & E). rewrite E in V. exists idx.
    split; [|split; [exact F|reflexivity]]. apply (f_equal (@length bool)) in I. rewrite index_bits_length, app_length, bits_length in I. apply (K (length e) (length idx) (length c) I Lc).
    destruct (8 <? length e / 4)%nat; [reflexivity|discriminate].
  - intros (idx & L & F & ->). assert (Ne : idx <> []) by (intros ->; cbn [length] in L; lia). destruct (valid_form idx Ne F) as (e & c & I & Lc & E). rewrite E.
    apply (f_equal (@length bool)) in I. rewrite index_bits_length, app_length, bits_length in I. rewrite (proj2 (K _ _ _ I Lc) L). reflexivity.
Qed.
Lemma fill_inj a b : length a = length b -> fill a = fill b -> a = b.
Proof. unfold fill. intros L E. apply app_split in E; [apply E|exact L]. Qed.
Lemma valid_standard s idx k : (4 <= k <= 8)%nat -> length idx = (3 * k)%nat -> Forall (fun i => (i < 2048)%nat) idx -> s = sentence ws idx ->
  valid_with s = Ret true <-> exists e, mnemonic sha ws e s.
Proof.
  intros B L F ->. assert (Ne : idx <> []) by (intros ->; cbn [length] in L; lia). rewrite valid_exact. unfold mnemonic, accepted. split.
  - intros (idx2 & e & c & Ne2 & F2 & E & I & Lc & H & X). apply (sentence_inj ws) in E; auto. subst idx2.
    pose proof (f_equal (@length bool) I) as Li. rewrite index_bits_length, app_length, bits_length in Li. assert (Le : length e = (4 * k)%nat) by lia. assert (Lk : length c = k) by lia.
    rewrite Le in X, H. rewrite (Nat.mul_comm 4 k), Nat.div_mul in X, H by discriminate. apply fill_inj in X; [|rewrite firstn_length, bits_length, sha32; lia].
    exists e, k, idx. split; [split; lia|]. split; [exact F|]. split; [rewrite I, X; reflexivity|reflexivity].
  - intros (e & j & idx2 & [Le Bj] & F2 & I & E).
    pose proof (f_equal (@length bool) I) as Li. rewrite index_bits_length, app_length, bits_length, firstn_length, bits_length, sha32 in Li.
    assert (Ne2 : idx2 <> []) by (intros ->; cbn [length] in Li; lia). apply (sentence_inj ws) in E; auto. subst idx2.
    exists idx, e, (firstn j (bits (sha e))). split; [exact Ne|]. split; [exact F|]. split; [reflexivity|]. split; [exact I|].
    rewrite firstn_length, bits_length, sha32. split; [lia|]. rewrite Le, (Nat.mul_comm 4 j), Nat.div_mul by discriminate. split; [lia|reflexivity].
Qed.
Lemma generated_valid e s : generate_with e = Ret s -> valid_with s = Ret true.
Proof.
  intros E. apply generate_exact in E. pose proof E as E2. apply mnemonic_facts in E2. destruct E2 as (k & idx & [Le B] & Es & L & F & _). apply (valid_standard s idx k B L F Es). exists e. exact E.
Qed.
Lemma one_word_valid i : (i < 2048)%nat -> (i mod 8 = 0)%nat -> valid_with (sentence ws [i]) = Ret true.
Proof.
  intros L M. apply valid_exact. exists [i], [n2b (N.of_nat i / 8)], [false; false; false]. split; [discriminate|]. split; [constructor; [exact L|constructor]|]. split; [reflexivity|].
  assert (V : forallb (fun q => if list_eq_dec Bool.bool_dec (index_bits [8 * q]%nat) (bits [n2b (N.of_nat q)] ++ [false; false; false]) then true else false) (seq 0 256) = true) by (vm_compute; reflexivity).
  split.
  - pose proof (Nat.div_mod i 8 ltac:(discriminate)) as D. rewrite M, Nat.add_0_r in D. rewrite forallb_forall in V. assert (Q : (i / 8 < 256)%nat) by lia.
    specialize (V (i / 8)%nat ltac:(apply List.in_seq; lia)). cbv beta in V. rewrite <- D in V. replace (N.of_nat (i / 8)) with (N.of_nat i / 8) in V.
    + destruct (list_eq_dec _ _ _) as [E|]; [exact E|discriminate].
    + symmetry. change 8 with (N.of_nat 8). apply Nat2N.inj_div.
  - unfold accepted. split; [cbn [length]; lia|]. split; [cbn [length]; change (1 / 4)%nat with 0%nat; lia|]. cbn [length]. change (1 / 4)%nat with 0%nat. rewrite firstn_O. reflexivity.
Qed.
End Main.

(* ---- the lists of this code ---- *)
Fixpoint bytes_ltb (a b : bytes) : bool :=
  match a, b with
  | _, [] => false
  | [], _ => true
  | x :: r, y :: s => (b2n x <? b2n y) || ((b2n x =? b2n y) && bytes_ltb r s)
  end.
Lemma bytes_ltb_irrefl a : bytes_ltb a a = false.
Proof. induction a as [|x a IH]; [reflexivity|]. cbn [bytes_ltb]. rewrite IH, N.ltb_irrefl, andb_false_r. reflexivity. Qed.
Lemma bytes_ltb_trans a : forall b c, bytes_ltb a b = true -> bytes_ltb b c = true -> bytes_ltb a c = true.
Proof.
  induction a as [|x a IH]; intros [|y b] [|z c] A B; try discriminate; [reflexivity|]. cbn [bytes_ltb] in *. apply orb_true_iff in A, B. apply orb_true_iff.
  destruct A as [A|A], B as [B|B].
  - left. lia.
  - apply andb_true_iff in B. left. lia.
  - apply andb_true_iff in A. left. lia.
  - apply andb_true_iff in A, B. destruct A as [A1 A2], B as [B1 B2]. right. apply andb_true_iff. split; [lia|]. apply (IH b); assumption.
Qed.
Fixpoint sorted (l : list bytes) : bool :=
  match l with a :: (b :: _) as r => bytes_ltb a b && sorted r | _ => true end.
Lemma sorted_above l : forall a, sorted (a :: l) = true -> Forall (fun b => bytes_ltb a b = true) l.
Proof.
  induction l as [|b l IH]; intros a S; [constructor|]. change (bytes_ltb a b && sorted (b :: l) = true) in S. apply andb_true_iff in S. destruct S as [S1 S2].
  constructor; [exact S1|]. eapply Forall_impl; [|apply IH; exact S2]. intros c C. cbv beta in C. apply (bytes_ltb_trans a b c S1 C).
Qed.
Lemma sorted_nodup l : sorted l = true -> NoDup l.
Proof.
  induction l as [|a l IH]; intros S; [constructor|]. constructor.
  - intros I. pose proof (sorted_above l a S) as F. rewrite Forall_forall in F. specialize (F a I). cbv beta in F. rewrite bytes_ltb_irrefl in F. discriminate.
  - apply IH. destruct l as [|b l]; [reflexivity|]. change (bytes_ltb a b && sorted (b :: l) = true) in S. apply andb_true_iff in S. apply S.
Qed.
Lemma english_good : good_words english_words.
Proof.
  split; [vm_compute; reflexivity|]. split; [apply sorted_nodup; vm_compute; reflexivity|]. apply Forall_forall. apply forallb_forall. vm_compute. reflexivity.
Qed.
Lemma english_generate sha e : generate sha English e = generate_with sha english_words e.
Proof. reflexivity. Qed.
Lemma english_valid sha s : valid sha English s = valid_with sha english_words s.
Proof. reflexivity. Qed.

(* no part between separators has the first byte of the ideographic space, but all Japanese words do *)
Lemma split_without seps c : existsb (byte_eqb c) seps = true -> forall s cur, ~ In c cur -> Forall (fun w => ~ In c w) (split_any seps cur s).
Proof.
  intros X. induction s as [|d s IH]; intros cur N; cbn [split_any].
  - constructor; [rewrite <- in_rev; exact N|constructor].
  - destruct (existsb (byte_eqb d) seps) eqn:E.
    + constructor; [rewrite <- in_rev; exact N|]. apply IH. intros [].
    + apply IH. intros [->|I]; [congruence|exact (N I)].
Qed.
Lemma japanese_invalid sha s : valid sha Japanese s = Ret false.
Proof.
  unfold valid. cbn [word_list lang_split]. pose proof (split_without [xe3; x80; x80] xe3 eq_refl s [] (fun x => x)) as F. pose proof (split_nonempty [xe3; x80; x80] s []) as Ne.
  destruct (split_any [xe3; x80; x80] [] s) as [|w l]; [congruence|]. apply Forall_cons_iff in F. destruct F as [Nw _]. cbn [find_words].
  rewrite find_not; [reflexivity|]. intros I. assert (A : forallb (existsb (byte_eqb xe3)) japanese_words = true) by (vm_compute; reflexivity).
  rewrite forallb_forall in A. specialize (A w I). apply existsb_exists in A. destruct A as (c & C & E). apply byte_eqb_eq in E. subst c. exact (Nw C).
Qed.

(* ---- seeds ---- *)
Lemma seed_separates pbkdf2 words passphrase words' passphrase' :
  seed_read pbkdf2 English words passphrase = seed_read pbkdf2 English words' passphrase' -> (words, passphrase) <> (words', passphrase') ->
  exists salt salt', (words, salt) <> (words', salt') /\ pbkdf2 words salt 2048 64 = pbkdf2 words' salt' 2048 64.
Proof.
  unfold seed_read. intros E N. do 2 eexists. split; [|assert (X : forall (a b : bytes), @Ret bip39_exn bytes a = Ret b -> a = b) by (intros a b; congruence); apply X; exact E].
  intros C. apply N. pose proof (f_equal fst C) as C1. pose proof (f_equal snd C) as C2. cbn [fst snd] in C1, C2. apply app_inv_head in C2. congruence.
Qed.
Lemma electrum_ambiguous pbkdf2 w q p : electrum_read pbkdf2 (w ++ electrum_label ++ q) p = electrum_read pbkdf2 w (q ++ electrum_label ++ p).
Proof. unfold electrum_read. rewrite <- !app_assoc. reflexivity. Qed.
Lemma electrum_same words passphrase words' passphrase' :
  (forall pbkdf2, electrum_read pbkdf2 words passphrase = electrum_read pbkdf2 words' passphrase') <->
  words ++ electrum_label ++ passphrase = words' ++ electrum_label ++ passphrase'.
Proof.
  split.
  - intros E. exact (E (fun p _ _ _ => p)).
  - intros E pbkdf2. change (pbkdf2 (words ++ electrum_label ++ passphrase) [] 2048 64 = pbkdf2 (words' ++ electrum_label ++ passphrase') [] 2048 64). rewrite E. reflexivity.
Qed.
