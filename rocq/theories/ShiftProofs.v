From Verif Require Import Base BaseProofs ScriptModel NumModel NumSpec WireProofs ScriptProofs NumProofs.
From Coq Require Import ZifyBool ZifyNat ZifyN.
Ltac Zify.zify_post_hook ::= Z.div_mod_to_equations.
Local Open Scope N_scope.

Definition all_bytes : list byte := map (fun n => n2b (N.of_nat n)) (seq 0 256).
Definition eights : list N := [0;1;2;3;4;5;6;7].

Lemma in_all_bytes b : In b all_bytes.
Proof.
  unfold all_bytes. apply in_map_iff. exists (N.to_nat (b2n b)). split.
  - rewrite N2Nat.id. apply n2b_b2n.
  - apply in_seq. pose proof (b2n_lt b). lia.
Qed.

Lemma in_eights n : n < 8 -> In n eights.
Proof. intros H. unfold eights. cbn [In]. lia. Qed.

Lemma for_all_bytes (P : byte -> bool) : forallb P all_bytes = true -> forall b, P b = true.
Proof. intros H b. eapply forallb_forall in H; [exact H|apply in_all_bytes]. Qed.

Lemma for_eights (P : N -> bool) : forallb P eights = true -> forall n, n < 8 -> P n = true.
Proof. intros H n Hn. eapply forallb_forall in H; [exact H|apply in_eights; exact Hn]. Qed.

Lemma byte_high_bits b m : 8 <= m -> N.testbit (b2n b) m = false.
Proof.
  intros H. apply N.bits_above_log2. pose proof (b2n_lt b).
  destruct (N.eq_dec (b2n b) 0) as [E|E]; [rewrite E; cbn; lia|].
  apply N.log2_lt_pow2; [lia|]. eapply N.lt_le_trans; [exact H0|].
  change 256 with (2 ^ 8). apply N.pow_le_mono_r; lia.
Qed.

Lemma le_val_testbit l k : N.testbit (le_val l) k = N.testbit (b2n (nth (N.to_nat (k / 8)) l x00)) (k mod 8).
Proof.
  revert k. induction l as [|x l IH]; intros k.
  - cbn [le_val]. destruct (N.to_nat (k / 8)); cbn [nth]; change (b2n x00) with 0; rewrite !N.bits_0; reflexivity.
  - cbn [le_val]. pose proof (b2n_lt x) as Bx.
    destruct (N.lt_ge_cases k 8) as [H|H].
    + replace (k / 8) with 0 by lia. cbn [N.to_nat nth]. rewrite N.mod_small by lia.
      rewrite <- (N.mod_pow2_bits_low (b2n x + 256 * le_val l) 8 k H).
      f_equal. change (2 ^ 8) with 256. rewrite N.mul_comm, N.mod_add by lia. apply N.mod_small. exact Bx.
    + replace k with (k - 8 + 8) at 1 by lia. rewrite <- N.div_pow2_bits. change (2 ^ 8) with 256.
      rewrite N.mul_comm, N.div_add by lia. rewrite (N.div_small (b2n x)) by exact Bx. cbn [N.add].
      rewrite IH. replace (k / 8) with ((k - 8) / 8 + 1) by lia.
      rewrite N2Nat.inj_add. replace (N.to_nat ((k - 8) / 8) + N.to_nat 1)%nat with (S (N.to_nat ((k - 8) / 8))) by lia.
      cbn [nth]. f_equal. lia.
Qed.

Lemma be_val_testbit l j m : (j < length l)%nat -> m < 8 ->
  N.testbit (be_val l) (8 * N.of_nat (length l - 1 - j) + m) = N.testbit (b2n (nth j l x00)) m.
Proof.
  intros Hj Hm. unfold be_val. rewrite le_val_testbit. f_equal.
  - f_equal. rewrite rev_nth by lia. f_equal. lia.
  - lia.
Qed.

Lemma be_val_testbit_high l k : 8 * len l <= k -> N.testbit (be_val l) k = false.
Proof.
  intros H. unfold be_val. rewrite le_val_testbit. rewrite nth_overflow.
  - apply N.bits_0.
  - rewrite rev_length. unfold len in H. lia.
Qed.

Lemma be_bits_eq a b : length a = length b ->
  (forall j m, (j < length a)%nat -> m < 8 -> N.testbit (b2n (nth j a x00)) m = N.testbit (b2n (nth j b x00)) m) ->
  a = b.
Proof.
  intros L H. apply (nth_ext a b x00 x00 L). intros j Hj. apply b2n_inj. apply N.bits_inj. intros m.
  destruct (N.lt_ge_cases m 8) as [Hm|Hm]; [apply H; assumption|]. rewrite !byte_high_bits by exact Hm. reflexivity.
Qed.

(* or_at *)
Lemma or_at_length k v r : length (or_at k v r) = length r.
Proof. revert k. induction r as [|x r IH]; intros [|k]; cbn; try reflexivity. rewrite IH. reflexivity. Qed.

Lemma n2b_testbit v m : m < 8 -> N.testbit (b2n (n2b v)) m = N.testbit v m.
Proof. intros H. rewrite b2n_n2b. change 256 with (2 ^ 8). apply N.mod_pow2_bits_low. exact H. Qed.

Lemma byte_or_testbit a v m : m < 8 -> N.testbit (b2n (byte_or a (n2b v))) m = N.testbit (b2n a) m || N.testbit v m.
Proof. intros H. unfold byte_or. rewrite n2b_testbit, N.lor_spec, n2b_testbit by exact H. reflexivity. Qed.

Lemma or_at_bit k v r j m : m < 8 ->
  N.testbit (b2n (nth j (or_at k v r) x00)) m =
  N.testbit (b2n (nth j r x00)) m || ((j =? k)%nat && (j <? length r)%nat && N.testbit v m).
Proof.
  intros H. revert k j. induction r as [|x r IH]; intros k j.
  - destruct k; cbn [or_at length]; rewrite andb_false_r; cbn [andb]; rewrite orb_false_r; reflexivity.
  - destruct k as [|k], j as [|j]; cbn [or_at nth].
    + rewrite byte_or_testbit by exact H. cbn [length]. reflexivity.
    + cbn [Nat.eqb andb]. rewrite orb_false_r. reflexivity.
    + cbn [Nat.eqb andb]. rewrite orb_false_r. reflexivity.
    + rewrite IH. reflexivity.
Qed.

Definition contribs (kvs : list (nat * N)) (r : bytes) : bytes :=
  fold_left (fun r kv => or_at (fst kv) (snd kv) r) kvs r.

Lemma contribs_length kvs r : length (contribs kvs r) = length r.
Proof.
  revert r. induction kvs as [|[k v] kvs IH]; intros r; [reflexivity|].
  cbn [contribs fold_left fst snd]. unfold contribs in IH. rewrite IH. apply or_at_length.
Qed.

Lemma contribs_bit kvs r j m : m < 8 -> (j < length r)%nat ->
  N.testbit (b2n (nth j (contribs kvs r) x00)) m =
  N.testbit (b2n (nth j r x00)) m || existsb (fun kv => (fst kv =? j)%nat && N.testbit (snd kv) m) kvs.
Proof.
  intros Hm. revert r. induction kvs as [|[k v] kvs IH]; intros r Hj.
  - cbn [contribs fold_left existsb]. rewrite orb_false_r. reflexivity.
  - cbn [contribs fold_left fst snd existsb]. unfold contribs in IH. rewrite IH by (rewrite or_at_length; exact Hj).
    rewrite or_at_bit by exact Hm. rewrite (Nat.eqb_sym j k).
    replace (j <? length r)%nat with true by lia. rewrite andb_true_r, orb_assoc. reflexivity.
Qed.

Lemma fold_contribs (F : nat -> list (nat * N)) L r :
  fold_left (fun r i => contribs (F i) r) L r = contribs (concat (map F L)) r.
Proof.
  revert r. induction L as [|i L IH]; intros r; [reflexivity|].
  cbn [fold_left map concat]. rewrite IH. unfold contribs. rewrite fold_left_app. reflexivity.
Qed.

Lemma fold_left_ext {A B} (f g : A -> B -> A) L r : (forall r i, f r i = g r i) -> fold_left f L r = fold_left g L r.
Proof. intros H. revert r. induction L as [|i L IH]; intros r; [reflexivity|]. cbn. rewrite H. apply IH. Qed.

Lemma existsb_concat_map {A} (p : A -> bool) (F : nat -> list A) L :
  existsb p (concat (map F L)) = existsb (fun i => existsb p (F i)) L.
Proof. induction L as [|i L IH]; [reflexivity|]. cbn. rewrite existsb_app, IH. reflexivity. Qed.

Lemma existsb_seq_one (p : nat -> bool) n i0 : (i0 < n)%nat -> (forall i, (i < n)%nat -> i <> i0 -> p i = false) ->
  existsb p (seq 0 n) = p i0.
Proof.
  intros Hi H. destruct (p i0) eqn:E.
  - apply existsb_exists. exists i0. split; [apply in_seq; lia|exact E].
  - destruct (existsb p (seq 0 n)) eqn:X; [|reflexivity]. apply existsb_exists in X. destruct X as (i & Hin & Hp).
    apply in_seq in Hin. destruct (Nat.eq_dec i i0) as [->|N]; [congruence|]. rewrite H in Hp by lia. discriminate.
Qed.

Lemma existsb_seq_none (p : nat -> bool) n : (forall i, (i < n)%nat -> p i = false) -> existsb p (seq 0 n) = false.
Proof.
  intros H. destruct (existsb p (seq 0 n)) eqn:X; [|reflexivity]. apply existsb_exists in X.
  destruct X as (i & Hin & Hp). apply in_seq in Hin. rewrite H in Hp by lia. discriminate.
Qed.

Lemma nth_repeat0 j k : nth j (repeat x00 k) x00 = x00.
Proof. revert j. induction k as [|k IH]; intros [|j]; cbn; try reflexivity. apply IH. Qed.

(* the four byte-level facts, checked over all bytes *)
Lemma l_low b x m : b < 8 -> m < 8 ->
  N.testbit ((N.land (b2n x) (lshift_mask b) * 2 ^ b) mod 256) m = (b <=? m) && N.testbit (b2n x) (m - b).
Proof.
  intros Hb Hm.
  assert (K : forallb (fun b => forallb (fun m => forallb (fun x =>
     Bool.eqb (N.testbit ((N.land (b2n x) (lshift_mask b) * 2 ^ b) mod 256) m) ((b <=? m) && N.testbit (b2n x) (m - b)))
     all_bytes) eights) eights = true) by (vm_compute; reflexivity).
  pose proof (for_all_bytes _ (for_eights _ (for_eights _ K b Hb) m Hm) x) as R. apply eqb_prop in R. exact R.
Qed.

Lemma l_high b x m : b < 8 -> m < 8 ->
  N.testbit (N.land (b2n x) (255 - lshift_mask b) / 2 ^ (8 - b)) m = (m <? b) && N.testbit (b2n x) (m + 8 - b).
Proof.
  intros Hb Hm.
  assert (K : forallb (fun b => forallb (fun m => forallb (fun x =>
     Bool.eqb (N.testbit (N.land (b2n x) (255 - lshift_mask b) / 2 ^ (8 - b)) m) ((m <? b) && N.testbit (b2n x) (m + 8 - b)))
     all_bytes) eights) eights = true) by (vm_compute; reflexivity).
  pose proof (for_all_bytes _ (for_eights _ (for_eights _ K b Hb) m Hm) x) as R. apply eqb_prop in R. exact R.
Qed.

Lemma r_low b x m : b < 8 -> m < 8 ->
  N.testbit (N.land (b2n x) (rshift_mask b) / 2 ^ b) m = (m + b <? 8) && N.testbit (b2n x) (m + b).
Proof.
  intros Hb Hm.
  assert (K : forallb (fun b => forallb (fun m => forallb (fun x =>
     Bool.eqb (N.testbit (N.land (b2n x) (rshift_mask b) / 2 ^ b) m) ((m + b <? 8) && N.testbit (b2n x) (m + b)))
     all_bytes) eights) eights = true) by (vm_compute; reflexivity).
  pose proof (for_all_bytes _ (for_eights _ (for_eights _ K b Hb) m Hm) x) as R. apply eqb_prop in R. exact R.
Qed.

Lemma r_high b x m : b < 8 -> m < 8 ->
  N.testbit ((N.land (b2n x) (255 - rshift_mask b) * 2 ^ (8 - b)) mod 256) m = (8 <=? m + b) && N.testbit (b2n x) (m + b - 8).
Proof.
  intros Hb Hm.
  assert (K : forallb (fun b => forallb (fun m => forallb (fun x =>
     Bool.eqb (N.testbit ((N.land (b2n x) (255 - rshift_mask b) * 2 ^ (8 - b)) mod 256) m) ((8 <=? m + b) && N.testbit (b2n x) (m + b - 8)))
     all_bytes) eights) eights = true) by (vm_compute; reflexivity).
  pose proof (for_all_bytes _ (for_eights _ (for_eights _ K b Hb) m Hm) x) as R. apply eqb_prop in R. exact R.
Qed.

Lemma shl_bits_length b n : length (shl_bits b n) = length b.
Proof. apply be_length. Qed.
Lemma shr_bits_length b n : length (shr_bits b n) = length b.
Proof. apply be_length. Qed.

Lemma shl_bit x n j m : (j < length x)%nat -> m < 8 ->
  N.testbit (b2n (nth j (shl_bits x n) x00)) m =
  let p := 8 * N.of_nat (length x - 1 - j) + m in (n <=? p) && N.testbit (be_val x) (p - n).
Proof.
  intros Hj Hm. rewrite <- be_val_testbit by (rewrite ?shl_bits_length; assumption).
  rewrite shl_bits_length. unfold shl_bits. rewrite be_val_be, pow256_pow2. cbv zeta.
  rewrite N.mod_pow2_bits_low by lia.
  destruct (N.leb_spec n (8 * N.of_nat (length x - 1 - j) + m)) as [H|H].
  - rewrite N.mul_pow2_bits_high by exact H. reflexivity.
  - rewrite N.mul_pow2_bits_low by exact H. reflexivity.
Qed.

Lemma shr_bit x n j m : (j < length x)%nat -> m < 8 ->
  N.testbit (b2n (nth j (shr_bits x n) x00)) m = N.testbit (be_val x) (8 * N.of_nat (length x - 1 - j) + m + n).
Proof.
  intros Hj Hm. rewrite <- be_val_testbit by (rewrite ?shr_bits_length; assumption).
  rewrite shr_bits_length. unfold shr_bits. rewrite be_val_be, pow256_pow2.
  rewrite N.mod_pow2_bits_low by lia. apply N.div_pow2_bits.
Qed.

Lemma left_shift_exact x n : (0 <= n < 2 ^ 31)%Z -> left_shift x n = Some (shl_bits x (Z.to_N n)).
Proof.
  intros Hn. unfold left_shift, size_t_of.
  rewrite Z.rem_mod_nonneg, Z.quot_div_nonneg by lia.
  set (b := Z.to_N ((n mod 8) mod 2 ^ 64)). set (bs := Z.to_N ((n / 8) mod 2 ^ 64)).
  assert (Eb : b = Z.to_N n mod 8) by (subst b; change (2 ^ 64)%Z with 18446744073709551616%Z; lia).
  assert (Ebs : bs = Z.to_N n / 8) by (subst bs; change (2 ^ 64)%Z with 18446744073709551616%Z; change (2 ^ 31)%Z with 2147483648%Z in Hn; lia).
  clearbody b bs. assert (Hb : b < 8) by lia.
  destruct (N.leb_spec 8 b); [lia|]. f_equal.
  set (F := fun i : nat =>
    if bs <=? N.of_nat i then
      (N.to_nat (N.of_nat i - bs), (N.land (b2n (nth i x x00)) (lshift_mask b) * 2 ^ b) mod 256) ::
      (if 1 <=? N.of_nat i - bs
       then [(N.to_nat (N.of_nat i - bs - 1), N.land (b2n (nth i x x00)) (255 - lshift_mask b) / 2 ^ (8 - b))] else [])
    else []).
  rewrite (fold_left_ext _ (fun r i => contribs (F i) r)).
  2:{ intros r i. unfold F, contribs. destruct (bs <=? N.of_nat i); [|reflexivity].
      destruct (1 <=? N.of_nat i - bs); reflexivity. }
  rewrite fold_contribs. apply be_bits_eq.
  { rewrite contribs_length, repeat_length, shl_bits_length. reflexivity. }
  intros j m Hj Hm. rewrite contribs_length, repeat_length in Hj.
  rewrite contribs_bit by (rewrite ?repeat_length; assumption).
  rewrite nth_repeat0. change (b2n x00) with 0. rewrite N.bits_0. cbn [orb].
  rewrite existsb_concat_map. rewrite <- (rev_involutive (seq 0 (length x))) at 1.
  rewrite rev_involutive, existsb_rev.
  rewrite shl_bit by assumption. cbv zeta.
  set (p := fun i : nat => existsb (fun kv => (fst kv =? j)%nat && N.testbit (snd kv) m) (F i)).
  assert (Hp : forall i, p i =
     ((bs <=? N.of_nat i) && (N.to_nat (N.of_nat i - bs) =? j)%nat && ((b <=? m) && N.testbit (b2n (nth i x x00)) (m - b)))
     || ((bs + 1 <=? N.of_nat i) && (N.to_nat (N.of_nat i - bs - 1) =? j)%nat && ((m <? b) && N.testbit (b2n (nth i x x00)) (m + 8 - b)))).
  { intros i. unfold p, F. destruct (N.leb_spec bs (N.of_nat i)) as [H1|H1].
    - cbn [existsb fst snd]. rewrite l_low by assumption. cbn [andb].
      destruct (N.leb_spec 1 (N.of_nat i - bs)) as [H2|H2].
      + cbn [existsb fst snd]. rewrite l_high by assumption.
        replace (bs + 1 <=? N.of_nat i) with true by lia. cbn [andb]. rewrite orb_false_r. reflexivity.
      + cbn [existsb]. replace (bs + 1 <=? N.of_nat i) with false by lia. cbn [andb]. reflexivity.
    - cbn [existsb andb]. replace (bs + 1 <=? N.of_nat i) with false by lia. reflexivity. }
  clearbody p.
  destruct (N.leb_spec b m) as [Hbm|Hbm].
  - (* source byte j + bs *)
    assert (Hp' : forall i, p i = (i =? j + N.to_nat bs)%nat && N.testbit (b2n (nth i x x00)) (m - b)).
    { intros i. rewrite Hp. replace (m <? b) with false by lia. rewrite andb_false_r, orb_false_r.
      cbn [andb]. f_equal. lia. }
    destruct (Nat.lt_ge_cases (j + N.to_nat bs) (length x)) as [S|S].
    + rewrite (existsb_seq_one p _ (j + N.to_nat bs) S).
      2:{ intros i _ Hi. rewrite Hp'. replace (i =? j + N.to_nat bs)%nat with false by lia. reflexivity. }
      rewrite Hp'. rewrite Nat.eqb_refl. cbn [andb].
      rewrite <- be_val_testbit by lia.
      replace (Z.to_N n <=? 8 * N.of_nat (length x - 1 - j) + m) with true by lia. cbn [andb].
      f_equal. lia.
    + rewrite existsb_seq_none.
      2:{ intros i Hi. rewrite Hp'. replace (i =? j + N.to_nat bs)%nat with false by lia. reflexivity. }
      replace (Z.to_N n <=? 8 * N.of_nat (length x - 1 - j) + m) with false by lia. reflexivity.
  - assert (Hp' : forall i, p i = (i =? j + N.to_nat bs + 1)%nat && N.testbit (b2n (nth i x x00)) (m + 8 - b)).
    { intros i. rewrite Hp. replace (m <? b) with true by lia. rewrite andb_false_r. cbn [andb orb].
      f_equal. lia. }
    destruct (Nat.lt_ge_cases (j + N.to_nat bs + 1) (length x)) as [S|S].
    + rewrite (existsb_seq_one p _ (j + N.to_nat bs + 1) S).
      2:{ intros i _ Hi. rewrite Hp'. replace (i =? j + N.to_nat bs + 1)%nat with false by lia. reflexivity. }
      rewrite Hp'. rewrite Nat.eqb_refl. cbn [andb].
      rewrite <- be_val_testbit by lia.
      replace (Z.to_N n <=? 8 * N.of_nat (length x - 1 - j) + m) with true by lia. cbn [andb].
      f_equal. lia.
    + rewrite existsb_seq_none.
      2:{ intros i Hi. rewrite Hp'. replace (i =? j + N.to_nat bs + 1)%nat with false by lia. reflexivity. }
      replace (Z.to_N n <=? 8 * N.of_nat (length x - 1 - j) + m) with false by lia. reflexivity.
Qed.

Lemma right_shift_exact x n : (0 <= n < 2 ^ 31)%Z -> len x < 2 ^ 63 ->
  right_shift x n = Some (shr_bits x (Z.to_N n)).
Proof.
  intros Hn Hx. unfold right_shift, size_t_of.
  rewrite Z.rem_mod_nonneg, Z.quot_div_nonneg by lia.
  set (b := Z.to_N ((n mod 8) mod 2 ^ 64)). set (bs := Z.to_N ((n / 8) mod 2 ^ 64)).
  assert (Eb : b = Z.to_N n mod 8) by (subst b; change (2 ^ 64)%Z with 18446744073709551616%Z; lia).
  assert (Ebs : bs = Z.to_N n / 8) by (subst bs; change (2 ^ 64)%Z with 18446744073709551616%Z; change (2 ^ 31)%Z with 2147483648%Z in Hn; lia).
  clearbody b bs. assert (Hb : b < 8) by lia.
  assert (Hbs : bs < 2 ^ 28) by (change (2 ^ 31)%Z with 2147483648%Z in Hn; change (2 ^ 28) with 268435456; lia).
  destruct (N.leb_spec 8 b); [lia|]. f_equal.
  set (F := fun i : nat =>
    let k := N.of_nat i + bs in
    (if k <? len x then [(N.to_nat k, N.land (b2n (nth i x x00)) (rshift_mask b) / 2 ^ b)] else []) ++
    (if k + 1 <? len x then [(N.to_nat (k + 1), (N.land (b2n (nth i x x00)) (255 - rshift_mask b) * 2 ^ (8 - b)) mod 256)] else [])).
  assert (E : fold_left (fun res i =>
            let k := (N.of_nat i + bs) mod 2 ^ 64 in
            let xi := b2n (nth i x x00) in
            let res := if k <? len x then or_at (N.to_nat k) (N.land xi (rshift_mask b) / 2 ^ b) res else res in
            if (k + 1) mod 2 ^ 64 <? len x
            then or_at (N.to_nat ((k + 1) mod 2 ^ 64)) ((N.land xi (255 - rshift_mask b) * 2 ^ (8 - b)) mod 256) res
            else res) (seq 0 (length x)) (repeat x00 (length x))
        = fold_left (fun r i => contribs (F i) r) (seq 0 (length x)) (repeat x00 (length x))).
  { assert (G : forall L r, (forall i, In i L -> (i < length x)%nat) ->
       fold_left (fun res i =>
            let k := (N.of_nat i + bs) mod 2 ^ 64 in
            let xi := b2n (nth i x x00) in
            let res := if k <? len x then or_at (N.to_nat k) (N.land xi (rshift_mask b) / 2 ^ b) res else res in
            if (k + 1) mod 2 ^ 64 <? len x
            then or_at (N.to_nat ((k + 1) mod 2 ^ 64)) ((N.land xi (255 - rshift_mask b) * 2 ^ (8 - b)) mod 256) res
            else res) L r = fold_left (fun r i => contribs (F i) r) L r).
    { induction L as [|i L IH]; intros r HL; [reflexivity|]. cbn [fold_left].
      rewrite <- IH by (intros k Hk; apply HL; right; exact Hk). f_equal.
      cbv zeta. assert (Hi : (i < length x)%nat) by (apply HL; left; reflexivity).
      assert (X : N.of_nat i + bs + 1 < 2 ^ 64).
      { unfold len in Hx. change (2 ^ 63) with 9223372036854775808 in Hx. change (2 ^ 64) with 18446744073709551616.
        change (2 ^ 28) with 268435456 in Hbs. lia. }
      rewrite (N.mod_small (N.of_nat i + bs)) by lia. rewrite (N.mod_small (N.of_nat i + bs + 1)) by lia.
      unfold F, contribs. cbv zeta. destruct (N.of_nat i + bs <? len x); destruct (N.of_nat i + bs + 1 <? len x); reflexivity. }
    apply G. intros i Hi. apply in_seq in Hi. lia. }
  cbv zeta in E |- *. rewrite E. clear E.
  rewrite fold_contribs. apply be_bits_eq.
  { rewrite contribs_length, repeat_length, shr_bits_length. reflexivity. }
  intros j m Hj Hm. rewrite contribs_length, repeat_length in Hj.
  rewrite contribs_bit by (rewrite ?repeat_length; assumption).
  rewrite nth_repeat0. change (b2n x00) with 0. rewrite N.bits_0. cbn [orb].
  rewrite existsb_concat_map. rewrite shr_bit by assumption.
  set (p := fun i : nat => existsb (fun kv => (fst kv =? j)%nat && N.testbit (snd kv) m) (F i)).
  assert (Hp : forall i, p i =
     ((N.of_nat i + bs =? N.of_nat j) && ((m + b <? 8) && N.testbit (b2n (nth i x x00)) (m + b)))
     || ((N.of_nat i + bs + 1 =? N.of_nat j) && ((8 <=? m + b) && N.testbit (b2n (nth i x x00)) (m + b - 8)))).
  { intros i. unfold p, F. cbv zeta. rewrite existsb_app.
    f_equal.
    - destruct (N.ltb_spec (N.of_nat i + bs) (len x)) as [H1|H1].
      + cbn [existsb fst snd]. rewrite r_low by assumption. rewrite orb_false_r. f_equal. lia.
      + cbn [existsb]. replace (N.of_nat i + bs =? N.of_nat j) with false by (unfold len in H1; lia). reflexivity.
    - destruct (N.ltb_spec (N.of_nat i + bs + 1) (len x)) as [H1|H1].
      + cbn [existsb fst snd]. rewrite r_high by assumption. rewrite orb_false_r. f_equal. lia.
      + cbn [existsb]. replace (N.of_nat i + bs + 1 =? N.of_nat j) with false by (unfold len in H1; lia). reflexivity. }
  clearbody p.
  destruct (N.ltb_spec (m + b) 8) as [Hbm|Hbm].
  - assert (Hp' : forall i, p i = (N.of_nat i + bs =? N.of_nat j) && N.testbit (b2n (nth i x x00)) (m + b)).
    { intros i. rewrite Hp. replace (8 <=? m + b) with false by lia. cbn [andb]. rewrite andb_false_r, orb_false_r. reflexivity. }
    destruct (N.le_gt_cases bs (N.of_nat j)) as [S|S].
    + rewrite (existsb_seq_one p _ (j - N.to_nat bs)%nat) by
        (try lia; intros i _ Hi; rewrite Hp'; replace (N.of_nat i + bs =? N.of_nat j) with false by lia; reflexivity).
      rewrite Hp'. replace (N.of_nat (j - N.to_nat bs) + bs =? N.of_nat j) with true by lia. cbn [andb].
      rewrite <- be_val_testbit by lia. f_equal. lia.
    + rewrite existsb_seq_none.
      2:{ intros i Hi. rewrite Hp'. replace (N.of_nat i + bs =? N.of_nat j) with false by lia. reflexivity. }
      symmetry. apply be_val_testbit_high. unfold len. lia.
  - assert (Hp' : forall i, p i = (N.of_nat i + bs + 1 =? N.of_nat j) && N.testbit (b2n (nth i x x00)) (m + b - 8)).
    { intros i. rewrite Hp. replace (8 <=? m + b) with true by lia. cbn [andb]. rewrite andb_false_r. reflexivity. }
    destruct (N.le_gt_cases (bs + 1) (N.of_nat j)) as [S|S].
    + rewrite (existsb_seq_one p _ (j - N.to_nat bs - 1)%nat) by
        (try lia; intros i _ Hi; rewrite Hp'; replace (N.of_nat i + bs + 1 =? N.of_nat j) with false by lia; reflexivity).
      rewrite Hp'. replace (N.of_nat (j - N.to_nat bs - 1) + bs + 1 =? N.of_nat j) with true by lia. cbn [andb].
      rewrite <- be_val_testbit by lia. f_equal. lia.
    + rewrite existsb_seq_none.
      2:{ intros i Hi. rewrite Hp'. replace (N.of_nat i + bs + 1 =? N.of_nat j) with false by lia. reflexivity. }
      symmetry. apply be_val_testbit_high. unfold len. lia.
Qed.

(* the loop *)
Lemma shl_shl x a b : shl_bits (shl_bits x a) b = shl_bits x (a + b).
Proof.
  unfold shl_bits. rewrite be_length, be_val_be. apply be_val_inj; [rewrite !be_length; reflexivity|].
  rewrite !be_val_be. rewrite N.mul_mod_idemp_l by (pose proof (pow256_pos (length x)); lia).
  rewrite N.pow_add_r. f_equal. lia.
Qed.

Lemma shr_shr x a b : shr_bits (shr_bits x a) b = shr_bits x (a + b).
Proof.
  unfold shr_bits. rewrite be_length, be_val_be.
  assert (be_val x / 2 ^ a < pow256 (length x)).
  { pose proof (be_val_bound x). eapply N.le_lt_trans; [apply N.div_le_upper_bound with (q := be_val x)|exact H].
    - apply N.pow_nonzero. lia.
    - assert (2 ^ a <> 0) by (apply N.pow_nonzero; lia). nia. }
  rewrite (N.mod_small (be_val x / 2 ^ a)) by assumption. f_equal.
  rewrite N.div_div by (apply N.pow_nonzero; lia). rewrite N.pow_add_r. reflexivity.
Qed.

Lemma shl_all x n : 8 * len x <= n -> shl_bits x n = repeat x00 (length x).
Proof.
  intros H. apply be_bits_eq; [rewrite shl_bits_length, repeat_length; reflexivity|].
  intros j m Hj Hm. rewrite shl_bits_length in Hj. rewrite shl_bit by assumption. rewrite nth_repeat0.
  cbv zeta. replace (n <=? 8 * N.of_nat (length x - 1 - j) + m) with false by (unfold len in H; lia).
  symmetry. apply N.bits_0.
Qed.

Lemma shr_all x n : 8 * len x <= n -> shr_bits x n = repeat x00 (length x).
Proof.
  intros H. apply be_bits_eq; [rewrite shr_bits_length, repeat_length; reflexivity|].
  intros j m Hj Hm. rewrite shr_bits_length in Hj. rewrite shr_bit by assumption. rewrite nth_repeat0.
  change (b2n x00) with 0. rewrite N.bits_0. apply be_val_testbit_high. lia.
Qed.

Lemma read_u32_nonneg n : sn_val n = Z.of_N (le_val n) -> le_val n < 2 ^ 32 -> read_as_uint32 n = le_val n.
Proof.
  intros _ H. unfold read_as_uint32. rewrite <- (firstn_skipn 4 n) at 2. rewrite le_val_app.
  destruct (Nat.le_gt_cases (length n) 4) as [L|L].
  - rewrite (skipn_all2 n L). cbn [le_val]. lia.
  - rewrite <- (firstn_skipn 4 n), le_val_app in H.
    assert (E : length (firstn 4 n) = 4%nat) by (rewrite firstn_length; lia). rewrite E in *.
    change (pow256 4) with (2 ^ 32) in *. destruct (le_val (skipn 4 n)); lia.
Qed.

Lemma sn_enc_nonneg z : (0 <= z)%Z -> le_val (sn_enc z) = Z.to_N z.
Proof.
  intros H. destruct (Z.eq_dec z 0) as [->|Hz]; [reflexivity|].
  destruct (sn_size_pos z Hz) as (m & E & U & _). unfold sn_enc. rewrite le_val_le, E, pow256_S.
  destruct (Z.ltb_spec z 0); [lia|]. rewrite N.add_0_r, N.mod_small by lia. lia.
Qed.

Lemma shift_loop_exact (sh : bytes -> Z -> option bytes) (spec : bytes -> N -> bytes) (ok : bytes -> Prop) :
  (forall x n, ok x -> (0 <= n < 2 ^ 31)%Z -> sh x n = Some (spec x (Z.to_N n)) /\ ok (spec x (Z.to_N n))) ->
  (forall x a b, spec (spec x a) b = spec x (a + b)) ->
  forall fuel n v, ok v -> sn_val n = Z.of_N (le_val n) -> (sn_val n / INT32_MAX <= Z.of_nat fuel)%Z ->
  shift_loop sh fuel n v = Some (spec v (le_val n)).
Proof.
  intros Hsh Hadd. induction fuel as [|f IH]; intros n v Hv Hn Hf; cbn [shift_loop].
  - assert (K : (sn_val n < INT32_MAX)%Z) by (unfold INT32_MAX in *; lia).
    destruct (Z.ltb_spec INT32_MAX (sn_val n)); [lia|].
    assert (le_val n < 2147483648) by (unfold INT32_MAX in K; lia).
    rewrite read_u32_nonneg by (try assumption; change (2 ^ 32) with 4294967296; lia).
    unfold int32_of. rewrite N.mod_small by (change (2 ^ 32) with 4294967296; lia).
    replace (le_val n <? 2 ^ 31) with true by (change (2 ^ 31) with 2147483648; lia).
    destruct (Hsh v (Z.of_N (le_val n)) Hv) as [E _]; [change (2 ^ 31)%Z with 2147483648%Z; lia|].
    rewrite E. rewrite N2Z.id. reflexivity.
  - destruct (Z.ltb_spec INT32_MAX (sn_val n)) as [K|K].
    + destruct (Hsh v INT32_MAX Hv) as [E O]; [unfold INT32_MAX; change (2 ^ 31)%Z with 2147483648%Z; lia|].
      rewrite E. rewrite IH.
      * rewrite sn_enc_nonneg by lia. f_equal. rewrite Hadd. f_equal. unfold INT32_MAX in *. lia.
      * exact O.
      * rewrite sn_val_enc, sn_enc_nonneg by lia. lia.
      * rewrite sn_val_enc. unfold INT32_MAX in *. lia.
    + assert (le_val n < 2147483648) by (unfold INT32_MAX in K; lia).
      rewrite read_u32_nonneg by (try assumption; change (2 ^ 32) with 4294967296; lia).
      unfold int32_of. rewrite N.mod_small by (change (2 ^ 32) with 4294967296; lia).
      replace (le_val n <? 2 ^ 31) with true by (change (2 ^ 31) with 2147483648; lia).
      destruct (Hsh v (Z.of_N (le_val n)) Hv) as [E _]; [change (2 ^ 31)%Z with 2147483648%Z; lia|].
      rewrite E. rewrite N2Z.id. reflexivity.
Qed.

(* an operand that is not negative and not a negative zero *)
Lemma lshift_op_exact n v : sn_val n = Z.of_N (le_val n) -> shift_op left_shift n v = Some (shl_bits v (le_val n)).
Proof.
  intros Hn. unfold shift_op. destruct (Z.leb_spec (Z.of_N (len v * 8)) (sn_val n)) as [H|H].
  - rewrite shl_all by lia. reflexivity.
  - apply (shift_loop_exact left_shift shl_bits (fun _ => True)); auto using shl_shl.
    + intros x z _ Hz. split; [apply left_shift_exact; exact Hz|exact I].
    + assert (0 <= sn_val n / INT32_MAX)%Z by (apply Z.div_pos; unfold INT32_MAX; lia). lia.
Qed.

Lemma rshift_op_exact n v : sn_val n = Z.of_N (le_val n) -> len v < 2 ^ 63 ->
  shift_op right_shift n v = Some (shr_bits v (le_val n)).
Proof.
  intros Hn Hv. unfold shift_op. destruct (Z.leb_spec (Z.of_N (len v * 8)) (sn_val n)) as [H|H].
  - rewrite shr_all by lia. reflexivity.
  - apply (shift_loop_exact right_shift shr_bits (fun x => len x < 2 ^ 63)); auto using shr_shr.
    + intros x z Hx Hz. split; [apply right_shift_exact; assumption|].
      unfold len in *. rewrite shr_bits_length. exact Hx.
    + assert (0 <= sn_val n / INT32_MAX)%Z by (apply Z.div_pos; unfold INT32_MAX; lia). lia.
Qed.
