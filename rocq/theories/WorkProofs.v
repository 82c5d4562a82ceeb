(* Compact targets. *)
From Verif Require Import Base BaseProofs WireModel MerkleModel WorkModel WorkSpec.
From Coq Require Import ZifyBool ZifyNat ZifyN.
Ltac Zify.zify_post_hook ::= Z.div_mod_to_equations.
Local Open Scope N_scope.

Lemma p256 k : 2 ^ (8 * k) = 256 ^ k.
Proof. rewrite N.pow_mul_r. reflexivity. Qed.
Lemma p256_pos k : 0 < 256 ^ k.
Proof. apply N.neq_0_lt_0. apply N.pow_nonzero. discriminate. Qed.
Lemma p256_ne k : 256 ^ k <> 0.
Proof. apply N.pow_nonzero. discriminate. Qed.
Lemma p256_le a b : a <= b -> 256 ^ a <= 256 ^ b.
Proof. intros. apply N.pow_le_mono_r; [discriminate|assumption]. Qed.
Lemma p256_lt a b : a < b -> 256 ^ a < 256 ^ b.
Proof. intros. apply N.pow_lt_mono_r; [reflexivity|assumption]. Qed.
Lemma p256_add a b : 256 ^ (a + b) = 256 ^ a * 256 ^ b.
Proof. apply N.pow_add_r. Qed.

Lemma land_bit c : (N.land c 0x00800000 =? 0) = negb (negative c).
Proof.
  unfold negative. rewrite <- N.shiftr_div_pow2. rewrite <- N.bit0_odd, N.shiftr_spec by discriminate.
  change (0 + 23) with 23. change 0x00800000 with (2 ^ 23).
  destruct (N.testbit c 23) eqn:E; cbn [negb].
  - apply N.eqb_neq. intros X. assert (Y : N.testbit (N.land c (2 ^ 23)) 23 = true) by (rewrite N.land_spec, E; reflexivity).
    rewrite X in Y. discriminate.
  - apply N.eqb_eq. apply N.bits_inj. intros i. rewrite N.land_spec, N.pow2_bits_eqb, N.bits_0.
    destruct (N.eqb_spec 23 i) as [<-|]; [rewrite E; reflexivity|apply andb_false_r].
Qed.

Lemma mantissa_land c : N.land c 0x007fffff = mantissa_of c.
Proof. change 0x007fffff with (N.ones 23). apply N.land_ones. Qed.
Lemma mantissa_lt c : mantissa_of c < 2 ^ 23.
Proof. apply N.mod_lt. discriminate. Qed.

Lemma magnitude_small c : exponent_of c <= 3 -> magnitude c = mantissa_of c / 256 ^ (3 - exponent_of c).
Proof.
  intros L. unfold magnitude. replace (256 ^ 3) with (256 ^ (3 - exponent_of c) * 256 ^ exponent_of c).
  - apply N.div_mul_cancel_r; apply p256_ne.
  - rewrite <- p256_add. f_equal. lia.
Qed.
Lemma magnitude_big c : 3 <= exponent_of c -> magnitude c = mantissa_of c * 256 ^ (exponent_of c - 3).
Proof.
  intros L. unfold magnitude. replace (exponent_of c) with ((exponent_of c - 3) + 3) at 1 by lia.
  rewrite p256_add, N.mul_assoc. apply N.div_mul. discriminate.
Qed.

Lemma expand_exact c : expand c = if negb (negative c) && (magnitude c <? 2 ^ 256) then magnitude c else 0.
Proof.
  unfold expand. rewrite land_bit, mantissa_land, N.shiftr_div_pow2. fold (exponent_of c). rewrite negb_involutive.
  pose proof (mantissa_lt c) as M. set (m := mantissa_of c) in *. set (e := exponent_of c) in *.
  destruct (N.leb_spec e 3) as [L|L].
  - rewrite N.shiftr_div_pow2, p256. rewrite (magnitude_small c) by exact L. fold m e.
    assert (Q : m / 256 ^ (3 - e) <= m).
    { apply N.div_le_upper_bound; [apply p256_ne|]. pose proof (p256_pos (3 - e)). nia. }
    assert (B : 2 ^ 23 < 2 ^ 256) by reflexivity.
    assert (W : (m / 256 ^ (3 - e) <? 2 ^ 256) = true) by (apply N.ltb_lt; lia). rewrite W, andb_true_r.
    set (w := m / 256 ^ (3 - e)) in *.
    destruct (N.eqb_spec w 0) as [Z|Z]; cbn [negb andb].
    + rewrite Z. destruct (negative c); reflexivity.
    + destruct (negative c); cbn [negb]; [reflexivity|].
      replace (34 <? e) with false by (symmetry; apply N.ltb_ge; lia).
      replace (33 <? e) with false by (symmetry; apply N.ltb_ge; lia).
      replace (32 <? e) with false by (symmetry; apply N.ltb_ge; lia). rewrite !andb_false_r. reflexivity.
  - rewrite N.shiftl_mul_pow2, p256. rewrite (magnitude_big c) by (unfold e in L; lia). fold m e.
    destruct (N.eqb_spec m 0) as [Z|Z]; cbn [negb andb].
    { rewrite Z. rewrite N.mul_0_l. rewrite N.mod_0_l by discriminate. destruct (negb (negative c) && (0 <? 2 ^ 256)); reflexivity. }
    destruct (negative c); cbn [negb andb]; [reflexivity|].
    change (2 ^ 256) with (256 ^ 32).
    destruct (N.le_gt_cases e 32) as [E|E].
    { replace (34 <? e) with false by (symmetry; apply N.ltb_ge; lia).
      replace (33 <? e) with false by (symmetry; apply N.ltb_ge; lia).
      replace (32 <? e) with false by (symmetry; apply N.ltb_ge; lia). rewrite !andb_false_r. cbn [orb].
      assert (Y : m * 256 ^ (e - 3) < 256 ^ 32).
      { apply N.le_lt_trans with (2 ^ 23 * 256 ^ 29); [|reflexivity]. apply N.mul_le_mono; [lia|]. apply p256_le. lia. }
      rewrite N.mod_small by exact Y. apply N.ltb_lt in Y. rewrite Y. reflexivity. }
    destruct (N.eqb_spec e 33) as [E33|E33].
    { rewrite E33. change (34 <? 33) with false. change (33 <? 33) with false. change (32 <? 33) with true. rewrite andb_false_r, andb_true_r. cbn [orb].
      change (33 - 3) with 30. change (256 ^ 32) with (65536 * 256 ^ 30).
      destruct (N.ltb_spec 0xffff m) as [X|X].
      - assert (Y : (m * 256 ^ 30 <? 65536 * 256 ^ 30) = false) by (apply N.ltb_ge; apply N.mul_le_mono_r; lia). rewrite Y. reflexivity.
      - assert (Y : m * 256 ^ 30 < 65536 * 256 ^ 30) by (apply N.mul_lt_mono_pos_r; [reflexivity|lia]).
        rewrite N.mod_small by exact Y. apply N.ltb_lt in Y. rewrite Y. reflexivity. }
    destruct (N.eqb_spec e 34) as [E34|E34].
    { rewrite E34. change (34 <? 34) with false. change (33 <? 34) with true. change (32 <? 34) with true. rewrite !andb_true_r. cbn [orb].
      change (34 - 3) with 31. change (256 ^ 32) with (256 * 256 ^ 31).
      destruct (N.ltb_spec 0xff m) as [X|X].
      - cbn [orb]. assert (Y : (m * 256 ^ 31 <? 256 * 256 ^ 31) = false) by (apply N.ltb_ge; apply N.mul_le_mono_r; lia). rewrite Y. reflexivity.
      - replace (0xffff <? m) with false by (symmetry; apply N.ltb_ge; lia). cbn [orb].
        assert (Y : m * 256 ^ 31 < 256 * 256 ^ 31) by (apply N.mul_lt_mono_pos_r; [reflexivity|lia]).
        rewrite N.mod_small by exact Y. apply N.ltb_lt in Y. rewrite Y. reflexivity. }
    replace (34 <? e) with true by (symmetry; apply N.ltb_lt; lia). cbn [orb].
    assert (Y : (m * 256 ^ (e - 3) <? 256 ^ 32) = false).
    { apply N.ltb_ge. apply N.le_trans with (1 * 256 ^ (e - 3)); [|apply N.mul_le_mono_r; lia]. rewrite N.mul_1_l. apply p256_le. lia. }
    rewrite Y. reflexivity.
Qed.

Lemma expand_lt c : expand c < 2 ^ 256.
Proof.
  rewrite expand_exact. destruct (negb (negative c) && (magnitude c <? 2 ^ 256)) eqn:E; [|reflexivity].
  apply andb_true_iff in E. destruct E as [_ E]. apply N.ltb_lt. exact E.
Qed.

(* ---- encoding ---- *)
Lemma nth_le k : forall n i, (i < k)%nat -> nth i (le k n) x00 = n2b (n / 256 ^ N.of_nat i).
Proof.
  induction k as [|k IH]; intros n i L; [lia|]. destruct i as [|i].
  - cbn [le nth]. change (256 ^ N.of_nat 0) with 1. rewrite N.div_1_r. reflexivity.
  - cbn [le nth]. rewrite IH by lia. f_equal. rewrite N.div_div by (try discriminate; apply p256_ne).
    f_equal. rewrite Nat2N.inj_succ, N.pow_succ_r'. reflexivity.
Qed.
Lemma b2n_nth n i : (i < 32)%nat -> b2n (nth i (le 32 n) x00) = (n / 256 ^ N.of_nat i) mod 256.
Proof. intros L. rewrite nth_le by exact L. apply b2n_n2b. Qed.

Lemma find_digit_spec n : n < 256 ^ 32 -> forall k, (k <= 29)%nat -> n < 256 ^ N.of_nat (k + 3) ->
  match find_digit k (le 32 n) with
  | Some i => (3 <= i < 32)%nat /\ 256 ^ N.of_nat i <= n < 256 ^ (N.of_nat i + 1)
  | None => n < 2 ^ 24
  end.
Proof.
  intros B. induction k as [|k IH]; intros K L; [exact L|].
  cbn [find_digit]. rewrite b2n_nth by lia.
  assert (Q : n / 256 ^ N.of_nat (S k + 2) < 256).
  { apply N.div_lt_upper_bound; [apply p256_ne|]. rewrite N.mul_comm. rewrite <- N.pow_succ_r'. replace (N.succ (N.of_nat (S k + 2))) with (N.of_nat (S k + 3)) by lia. exact L. }
  rewrite N.mod_small by exact Q.
  destruct (N.eqb_spec (n / 256 ^ N.of_nat (S k + 2)) 0) as [Z|Z].
  - apply IH; [lia|]. apply N.div_small_iff in Z; [|apply p256_ne]. replace (k + 3)%nat with (S k + 2)%nat by lia. exact Z.
  - split; [lia|]. split.
    + destruct (N.le_gt_cases (256 ^ N.of_nat (S k + 2)) n) as [X|X]; [exact X|]. apply N.div_small in X. congruence.
    + replace (N.of_nat (S k + 2) + 1) with (N.of_nat (S k + 3)) by lia. exact L.
Qed.

Lemma encode_exponent e ds : length ds = 3%nat -> exponent_of (encode e ds) = b2n e.
Proof.
  destruct ds as [|a [|b [|c [|]]]]; try discriminate. intros _. unfold encode, exponent_of. cbn [app le_val].
  pose proof (b2n_lt a). pose proof (b2n_lt b). pose proof (b2n_lt c). pose proof (b2n_lt e). change (2 ^ 24) with 16777216. lia.
Qed.
Lemma encode_low e ds : length ds = 3%nat -> (encode e ds) mod 2 ^ 24 = le_val ds.
Proof.
  destruct ds as [|a [|b [|c [|]]]]; try discriminate. intros _. unfold encode. cbn [app le_val].
  pose proof (b2n_lt a). pose proof (b2n_lt b). pose proof (b2n_lt c). pose proof (b2n_lt e). change (2 ^ 24) with 16777216. lia.
Qed.
Lemma low_parts c v : c mod 2 ^ 24 = v -> v < 2 ^ 23 -> mantissa_of c = v /\ negative c = false.
Proof.
  unfold mantissa_of, negative. change (2 ^ 24) with 16777216. change (2 ^ 23) with 8388608. intros E L. split; [lia|].
  rewrite <- N.negb_even. replace (c / 8388608) with (2 * (c / 16777216)) by lia. rewrite N.even_mul. reflexivity.
Qed.
Lemma encode_expand e ds : length ds = 3%nat -> le_val ds < 2 ^ 23 -> le_val ds * 256 ^ (b2n e - 3) < 2 ^ 256 -> 3 <= b2n e ->
  expand (encode e ds) = le_val ds * 256 ^ (b2n e - 3).
Proof.
  intros L V B E. rewrite expand_exact. destruct (low_parts _ _ (encode_low e ds L) V) as [M Ng]. rewrite Ng.
  rewrite magnitude_big by (rewrite encode_exponent by exact L; exact E).
  rewrite M, encode_exponent by exact L. apply N.ltb_lt in B. rewrite B. reflexivity.
Qed.

Lemma high_bit d : (N.land (b2n d) 0x80 =? 0) = (b2n d <? 128).
Proof. destruct d; reflexivity. Qed.

Lemma quotient_digit n i : n / 256 ^ i = 256 * (n / 256 ^ (i + 1)) + (n / 256 ^ i) mod 256.
Proof.
  rewrite N.pow_add_r. change (256 ^ 1) with 256. rewrite <- N.div_div by (try discriminate; apply p256_ne).
  apply N.div_mod. discriminate.
Qed.

Lemma digit_at n first i : (first < 32)%nat -> (i <= first)%nat -> b2n (nth (first - i) (le 32 n) x00) = (n / 256 ^ (N.of_nat first - N.of_nat i)) mod 256.
Proof. intros L K. rewrite b2n_nth by lia. do 2 f_equal. f_equal. lia. Qed.

Lemma compact_of_small junk n : n < 2 ^ 24 -> expand (compact_of junk n) = 0.
Proof.
  intros L. unfold compact_of.
  assert (B : n < 256 ^ 32) by (apply N.lt_trans with (2 ^ 24); [exact L|reflexivity]).
  pose proof (find_digit_spec n B 29 (le_n _) B) as F. destruct (find_digit 29 (le 32 n)) as [i|] eqn:E.
  { destruct F as [F1 [F2 _]]. assert (256 ^ 3 <= 256 ^ N.of_nat i) by (apply p256_le; lia). change (256 ^ 3) with (2 ^ 24) in *. lia. }
  assert (Z : forall i, (i <= 2)%nat -> nth (29 - i) (le 32 n) x00 = x00).
  { intros i I2. rewrite nth_le by lia. rewrite N.div_small; [reflexivity|]. apply N.lt_le_trans with (256 ^ 3); [exact L|]. apply p256_le. lia. }
  rewrite !Z by lia. change (N.land (b2n x00) 0x80) with 0. cbn [N.eqb negb].
  rewrite expand_exact. unfold magnitude. destruct (low_parts (encode junk [x00; x00; x00]) 0 (encode_low junk [x00; x00; x00] eq_refl) eq_refl) as [-> _].
  rewrite N.mul_0_l. rewrite N.div_0_l by discriminate. destruct (negb _ && _); reflexivity.
Qed.

Lemma compact_of_encode junk n k : digit_count n k -> 4 <= k <= 32 ->
  exists e ds, compact_of junk n = encode e ds /\ length ds = 3%nat /\ b2n e = dropped n k + 3 /\
    le_val ds = n / 256 ^ dropped n k /\ 2 ^ 15 <= le_val ds < 2 ^ 23.
Proof.
  intros [L1 L2] K. unfold compact_of.
  assert (B : n < 256 ^ 32) by (apply N.lt_le_trans with (256 ^ k); [exact L2|apply p256_le; lia]).
  pose proof (find_digit_spec n B 29 (le_n _) B) as F. destruct (find_digit 29 (le 32 n)) as [i|] eqn:E.
  2:{ exfalso. assert (256 ^ 3 <= 256 ^ (k - 1)) by (apply p256_le; lia). change (256 ^ 3) with (2 ^ 24) in *. lia. }
  destruct F as [F1 [F2 F3]].
  assert (Ik : N.of_nat i + 1 = k).
  { destruct (N.lt_trichotomy (N.of_nat i + 1) k) as [X|[X|X]]; [|exact X|]; exfalso.
    - assert (256 ^ (N.of_nat i + 1) <= 256 ^ (k - 1)) by (apply p256_le; lia). lia.
    - assert (256 ^ k <= 256 ^ N.of_nat i) by (apply p256_le; lia). lia. }
  rewrite high_bit.
  assert (D0 : b2n (nth (i - 0) (le 32 n) x00) = n / 256 ^ (k - 1)).
  { rewrite digit_at by lia. replace (N.of_nat i - N.of_nat 0) with (k - 1) by lia. apply N.mod_small.
    apply N.div_lt_upper_bound; [apply p256_ne|]. rewrite N.mul_comm, <- N.pow_succ_r'. replace (N.succ (k - 1)) with k by lia. exact L2. }
  assert (D1 : b2n (nth (i - 1) (le 32 n) x00) = (n / 256 ^ (k - 2)) mod 256).
  { rewrite digit_at by lia. do 2 f_equal. f_equal. lia. }
  assert (D2 : b2n (nth (i - 2) (le 32 n) x00) = (n / 256 ^ (k - 3)) mod 256).
  { rewrite digit_at by lia. do 2 f_equal. f_equal. lia. }
  assert (Q0 : n / 256 ^ (k - 1) < 256).
  { rewrite <- D0. apply b2n_lt. }
  assert (Q1 : 1 <= n / 256 ^ (k - 1)).
  { apply N.div_le_lower_bound; [apply p256_ne|]. rewrite N.mul_1_r. exact L1. }
  pose proof (quotient_digit n (k - 2)) as R1. assert (K1 : k - 2 + 1 = k - 1) by (clear - K; lia). rewrite K1 in R1.
  pose proof (quotient_digit n (k - 3)) as R2. assert (K2 : k - 3 + 1 = k - 2) by (clear - K; lia). rewrite K2 in R2.
  pose proof (N.mod_lt (n / 256 ^ (k - 2)) 256 ltac:(discriminate)) as T1.
  pose proof (N.mod_lt (n / 256 ^ (k - 3)) 256 ltac:(discriminate)) as T2.
  rewrite D0. unfold dropped.
  assert (C : (128 * 256 ^ (k - 1) <=? n) = negb (n / 256 ^ (k - 1) <? 128)).
  { clear - n. destruct (N.ltb_spec (n / 256 ^ (k - 1)) 128) as [X|X]; cbn [negb].
    - apply N.leb_gt. rewrite N.mul_comm.
      destruct (N.lt_ge_cases n (256 ^ (k - 1) * 128)) as [Y|Y]; [exact Y|]. apply (N.div_le_lower_bound n (256 ^ (k - 1)) 128) in Y; [|apply p256_ne].
      exfalso. apply (N.lt_irrefl 128). apply N.le_lt_trans with (n / 256 ^ (k - 1)); assumption.
    - apply N.leb_le. rewrite N.mul_comm. apply N.le_trans with (256 ^ (k - 1) * (n / 256 ^ (k - 1))); [apply N.mul_le_mono_l; exact X|]. apply N.mul_div_le. apply p256_ne. }
  rewrite C. change (2 ^ 15) with 32768. change (2 ^ 23) with 8388608.
  destruct (N.ltb_spec (n / 256 ^ (k - 1)) 128) as [X|X]; cbn [negb].
  - eexists. eexists. split; [reflexivity|]. split; [reflexivity|]. split; [clear - K Ik; rewrite b2n_n2b, N.mod_small by lia; lia|].
    cbn [le_val]. rewrite D0, D1, D2. clear - X Q0 Q1 R1 R2 T1 T2.
    generalize dependent ((n / 256 ^ (k - 2)) mod 256). generalize dependent ((n / 256 ^ (k - 3)) mod 256).
    generalize dependent (n / 256 ^ (k - 3)). generalize dependent (n / 256 ^ (k - 2)). generalize dependent (n / 256 ^ (k - 1)). intros. split; lia.
  - eexists. eexists. split; [reflexivity|]. split; [reflexivity|].
    split; [clear - K Ik; assert (Y : N.of_nat i + 1 < 256) by lia; rewrite !b2n_n2b, (N.mod_small _ _ Y), N.mod_small by lia; lia|].
    cbn [le_val]. rewrite D0, D1. change (b2n x00) with 0. clear - X Q0 Q1 R1 T1.
    generalize dependent ((n / 256 ^ (k - 2)) mod 256). generalize dependent (n / 256 ^ (k - 2)). generalize dependent (n / 256 ^ (k - 1)). intros. split; lia.
Qed.

Lemma digits_of n : 2 ^ 24 <= n < 2 ^ 256 -> exists k, digit_count n k /\ 4 <= k <= 32.
Proof.
  intros [L B]. change (2 ^ 24) with (256 ^ 3) in L. change (2 ^ 256) with (256 ^ 32) in B.
  pose proof (find_digit_spec n B 29 (le_n _) B) as F. destruct (find_digit 29 (le 32 n)) as [i|] eqn:E.
  - destruct F as [F1 F2]. exists (N.of_nat i + 1). split; [|lia]. unfold digit_count. replace (N.of_nat i + 1 - 1) with (N.of_nat i) by lia. exact F2.
  - change (2 ^ 24) with (256 ^ 3) in F. lia.
Qed.
Lemma digit_count_unique n j k : digit_count n j -> digit_count n k -> 1 <= j -> 1 <= k -> j = k.
Proof.
  intros [A1 A2] [B1 B2] J K. destruct (N.lt_trichotomy j k) as [X|[X|X]]; [|exact X|]; exfalso.
  - assert (256 ^ j <= 256 ^ (k - 1)) by (apply p256_le; lia). lia.
  - assert (256 ^ k <= 256 ^ (j - 1)) by (apply p256_le; lia). lia.
Qed.

Lemma truncated_le n d : truncated n d <= n.
Proof. unfold truncated. rewrite N.mul_comm. apply N.mul_div_le. apply p256_ne. Qed.

Lemma compact_of_exact junk n k : digit_count n k -> 4 <= k <= 32 -> expand (compact_of junk n) = truncated n (dropped n k).
Proof.
  intros D K. destruct (compact_of_encode junk n k D K) as (e & ds & -> & L & E & V & R).
  rewrite encode_expand; [rewrite V, E; unfold truncated; do 2 f_equal; lia|exact L|apply R| |lia].
  rewrite V, E. replace (dropped n k + 3 - 3) with (dropped n k) by lia.
  apply N.le_lt_trans with n; [apply (truncated_le n (dropped n k))|]. destruct D as [_ D].
  apply N.lt_le_trans with (256 ^ k); [exact D|]. change (2 ^ 256) with (256 ^ 32). apply p256_le. lia.
Qed.
