(* Proofs about fees computed with doubles. *)
From Coq Require Import Lia ZifyBool ZifyNat ZifyN.
From Verif Require Import Base BaseProofs WireModel WireSpec SighashModel ExtModel ExtSpec ExtProofs.
Local Open Scope N_scope.

Lemma half_even_near n d : 0 < d -> 2 * n <= 2 * (half_even n d * d) + d /\ 2 * (half_even n d * d) <= 2 * n + d.
Proof.
  intro D. unfold half_even. pose proof (N.div_mod n d ltac:(lia)) as E. pose proof (N.mod_lt n d ltac:(lia)) as R.
  set (q := n / d) in *. set (r := n mod d) in *. clearbody q r.
  assert (X : (q + 1) * d = q * d + d) by lia. rewrite (N.mul_comm d q) in E.
  destruct (2 * r <? d) eqn:A; [| destruct (d <? 2 * r) eqn:B; [| destruct (N.even q)]]; rewrite ?X; lia.
Qed.
Lemma half_even_exact q d : 0 < d -> half_even (q * d) d = q.
Proof.
  intro D. unfold half_even. rewrite N.div_mul, N.mod_mul by lia. replace (2 * 0 <? d) with true by lia. reflexivity.
Qed.
Lemma exponent_spec n d : 0 < n -> 0 < d ->
  let e := exponent n d in
  d * 2 ^ Z.to_N e <= n * 2 ^ Z.to_N (- e) /\ n * 2 ^ Z.to_N (- e) < 2 * (d * 2 ^ Z.to_N e).
Proof.
  intros Pn Pd. pose proof (N.log2_spec n Pn) as [L1 L2]. pose proof (N.log2_spec d Pd) as [M1 M2].
  unfold exponent. set (ln := N.log2 n) in *. set (ld := N.log2 d) in *. clearbody ln ld.
  rewrite N.pow_succ_r' in L2, M2.
  destruct (0 <=? Z.of_N ln - Z.of_N ld)%Z eqn:K.
  - replace (Z.to_N (Z.of_N ln - Z.of_N ld)) with (ln - ld) by lia.
    assert (E : 2 ^ ln = 2 ^ ld * 2 ^ (ln - ld)) by (rewrite <- N.pow_add_r; f_equal; lia).
    set (w := 2 ^ (ln - ld)) in *.
    assert (W : 0 < w) by (subst w; apply N.neq_0_lt_0, N.pow_nonzero; discriminate).
    assert (X1 : d * w < 2 * 2 ^ ln) by (rewrite E; nia). assert (X2 : 2 ^ ln <= d * w) by (rewrite E; nia).
    cbn zeta. destruct (n <? d * w) eqn:C.
    + destruct (N.eq_dec ln ld) as [Q | Q].
      * replace (Z.of_N ln - Z.of_N ld - 1)%Z with (-1)%Z by lia. change (Z.to_N (-1)) with 0. change (Z.to_N (- -1)) with 1.
        change (2 ^ 0) with 1. change (2 ^ 1) with 2. assert (w = 1) by (subst w; rewrite Q, N.sub_diag; reflexivity). lia.
      * assert (E2 : w = 2 * 2 ^ (ln - ld - 1)) by (subst w; rewrite <- N.pow_succ_r'; f_equal; lia).
        replace (Z.to_N (Z.of_N ln - Z.of_N ld - 1)) with (ln - ld - 1) by lia.
        replace (Z.to_N (- (Z.of_N ln - Z.of_N ld - 1))) with 0 by lia. change (2 ^ 0) with 1. rewrite E2 in *. lia.
    + replace (Z.to_N (Z.of_N ln - Z.of_N ld)) with (ln - ld) by lia.
      replace (Z.to_N (- (Z.of_N ln - Z.of_N ld))) with 0 by lia. fold w. change (2 ^ 0) with 1. lia.
  - replace (Z.to_N (- (Z.of_N ln - Z.of_N ld))) with (ld - ln) by lia.
    assert (E : 2 ^ ld = 2 ^ ln * 2 ^ (ld - ln)) by (rewrite <- N.pow_add_r; f_equal; lia).
    set (w := 2 ^ (ld - ln)) in *.
    assert (W : 0 < w) by (subst w; apply N.neq_0_lt_0, N.pow_nonzero; discriminate).
    assert (X1 : n * w < 2 * 2 ^ ld) by (rewrite E; nia). assert (X2 : 2 ^ ld <= n * w) by (rewrite E; nia).
    cbn zeta. destruct (n * w <? d) eqn:C.
    + replace (Z.to_N (- (Z.of_N ln - Z.of_N ld - 1))) with (N.succ (ld - ln)) by lia.
      replace (Z.to_N (Z.of_N ln - Z.of_N ld - 1)) with 0 by lia. rewrite N.pow_succ_r'. fold w. change (2 ^ 0) with 1. lia.
    + replace (Z.to_N (- (Z.of_N ln - Z.of_N ld))) with (ld - ln) by lia.
      replace (Z.to_N (Z.of_N ln - Z.of_N ld)) with 0 by lia. fold w. change (2 ^ 0) with 1. lia.
Qed.
Lemma pow2_pos k : 0 < 2 ^ k. Proof. apply N.neq_0_lt_0, N.pow_nonzero. discriminate. Qed.

Lemma double_small n : 0 < n <= 2 ^ 53 -> exists c, 0 < c /\ double n 1 = (n * c, c).
Proof.
  intros [P Q]. unfold double. replace (n =? 0) with false by lia.
  pose proof (exponent_spec n 1 P ltac:(lia)) as H. cbn zeta in H. set (e := exponent n 1) in *. clearbody e. rewrite N.mul_1_l in H.
  destruct (Z.lt_ge_cases e 0) as [E | E].
  { exfalso. replace (Z.to_N e) with 0 in H by lia. change (2 ^ 0) with 1 in H.
    assert (2 ^ 1 <= 2 ^ Z.to_N (- e)) by (apply N.pow_le_mono_r; lia). change (2 ^ 1) with 2 in *. nia. }
  replace (Z.to_N (- e)) with 0 in H by lia. change (2 ^ 0) with 1 in H. rewrite N.mul_1_r in H.
  cbn zeta. destruct (0 <=? e - 52)%Z eqn:U.
  - assert (D : (e = 52 \/ e = 53)%Z).
    { assert (L : 2 ^ Z.to_N e <= 2 ^ 53) by lia. apply N.pow_le_mono_r_iff in L; lia. }
    exists 1. split; [lia |]. f_equal. rewrite N.mul_1_l, N.mul_1_r.
    assert (M : exists q, n = q * 2 ^ Z.to_N (e - 52)).
    { destruct D as [-> | ->]; [exists n; change (2 ^ Z.to_N (52 - 52)) with 1; lia |].
      exists (2 ^ 52). change (2 ^ 52 * 2 ^ Z.to_N (53 - 52)) with (2 ^ 53). change (2 ^ Z.to_N 53) with (2 ^ 53) in H. lia. }
    destruct M as [q ->]. rewrite half_even_exact by apply pow2_pos. reflexivity.
  - exists (2 ^ Z.to_N (- (e - 52))). split; [apply pow2_pos |]. f_equal.
    rewrite <- (N.mul_1_r (n * _)) at 1. apply half_even_exact. lia.
Qed.

Lemma double_close n d P B : 0 < d -> 0 < B -> 0 < P < 2 ^ 53 -> P * d = n * B ->
  exists x u, double n d = (x, u) /\ 0 < u /\
    (forall k, P <= k * B -> x <= k * u) /\ (forall k, k * B < P -> k * u < x) /\
    (forall k, k * B <= P -> k * u <= x) /\ (forall k, P < k * B -> x < k * u).
Proof.
  intros D PB [P0 P1] E.
  assert (N0 : 0 < n) by nia.
  unfold double. replace (n =? 0) with false by lia.
  pose proof (exponent_spec n d N0 D) as H. cbn zeta in H. set (e := exponent n d) in *. clearbody e. cbn zeta.
  destruct (0 <=? e - 52)%Z eqn:U.
  - (* B = 1 and e = 52 *)
    replace (Z.to_N (- e)) with 0 in H by lia. change (2 ^ 0) with 1 in H. rewrite N.mul_1_r in H.
    assert (L : 2 ^ 52 <= 2 ^ Z.to_N e) by (apply N.pow_le_mono_r; lia).
    assert (L2 : B * 2 ^ Z.to_N e <= P).
    { apply (N.mul_le_mono_pos_r _ _ d D). rewrite E. replace (B * 2 ^ Z.to_N e * d) with (d * 2 ^ Z.to_N e * B) by lia. apply N.mul_le_mono_r, H. }
    assert (B1 : B = 1).
    { destruct (N.eq_dec B 1) as [|Z]; [assumption |]. exfalso. assert (2 * 2 ^ 52 <= B * 2 ^ Z.to_N e) by (apply N.mul_le_mono; lia).
      change (2 * 2 ^ 52) with (2 ^ 53) in *. lia. }
    subst B. assert (Z : (e = 52)%Z).
    { assert (X : 2 ^ Z.to_N e < 2 ^ 53) by lia. apply N.pow_lt_mono_r_iff in X; lia. }
    subst e. change (2 ^ Z.to_N (52 - 52)) with 1. rewrite !N.mul_1_r in *. rewrite <- E.
    exists P, 1. rewrite half_even_exact by exact D. repeat split; intros; lia.
  - set (u := 2 ^ Z.to_N (- (e - 52))) in *.
    assert (U0 : 0 < u) by apply pow2_pos.
    exists (half_even (n * u) d), u. split; [reflexivity |]. split; [exact U0 |].
    pose proof (half_even_near (n * u) d D) as [N1 N2]. set (x := half_even (n * u) d) in *. clearbody x.
    (* B < 2 u *)
    assert (BU : B < 2 * u).
    { assert (F : B * 2 ^ Z.to_N e <= P * 2 ^ Z.to_N (- e)).
      { apply (N.mul_le_mono_pos_r _ _ d D).
        replace (P * 2 ^ Z.to_N (- e) * d) with (P * d * 2 ^ Z.to_N (- e)) by lia. rewrite E.
        replace (B * 2 ^ Z.to_N e * d) with (d * 2 ^ Z.to_N e * B) by lia.
        replace (n * B * 2 ^ Z.to_N (- e)) with (n * 2 ^ Z.to_N (- e) * B) by lia. apply N.mul_le_mono_r, H. }
      assert (G : 2 ^ 53 * 2 ^ Z.to_N (- e) = 2 * u * 2 ^ Z.to_N e).
      { unfold u. rewrite <- N.pow_succ_r', <- !N.pow_add_r. f_equal. lia. }
      apply (N.mul_lt_mono_pos_r (2 ^ Z.to_N e)); [apply pow2_pos |]. rewrite <- G.
      eapply N.le_lt_trans; [exact F |]. apply N.mul_lt_mono_pos_r; [apply pow2_pos | exact P1]. }
    assert (X1 : forall k, P <= k * B -> n <= k * d).
    { intros k K. apply (N.mul_le_mono_pos_r _ _ B PB). rewrite <- E. replace (k * d * B) with (k * B * d) by lia. apply N.mul_le_mono_r, K. }
    assert (X2 : forall k, k * B <= P -> k * d <= n).
    { intros k K. apply (N.mul_le_mono_pos_r _ _ B PB). rewrite <- E. replace (k * d * B) with (k * B * d) by lia. apply N.mul_le_mono_r, K. }
    split; [| split; [| split]]; intros k K.
    + pose proof (X1 k K) as Y. apply N.le_ngt. intro C.
      assert (C1 : (k * u + 1) * d <= x * d) by (apply N.mul_le_mono_r; lia).
      assert (C2 : n * u <= k * d * u) by (apply N.mul_le_mono_r; exact Y). lia.
    + assert (Y : k * d * B + d <= n * B) by (rewrite <- E; replace (k * d * B + d) with ((k * B + 1) * d) by lia; apply N.mul_le_mono_r; lia).
      apply N.nle_gt. intro C. assert (C1 : x * d <= k * u * d) by (apply N.mul_le_mono_r; exact C).
      assert (C2 : 2 * (n * u) <= 2 * (k * u * d) + d) by lia.
      assert (C3 : 2 * (n * u) * B <= (2 * (k * u * d) + d) * B) by (apply N.mul_le_mono_r; exact C2).
      assert (C4 : 2 * u * (k * d * B + d) <= 2 * u * (n * B)) by (apply N.mul_le_mono_l; exact Y).
      assert (C5 : 2 * u * d <= B * d) by lia. apply N.mul_le_mono_pos_r in C5; [lia | exact D].
    + pose proof (X2 k K) as Y. apply N.le_ngt. intro C.
      assert (C1 : (x + 1) * d <= k * u * d) by (apply N.mul_le_mono_r; lia).
      assert (C2 : k * d * u <= n * u) by (apply N.mul_le_mono_r; exact Y). lia.
    + assert (Y : n * B + d <= k * d * B) by (rewrite <- E; replace (k * d * B) with (k * B * d) by lia; replace (P * d + d) with ((P + 1) * d) by lia; apply N.mul_le_mono_r; lia).
      apply N.nle_gt. intro C. assert (C1 : k * u * d <= x * d) by (apply N.mul_le_mono_r; exact C).
      assert (C2 : 2 * (k * u * d) <= 2 * (n * u) + d) by lia.
      assert (C3 : 2 * (k * u * d) * B <= (2 * (n * u) + d) * B) by (apply N.mul_le_mono_r; exact C2).
      assert (C4 : 2 * u * (n * B + d) <= 2 * u * (k * d * B)) by (apply N.mul_le_mono_l; exact Y).
      assert (C5 : 2 * u * d <= B * d) by lia. apply N.mul_le_mono_pos_r in C5; [lia | exact D].
Qed.

(* the quotient of two doubles that hold integers *)
Lemma fee_quotient a z B : a * z < 2 ^ 53 -> 0 < B <= 2 ^ 53 ->
  let q := double_div (double_mul (double a 1) (double z 1)) (double B 1) in
  (forall k, a * z <= k * B -> (k = 0 \/ (k - 1) * B < a * z) -> double_ceil q = k) /\
  (forall k, k * B <= a * z -> a * z < (k + 1) * B -> double_floor q = k).
Proof.
  intros H HB.
  destruct (N.eq_dec (a * z) 0) as [Z | Z].
  - assert (Q : double_mul (double a 1) (double z 1) = (0, 1)).
    { unfold double_mul. assert (F : fst (double a 1) * fst (double z 1) = 0).
      { apply N.mul_eq_0 in Z. destruct Z as [-> | ->]; [reflexivity | change (fst (double 0 1)) with 0; apply N.mul_0_r]. }
      rewrite F. reflexivity. }
    cbn zeta. rewrite Q, Z. change (double_div (0, 1) (double B 1)) with ((0, 1) : N * N).
    split; intros k K1 K2.
    + change (double_ceil (0, 1)) with 0. destruct K2 as [-> | K2]; [reflexivity | lia].
    + change (double_floor (0, 1)) with 0. nia.
  - assert (G : forall w, a * z < w -> (0 < a <= w) /\ (0 < z <= w)).
    { intros w W. assert (a <> 0) by (intros ->; lia). assert (z <> 0) by (intros ->; lia). nia. }
    destruct (G _ H) as [A0 Z0]. clear G.
    destruct (double_small a A0) as (ca & Ca & ->). destruct (double_small z Z0) as (cz & Cz & ->). destruct (double_small B HB) as (cb & Cb & ->).
    unfold double_mul. cbn [fst snd].
    (* the product is exact *)
    assert (M : exists c, 0 < c /\ double (a * ca * (z * cz)) (ca * cz) = (a * z * c, c)).
    { destruct (double_close (a * ca * (z * cz)) (ca * cz) (a * z) 1) as (x & u & E & U0 & L1 & _ & L2 & _); [nia | lia | split; [lia | exact H] | lia |].
      exists u. split; [exact U0 |]. rewrite E. f_equal. apply N.le_antisymm; [apply L1; lia | apply L2; lia]. }
    destruct M as (c & C0 & ->). cbn zeta. unfold double_div. cbn [fst snd].
    destruct (double_close (a * z * c * cb) (c * (B * cb)) (a * z) B) as (x & u & -> & U0 & L1 & L2 & L3 & L4); [nia | lia | split; [lia | exact H] | lia |].
    unfold double_ceil, double_floor. cbn [fst snd]. split; intros k K1 K2.
    + pose proof (L1 k K1) as Y1. destruct K2 as [-> | K2]; [nia |]. pose proof (L2 (k - 1) K2) as Y2.
      symmetry. apply (N.div_unique (x + u - 1) u k (x + u - 1 - u * k)); nia.
    + pose proof (L3 k K1) as Y1. pose proof (L4 (k + 1) K2) as Y2.
      symmetry. apply (N.div_unique x u k (x - u * k)); nia.
Qed.

Lemma fee_exact v size : Z.abs_N (rt_satoshis v) * size < 2 ^ 53 -> 0 < rt_bytes v <= 2 ^ 53 ->
  exists z, calculate_fee v size = Ret z /\ least_above (rt_satoshis v) (Z.of_N size) (Z.of_N (rt_bytes v)) z.
Proof.
  intros H HB. destruct v as [s B]. cbn [rt_satoshis rt_bytes] in *.
  destruct (fee_quotient (Z.abs_N s) size B H HB) as [C F]. unfold calculate_fee. cbn [rt_satoshis rt_bytes].
  replace (B =? 0) with false by lia. cbn zeta in *.
  set (q := double_div _ _) in *. clearbody q. set (p := Z.abs_N s * size) in *.
  assert (Hz : p < 9223372036854775808) by (change (2 ^ 53) with 9007199254740992 in H; lia).
  destruct (s <? 0)%Z eqn:S.
  - pose proof (N.div_mod p B ltac:(lia)) as D. pose proof (N.mod_lt p B ltac:(lia)) as R.
    rewrite (F (p / B)) by lia. assert (LE : p / B <= p) by (apply N.div_le_upper_bound; nia).
    assert (Fi : fits64 (- Z.of_N (p / B)) = true) by (unfold fits64; lia). rewrite Fi. eexists. split; [reflexivity |].
    assert (SP : (s * Z.of_N size = - Z.of_N p)%Z) by (unfold p; rewrite N2Z.inj_mul, N2Z.inj_abs_N; lia).
    unfold least_above. rewrite SP. set (d := p / B) in *. set (r := p mod B) in *. clearbody d r p. nia.
  - destruct (N.eq_dec p 0) as [Z | Z].
    + rewrite (C 0) by lia. change (fits64 (Z.of_N 0)) with true. exists 0%Z. split; [reflexivity |].
      assert (SP : (s * Z.of_N size = Z.of_N p)%Z) by (unfold p; rewrite N2Z.inj_mul, N2Z.inj_abs_N; lia).
      unfold least_above. rewrite SP. lia.
    + pose proof (N.div_mod (p - 1) B ltac:(lia)) as D. pose proof (N.mod_lt (p - 1) B ltac:(lia)) as R.
      set (d := (p - 1) / B) in *. set (r := (p - 1) mod B) in *.
      assert (LE : d <= p - 1) by (apply N.div_le_upper_bound; nia).
      rewrite (C (d + 1)); [| nia | right; nia].
      assert (Fi : fits64 (Z.of_N (d + 1)) = true) by (unfold fits64; lia). rewrite Fi. eexists. split; [reflexivity |].
      assert (SP : (s * Z.of_N size = Z.of_N p)%Z) by (unfold p; rewrite N2Z.inj_mul, N2Z.inj_abs_N; lia).
      unfold least_above. rewrite SP. clearbody d r p. nia.
Qed.
Lemma fee_zero v size : rt_bytes v = 0 -> calculate_fee v size = Throw F_division_by_zero.
Proof. intro H. unfold calculate_fee. rewrite H. reflexivity. Qed.
(* one satoshi is lost for a product just beyond *)
Lemma fee_wrong : exists v size, rt_bytes v = 1 /\ (0 < rt_satoshis v)%Z /\
  exists z, calculate_fee v size = Ret z /\ (z < rt_satoshis v * Z.of_N size)%Z.
Proof.
  exists {| rt_satoshis := 9007199254740993; rt_bytes := 1 |}, 1. split; [reflexivity | split; [reflexivity |]].
  eexists. split; [vm_compute; reflexivity | vm_compute; reflexivity].
Qed.
