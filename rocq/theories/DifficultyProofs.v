(* Proofs about difficulties. *)
From Coq Require Import Lia ZifyBool ZifyNat ZifyN.
From Verif Require Import Base BaseProofs WireModel ExtModel ScriptModel WorkModel WorkSpec WorkProofs WorkTargetProofs BoostModel BoostRedeemModel DifficultyModel DifficultySpec FeeProofs DoubleProofs.
Local Open Scope N_scope.

Lemma pow256_two k : 256 ^ k = 2 ^ (8 * k).
Proof. change 256 with (2 ^ 8). rewrite <- N.pow_mul_r. reflexivity. Qed.
Lemma representable_int m k : m < 2 ^ 53 -> representable (m * 2 ^ k) 1.
Proof. intro M. split; [lia |]. exists m, 0, k. split; [exact M |]. change (2 ^ 0) with 1. lia. Qed.
Lemma expand_parts c : expand c <> 0 -> exists m k, expand c = m * 256 ^ k /\ 0 < m < 2 ^ 23.
Proof.
  intro Z. destruct (expand_shape c Z) as (_ & E & _). rewrite E in Z |- *. destruct (magnitude_cases c) as [L | [_ L]].
  - exists (magnitude c), 0. change (256 ^ 0) with 1. lia.
  - exists (mantissa_of c), (exponent_of c - 3). split; [exact L |]. rewrite L in Z. split; [nia |]. apply N.mod_lt. discriminate.
Qed.
Lemma expand_representable c : expand c <> 0 -> representable (expand c) 1.
Proof.
  intro Z. destruct (expand_parts c Z) as (m & k & -> & M). rewrite pow256_two. apply representable_int.
  eapply N.lt_trans; [apply M |]. reflexivity.
Qed.
Lemma unit_parts : difficulty_unit = 0xffff * 2 ^ 208. Proof. reflexivity. Qed.
Lemma unit_representable : representable difficulty_unit 1.
Proof. rewrite unit_parts. apply representable_int. reflexivity. Qed.
Lemma unit_pos : 0 < difficulty_unit. Proof. reflexivity. Qed.
Lemma unit_double : 0 < snd (double difficulty_unit 1) /\ is_number (double difficulty_unit 1) difficulty_unit.
Proof. apply integer_double; [exact unit_pos | exact unit_representable]. Qed.

Lemma difficulty_exact c : expand c <> 0 -> difficulty_of c = Num (double difficulty_unit (expand c)).
Proof.
  intro Z. unfold difficulty_of. replace (expand c =? 0) with false by lia. f_equal.
  destruct unit_double as [U1 U2]. destruct (integer_double (expand c) ltac:(lia) (expand_representable c Z)) as [A1 A2].
  apply div_exact; [exact unit_pos | lia | exact U1 | exact A1 | exact U2 | exact A2].
Qed.
Lemma absolute_exact x : 0 < fst x -> 0 < snd x -> absolute_of x = double (difficulty_unit * snd x) (fst x).
Proof.
  intros F G. unfold absolute_of, double_div. destruct unit_double as [U1 U2]. unfold is_number in U2. rewrite U2.
  set (k := snd (double difficulty_unit 1)) in *.
  replace (difficulty_unit * k * snd x) with (difficulty_unit * snd x * k) by lia. rewrite (N.mul_comm k). apply double_scale; assumption.
Qed.

(* two targets that differ do so by more than the rounding *)
Lemma parts_gap m k m' k' : 0 < m < 2 ^ 23 -> 0 < m' < 2 ^ 23 -> m * 256 ^ k < m' * 256 ^ k' -> (2 ^ 23 + 1) * (m * 256 ^ k) <= 2 ^ 23 * (m' * 256 ^ k').
Proof.
  intros M M' L. change (2 ^ 23) with 8388608 in *.
  destruct (N.le_gt_cases k k') as [K | K].
  - replace k' with (k + (k' - k)) in * by lia. rewrite N.pow_add_r in *. set (w := 256 ^ k) in *. set (y := 256 ^ (k' - k)) in *.
    assert (W : 0 < w) by (subst w; apply N.neq_0_lt_0, N.pow_nonzero; discriminate). clearbody w y.
    assert (X : m * w < m' * y * w) by lia. apply N.mul_lt_mono_pos_r in X; [| exact W].
    replace (8388608 * (m' * (w * y))) with (8388608 * (m' * y) * w) by lia. replace ((8388608 + 1) * (m * w)) with ((8388608 + 1) * m * w) by lia.
    apply N.mul_le_mono_r. lia.
  - replace k with (k' + (k - k')) in * by lia. rewrite N.pow_add_r in *. set (w := 256 ^ k') in *. set (y := 256 ^ (k - k')) in *.
    assert (W : 0 < w) by (subst w; apply N.neq_0_lt_0, N.pow_nonzero; discriminate). clearbody w y.
    assert (X : m * y * w < m' * w) by lia. apply N.mul_lt_mono_pos_r in X; [| exact W].
    replace (8388608 * (m' * w)) with (8388608 * m' * w) by lia. replace ((8388608 + 1) * (m * (w * y))) with ((8388608 + 1) * (m * y) * w) by lia.
    apply N.mul_le_mono_r. lia.
Qed.
Lemma difficulty_antitone a b : 0 < a -> (2 ^ 23 + 1) * a <= 2 ^ 23 * b ->
  fst (double difficulty_unit b) * snd (double difficulty_unit a) < fst (double difficulty_unit a) * snd (double difficulty_unit b).
Proof.
  intros A G. change (2 ^ 23) with 8388608 in G. pose proof unit_pos as U.
  pose proof (double_error difficulty_unit a U A) as [_ H1]. pose proof (double_error difficulty_unit b U ltac:(lia)) as [H2 _].
  destruct (double_pos difficulty_unit a U A) as [P1 P2]. destruct (double_pos difficulty_unit b U ltac:(lia)) as [P3 P4].
  set (W := difficulty_unit) in *. clearbody W.
  set (xa := fst (double W a)) in *. set (ua := snd (double W a)) in *. set (xb := fst (double W b)) in *. set (ub := snd (double W b)) in *.
  clearbody xa ua xb ub. change (2 ^ 53) with 9007199254740992 in *.
  apply N.nle_gt. intro C.
  assert (K1 : (9007199254740992 - 1) * (W * ua) * (b * ub) <= 9007199254740992 * (xa * a) * (b * ub)) by (apply N.mul_le_mono_r; exact H1).
  assert (K2 : 9007199254740992 * (xb * b) * (a * ua) <= (9007199254740992 + 1) * (W * ub) * (a * ua)) by (apply N.mul_le_mono_r; exact H2).
  assert (K3 : 9007199254740992 * (a * b) * (xa * ub) <= 9007199254740992 * (a * b) * (xb * ua)) by (apply N.mul_le_mono_l; exact C).
  assert (K4 : (9007199254740992 - 1) * b * (W * ua * ub) <= (9007199254740992 + 1) * a * (W * ua * ub)) by lia.
  apply N.mul_le_mono_pos_r in K4; [lia | nia].
Qed.

Lemma order_bool p q a b : a < b -> p < q -> (q <? p) = (b <? a) /\ (q =? p) = (a =? b).
Proof. lia. Qed.
Lemma order_bool' p q a b : b < a -> p < q -> (p <? q) = (b <? a) /\ (p =? q) = (a =? b).
Proof. lia. Qed.
Lemma difficulty_order c c' : expand c <> 0 -> expand c' <> 0 ->
  float_ltb (difficulty_of c) (difficulty_of c') = (expand c' <? expand c) /\ float_eqb (difficulty_of c) (difficulty_of c') = (expand c =? expand c').
Proof.
  intros Z Z'. rewrite !difficulty_exact by assumption. cbn [float_ltb float_eqb].
  destruct (expand_parts c Z) as (m & k & E & M). destruct (expand_parts c' Z') as (m' & k' & E' & M').
  destruct (N.lt_trichotomy (expand c) (expand c')) as [L | [L | L]].
  - pose proof L as G. rewrite E, E' in G. apply parts_gap in G; [| assumption | assumption]. rewrite <- E, <- E' in G.
    pose proof (difficulty_antitone _ _ (proj1 (N.neq_0_lt_0 _) Z) G) as D. clear - L D. apply order_bool; assumption.
  - rewrite L. lia.
  - pose proof L as G. rewrite E, E' in G. apply parts_gap in G; [| assumption | assumption]. rewrite <- E, <- E' in G.
    pose proof (difficulty_antitone _ _ (proj1 (N.neq_0_lt_0 _) Z') G) as D. clear - L D. apply order_bool'; assumption.
Qed.
