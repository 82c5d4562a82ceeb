(* Proofs about doubles: the nearest number of 53 bits. *)
From Coq Require Import Lia ZifyBool ZifyNat ZifyN.
From Verif Require Import Base BaseProofs ExtModel WorkModel WorkSpec DifficultyModel DifficultySpec FeeProofs.
Local Open Scope N_scope.

Lemma half_even_tie n d m : 0 < d -> 2 * n <= 2 * (m * d) + d -> 2 * (m * d) <= 2 * n + d ->
  (2 * n < 2 * (m * d) + d /\ 2 * (m * d) < 2 * n + d) \/ N.even m = true -> half_even n d = m.
Proof.
  intros D H1 H2 H3. unfold half_even. pose proof (N.div_mod n d ltac:(lia)) as E. pose proof (N.mod_lt n d ltac:(lia)) as R.
  set (q := n / d) in *. set (r := n mod d) in *. clearbody q r. rewrite (N.mul_comm d q) in E.
  assert (Q : q = m \/ q + 1 = m).
  { destruct (N.lt_trichotomy q m) as [L | [L | L]]; [right | left; exact L | exfalso].
    - destruct (N.eq_dec (q + 1) m) as [X | X]; [exact X | exfalso]. assert (Y : (q + 2) * d <= m * d) by (apply N.mul_le_mono_r; lia). lia.
    - assert (Y : (m + 1) * d <= q * d) by (apply N.mul_le_mono_r; lia). lia. }
  destruct Q as [Q | Q]; subst m.
  - destruct (2 * r <? d) eqn:A; [reflexivity |]. destruct (d <? 2 * r) eqn:B; [lia |].
    destruct H3 as [H3 | H3]; [lia |]. rewrite H3. reflexivity.
  - assert (X : (q + 1) * d = q * d + d) by lia. rewrite X in *.
    destruct (2 * r <? d) eqn:A; [lia |]. destruct (d <? 2 * r) eqn:B; [reflexivity |].
    destruct H3 as [H3 | H3]; [lia |]. rewrite N.add_1_r, N.even_succ, <- N.negb_even in H3. destruct (N.even q); [discriminate | reflexivity].
Qed.
Lemma half_even_parity n d : 0 < d -> (2 * n = 2 * (half_even n d * d) + d \/ 2 * (half_even n d * d) = 2 * n + d) -> N.even (half_even n d) = true.
Proof.
  intros D. unfold half_even. pose proof (N.div_mod n d ltac:(lia)) as E. pose proof (N.mod_lt n d ltac:(lia)) as R.
  set (q := n / d) in *. set (r := n mod d) in *. clearbody q r. rewrite (N.mul_comm d q) in E.
  assert (X : (q + 1) * d = q * d + d) by lia.
  destruct (2 * r <? d) eqn:A; [lia |]. destruct (d <? 2 * r) eqn:B; [rewrite X; lia |].
  destruct (N.even q) eqn:P; intros _; [exact P |]. rewrite N.add_1_r, N.even_succ, <- N.negb_even, P. reflexivity.
Qed.
Lemma half_even_mono n d n' d' : 0 < d -> 0 < d' -> n * d' <= n' * d -> half_even n d <= half_even n' d'.
Proof.
  intros D D' H. apply N.le_ngt. intro C.
  pose proof (half_even_near n d D) as [A1 A2]. pose proof (half_even_near n' d' D') as [B1 B2].
  pose proof (half_even_parity n d D) as P. pose proof (half_even_parity n' d' D') as P'.
  set (m := half_even n d) in *. set (m' := half_even n' d') in *. clearbody m m'.
  assert (Y : (m' + 1) * d <= m * d) by (apply N.mul_le_mono_r; lia).
  assert (K1 : (2 * (m * d)) * d' <= (2 * n + d) * d') by (apply N.mul_le_mono_r; exact A2).
  assert (K2 : (2 * n') * d <= (2 * (m' * d') + d') * d) by (apply N.mul_le_mono_r; exact B1).
  assert (K3 : (m' + 1) * d * d' <= m * d * d') by (apply N.mul_le_mono_r; exact Y).
  assert (Z1 : (2 * (m * d)) * d' = (2 * n + d) * d') by lia.
  assert (Z2 : (2 * n') * d = (2 * (m' * d') + d') * d) by lia.
  apply N.mul_cancel_r in Z1; [| lia]. apply N.mul_cancel_r in Z2; [| lia].
  assert (M : m * d * d' = (m' + 1) * d * d') by lia. rewrite <- !N.mul_assoc in M. apply N.mul_cancel_r in M; [| nia].
  specialize (P (or_intror Z1)). specialize (P' (or_introl Z2)). subst m. rewrite N.add_1_r, N.even_succ, <- N.negb_even, P' in P. discriminate.
Qed.

(* the exponent is determined by the number *)
Lemma exponent_unique n d e : 0 < n -> 0 < d ->
  d * 2 ^ Z.to_N e <= n * 2 ^ Z.to_N (- e) -> n * 2 ^ Z.to_N (- e) < 2 * (d * 2 ^ Z.to_N e) -> exponent n d = e.
Proof.
  intros Pn Pd H1 H2. pose proof (exponent_spec n d Pn Pd) as [K1 K2]. set (f := exponent n d) in *. clearbody f.
  assert (G : forall a b, d * 2 ^ Z.to_N a <= n * 2 ^ Z.to_N (- a) -> n * 2 ^ Z.to_N (- b) < 2 * (d * 2 ^ Z.to_N b) -> (a <= b)%Z).
  { intros a b A B. apply Z.le_ngt. intro C.
    (* 2^a <= n/d < 2^(b+1) <= 2^a *)
    assert (X : d * 2 ^ Z.to_N a * 2 ^ Z.to_N (- b) <= n * 2 ^ Z.to_N (- a) * 2 ^ Z.to_N (- b)) by (apply N.mul_le_mono_r; exact A).
    assert (Y : n * 2 ^ Z.to_N (- b) * 2 ^ Z.to_N (- a) < 2 * (d * 2 ^ Z.to_N b) * 2 ^ Z.to_N (- a)) by (apply N.mul_lt_mono_pos_r; [apply pow2_pos | exact B]).
    assert (Z : 2 * 2 ^ Z.to_N b * 2 ^ Z.to_N (- a) <= 2 ^ Z.to_N a * 2 ^ Z.to_N (- b)).
    { rewrite <- N.pow_succ_r', <- !N.pow_add_r. apply N.pow_le_mono_r; lia. }
    assert (W : d * (2 * 2 ^ Z.to_N b * 2 ^ Z.to_N (- a)) <= d * (2 ^ Z.to_N a * 2 ^ Z.to_N (- b))) by (apply N.mul_le_mono_l; exact Z).
    lia. }
  apply Z.le_antisymm; apply G; assumption.
Qed.
Lemma exponent_scale n d k : 0 < n -> 0 < d -> 0 < k -> exponent (n * k) (d * k) = exponent n d.
Proof.
  intros Pn Pd Pk. pose proof (exponent_spec n d Pn Pd) as [K1 K2]. apply exponent_unique; nia.
Qed.
Lemma half_even_scale n d k : 0 < d -> 0 < k -> half_even (n * k) (d * k) = half_even n d.
Proof.
  intros D K. apply N.le_antisymm; apply half_even_mono; nia.
Qed.
Lemma double_scale n d k : 0 < d -> 0 < k -> double (n * k) (d * k) = double n d.
Proof.
  intros D K. unfold double. destruct (N.eq_dec n 0) as [-> | Z]; [reflexivity |].
  replace (n * k =? 0) with false by (symmetry; apply N.eqb_neq; nia). replace (n =? 0) with false by lia.
  rewrite exponent_scale by lia. cbn zeta. destruct (0 <=? exponent n d - 52)%Z; f_equal.
  - f_equal. replace (d * k * 2 ^ Z.to_N (exponent n d - 52)) with (d * 2 ^ Z.to_N (exponent n d - 52) * k) by lia.
    apply half_even_scale; [| exact K]. pose proof (pow2_pos (Z.to_N (exponent n d - 52))). nia.
  - replace (n * k * 2 ^ Z.to_N (- (exponent n d - 52))) with (n * 2 ^ Z.to_N (- (exponent n d - 52)) * k) by lia.
    apply half_even_scale; assumption.
Qed.

(* a double is m units in the last place, a unit being 2^g / 2^v *)
Lemma double_form n d : 0 < n -> 0 < d -> exists m g v,
  double n d = (m * 2 ^ g, 2 ^ v) /\ m = half_even (n * 2 ^ v) (2 ^ g * d) /\ (g = 0 \/ v = 0) /\
  (Z.of_N g - Z.of_N v = exponent n d - 52)%Z /\
  2 ^ 52 * (2 ^ g * d) <= n * 2 ^ v /\ n * 2 ^ v < 2 ^ 53 * (2 ^ g * d) /\ 2 ^ 52 <= m <= 2 ^ 53 /\
  2 * (n * 2 ^ v) <= 2 * (m * (2 ^ g * d)) + 2 ^ g * d /\ 2 * (m * (2 ^ g * d)) <= 2 * (n * 2 ^ v) + 2 ^ g * d.
Proof.
  intros Pn Pd. pose proof (exponent_spec n d Pn Pd) as [K1 K2]. unfold double. replace (n =? 0) with false by lia. cbn zeta.
  set (e := exponent n d) in *. clearbody e.
  set (g := if (0 <=? e - 52)%Z then Z.to_N (e - 52) else 0). set (v := if (0 <=? e - 52)%Z then 0 else Z.to_N (- (e - 52))).
  exists (half_even (n * 2 ^ v) (2 ^ g * d)), g, v.
  assert (GV : (Z.of_N g - Z.of_N v = e - 52)%Z) by (unfold g, v; destruct (0 <=? e - 52)%Z eqn:E; lia).
  assert (B1 : 2 ^ 52 * (2 ^ g * d) <= n * 2 ^ v).
  { apply (N.mul_le_mono_pos_r _ _ (2 ^ Z.to_N (- e))); [apply pow2_pos |].
    assert (X : d * 2 ^ Z.to_N e * 2 ^ v <= n * 2 ^ Z.to_N (- e) * 2 ^ v) by (apply N.mul_le_mono_r; exact K1).
    assert (Y : 2 ^ 52 * 2 ^ g * 2 ^ Z.to_N (- e) = 2 ^ Z.to_N e * 2 ^ v) by (rewrite <- !N.pow_add_r; f_equal; lia).
    replace (2 ^ 52 * (2 ^ g * d) * 2 ^ Z.to_N (- e)) with (2 ^ 52 * 2 ^ g * 2 ^ Z.to_N (- e) * d) by lia. rewrite Y. lia. }
  assert (B2 : n * 2 ^ v < 2 ^ 53 * (2 ^ g * d)).
  { apply (N.mul_lt_mono_pos_r (2 ^ Z.to_N (- e))); [apply pow2_pos |].
    assert (X : n * 2 ^ Z.to_N (- e) * 2 ^ v < 2 * (d * 2 ^ Z.to_N e) * 2 ^ v) by (apply N.mul_lt_mono_pos_r; [apply pow2_pos | exact K2]).
    assert (Y : 2 ^ 53 * 2 ^ g * 2 ^ Z.to_N (- e) = 2 * 2 ^ Z.to_N e * 2 ^ v) by (rewrite <- N.pow_succ_r', <- !N.pow_add_r; f_equal; lia).
    replace (2 ^ 53 * (2 ^ g * d) * 2 ^ Z.to_N (- e)) with (2 ^ 53 * 2 ^ g * 2 ^ Z.to_N (- e) * d) by lia. rewrite Y. lia. }
  assert (D : 0 < 2 ^ g * d) by (pose proof (pow2_pos g); nia).
  pose proof (half_even_near (n * 2 ^ v) (2 ^ g * d) D) as [N1 N2].
  split; [| split; [reflexivity | split; [| split; [exact GV | split; [exact B1 | split; [exact B2 | split; [| split; assumption]]]]]]].
  - unfold g, v. destruct (0 <=? e - 52)%Z.
    + change (2 ^ 0) with 1. rewrite N.mul_1_r, (N.mul_comm d). reflexivity.
    + change (2 ^ 0) with 1. rewrite N.mul_1_l, N.mul_1_r. reflexivity.
  - unfold g, v. destruct (0 <=? e - 52)%Z; [right | left]; reflexivity.
  - set (m := half_even _ _) in *. clearbody m. set (D' := 2 ^ g * d) in *. clearbody D'. set (M := n * 2 ^ v) in *. clearbody M.
    change (2 ^ 52) with 4503599627370496 in *. change (2 ^ 53) with 9007199254740992 in *. split; apply N.le_ngt; intro C.
    + assert (Y : (m + 1) * D' <= 4503599627370496 * D') by (apply N.mul_le_mono_r; lia). lia.
    + assert (Y : (9007199254740992 + 1) * D' <= m * D') by (apply N.mul_le_mono_r; lia). lia.
Qed.
Lemma double_pos n d : 0 < n -> 0 < d -> 0 < fst (double n d) /\ 0 < snd (double n d).
Proof.
  intros Pn Pd. destruct (double_form n d Pn Pd) as (m & g & v & -> & _ & _ & _ & _ & _ & [M _] & _). cbn [fst snd].
  pose proof (pow2_pos g). pose proof (pow2_pos v). change (2 ^ 52) with 4503599627370496 in M. nia.
Qed.
Lemma double_error n d : 0 < n -> 0 < d -> let x := double n d in
  2 ^ 53 * (fst x * d) <= (2 ^ 53 + 1) * (n * snd x) /\ (2 ^ 53 - 1) * (n * snd x) <= 2 ^ 53 * (fst x * d).
Proof.
  intros Pn Pd. destruct (double_form n d Pn Pd) as (m & g & v & -> & _ & _ & _ & B1 & _ & _ & N1 & N2). cbn [fst snd].
  replace (m * 2 ^ g * d) with (m * (2 ^ g * d)) by lia. set (D := 2 ^ g * d) in *. clearbody D. set (M := n * 2 ^ v) in *. clearbody M.
  set (m' := m * D) in *. clearbody m'. change (2 ^ 52) with 4503599627370496 in *. change (2 ^ 53) with 9007199254740992 in *. lia.
Qed.
(* numbers of 53 bits that are not below the least of the binade are whole units *)
Lemma representable_units p q g v : representable p q -> 2 ^ 52 * 2 ^ g * q <= p * 2 ^ v -> exists j, p * 2 ^ v = j * 2 ^ g * q.
Proof.
  intros (Q & m & a & b & M & E) H.
  destruct (N.le_gt_cases (g + a) (b + v)) as [L | L].
  - exists (m * 2 ^ (b + v - (g + a))).
    assert (X : p * 2 ^ a * 2 ^ v = m * 2 ^ b * q * 2 ^ v) by (rewrite E; reflexivity).
    apply (N.mul_cancel_r _ _ (2 ^ a)); [apply N.pow_nonzero; discriminate |].
    replace (p * 2 ^ v * 2 ^ a) with (p * 2 ^ a * 2 ^ v) by lia. rewrite X.
    assert (Y : 2 ^ (b + v - (g + a)) * 2 ^ g * 2 ^ a = 2 ^ b * 2 ^ v) by (rewrite <- !N.pow_add_r; f_equal; lia).
    replace (m * 2 ^ (b + v - (g + a)) * 2 ^ g * q * 2 ^ a) with (m * q * (2 ^ (b + v - (g + a)) * 2 ^ g * 2 ^ a)) by lia. rewrite Y. lia.
  - exfalso. assert (X : 2 ^ 52 * 2 ^ g * q * 2 ^ a <= p * 2 ^ v * 2 ^ a) by (apply N.mul_le_mono_r; exact H).
    replace (p * 2 ^ v * 2 ^ a) with (p * 2 ^ a * 2 ^ v) in X by lia. rewrite E in X.
    assert (Y : 2 * (2 ^ b * 2 ^ v) <= 2 ^ g * 2 ^ a) by (rewrite <- N.pow_add_r, <- N.pow_succ_r', <- N.pow_add_r; apply N.pow_le_mono_r; lia).
    assert (W : m * (2 ^ b * 2 ^ v * q) < 2 ^ 53 * (2 ^ b * 2 ^ v * q)).
    { apply N.mul_lt_mono_pos_r; [| exact M]. pose proof (pow2_pos b). pose proof (pow2_pos v). nia. }
    assert (V : 2 ^ 52 * q * (2 * (2 ^ b * 2 ^ v)) <= 2 ^ 52 * q * (2 ^ g * 2 ^ a)) by (apply N.mul_le_mono_l; exact Y).
    change (2 ^ 53) with (2 * 2 ^ 52) in W. lia.
Qed.

Lemma abs_scale a b w q : (0 <= w)%Z -> (0 <= q)%Z -> (a * w = b * q)%Z -> (Z.abs a * w = Z.abs b * q)%Z.
Proof. intros W Q E. rewrite <- (Z.abs_eq w W), <- (Z.abs_eq q Q), <- !Z.abs_mul, E. reflexivity. Qed.
Lemma double_nearest n d p q : 0 < n -> 0 < d -> representable p q -> nearer (double n d) n d p q.
Proof.
  intros Pn Pd R. destruct (double_form n d Pn Pd) as (m & g & v & -> & _ & _ & _ & B1 & B2 & M & N1 & N2). unfold nearer. cbn [fst snd].
  assert (Q : 0 < q) by apply R.
  assert (C : forall j, (Z.abs (Z.of_N (m * 2 ^ g * d) - Z.of_N (n * 2 ^ v)) <= Z.abs (Z.of_N (j * (2 ^ g * d)) - Z.of_N (n * 2 ^ v)))%Z).
  { intro j. replace (m * 2 ^ g * d) with (m * (2 ^ g * d)) by lia. clear - N1 N2. set (D := 2 ^ g * d) in *. set (T := n * 2 ^ v) in *. clearbody D T.
    destruct (N.eq_dec j m) as [-> | X]; [lia |]. destruct (N.lt_ge_cases j m) as [L | L].
    - assert (Y : (j + 1) * D <= m * D) by (apply N.mul_le_mono_r; lia). lia.
    - assert (Y : (m + 1) * D <= j * D) by (apply N.mul_le_mono_r; lia). lia. }
  destruct (N.le_gt_cases (2 ^ 52 * 2 ^ g * q) (p * 2 ^ v)) as [L | L].
  - destruct (representable_units p q g v R L) as [j J]. specialize (C j).
    assert (X : (Z.abs (Z.of_N (p * d) - Z.of_N (n * q)) * Z.of_N (2 ^ v) = Z.abs (Z.of_N (j * (2 ^ g * d)) - Z.of_N (n * 2 ^ v)) * Z.of_N q)%Z).
    { apply abs_scale; [lia | lia |]. rewrite !Z.mul_sub_distr_r, <- !N2Z.inj_mul.
      replace (p * d * 2 ^ v) with (j * (2 ^ g * d) * q) by (replace (p * d * 2 ^ v) with (p * 2 ^ v * d) by lia; rewrite J; lia). lia. }
    rewrite X. apply Z.mul_le_mono_nonneg_r; [lia | exact C].
  - specialize (C (2 ^ 52)).
    assert (X : (Z.abs (Z.of_N (2 ^ 52 * (2 ^ g * d)) - Z.of_N (n * 2 ^ v)) * Z.of_N q <= Z.abs (Z.of_N (p * d) - Z.of_N (n * q)) * Z.of_N (2 ^ v))%Z).
    { assert (P1 : p * 2 ^ v * d <= 2 ^ 52 * 2 ^ g * q * d) by (apply N.mul_le_mono_r; lia).
      assert (P2 : 2 ^ 52 * (2 ^ g * d) * q <= n * 2 ^ v * q) by (apply N.mul_le_mono_r; exact B1).
      rewrite (Z.abs_neq (Z.of_N (2 ^ 52 * (2 ^ g * d)) - _)) by lia.
      assert (P3 : p * d * 2 ^ v <= n * q * 2 ^ v) by lia.
      apply N.mul_le_mono_pos_r in P3; [| apply pow2_pos].
      rewrite Z.abs_neq by lia. rewrite !Z.opp_sub_distr, !Z.mul_add_distr_r, !Z.mul_opp_l, <- !N2Z.inj_mul. lia. }
    eapply Z.le_trans; [| exact X]. apply Z.mul_le_mono_nonneg_r; [lia | exact C].
Qed.
Lemma double_exact n d : 0 < n -> representable n d -> fst (double n d) * d = n * snd (double n d).
Proof.
  intros Pn R. assert (Pd : 0 < d) by apply R. pose proof (double_nearest n d n d Pn Pd R) as H. unfold nearer in H.
  rewrite Z.sub_diag in H. change (Z.abs 0) with 0%Z in H. rewrite Z.mul_0_l in H.
  assert (X : (Z.abs (Z.of_N (fst (double n d) * d) - Z.of_N (n * snd (double n d))) <= 0)%Z) by nia. lia.
Qed.
(* rounding does not go past a number of 53 bits *)
Lemma double_above n d p q : 0 < n -> 0 < d -> representable p q -> p * d <= n * q -> p * snd (double n d) <= fst (double n d) * q.
Proof.
  intros Pn Pd R H. pose proof (double_nearest n d p q Pn Pd R) as K. unfold nearer in K. assert (Q : 0 < q) by apply R.
  destruct (double_pos n d Pn Pd) as [X0 U0].
  set (x := fst (double n d)) in *. set (u := snd (double n d)) in *. clearbody x u. apply N.le_ngt. intro C.
  assert (A1 : x * q * d < p * u * d) by (apply N.mul_lt_mono_pos_r; assumption).
  assert (A2 : p * d * u <= n * q * u) by (apply N.mul_le_mono_r; exact H).
  assert (A3 : x * d < n * u) by (apply (N.mul_lt_mono_pos_r q); [exact Q | lia]).
  rewrite !Z.abs_neq in K by lia. rewrite !Z.opp_sub_distr, !Z.mul_add_distr_r, !Z.mul_opp_l, <- !N2Z.inj_mul in K. lia.
Qed.
Lemma double_below n d p q : 0 < n -> 0 < d -> representable p q -> n * q <= p * d -> fst (double n d) * q <= p * snd (double n d).
Proof.
  intros Pn Pd R H. pose proof (double_nearest n d p q Pn Pd R) as K. unfold nearer in K. assert (Q : 0 < q) by apply R.
  destruct (double_pos n d Pn Pd) as [X0 U0].
  set (x := fst (double n d)) in *. set (u := snd (double n d)) in *. clearbody x u. apply N.le_ngt. intro C.
  assert (A1 : p * u * d < x * q * d) by (apply N.mul_lt_mono_pos_r; assumption).
  assert (A2 : n * q * u <= p * d * u) by (apply N.mul_le_mono_r; exact H).
  assert (A3 : n * u < x * d) by (apply (N.mul_lt_mono_pos_r q); [exact Q | lia]).
  rewrite !Z.abs_eq in K by lia. rewrite !Z.mul_sub_distr_r, <- !N2Z.inj_mul in K. lia.
Qed.
Lemma representable_double n d : 0 < n -> 0 < d -> representable (fst (double n d)) (snd (double n d)).
Proof.
  intros Pn Pd. destruct (double_form n d Pn Pd) as (m & g & v & -> & _ & _ & _ & _ & _ & [_ M] & _). cbn [fst snd].
  split; [apply pow2_pos |]. destruct (N.eq_dec m (2 ^ 53)) as [-> | X].
  - exists 1, v, (53 + g). split; [reflexivity |]. rewrite N.mul_1_l, N.pow_add_r. reflexivity.
  - exists m, v, g. split; [lia | reflexivity].
Qed.
Lemma double_mono n d n' d' : 0 < n -> 0 < d -> 0 < n' -> 0 < d' -> n * d' <= n' * d ->
  fst (double n d) * snd (double n' d') <= fst (double n' d') * snd (double n d).
Proof.
  intros Pn Pd Pn' Pd' H.
  destruct (double_form n d Pn Pd) as (m & g & v & E & Hm & GV & X & B1 & B2 & [_ M] & _).
  destruct (double_form n' d' Pn' Pd') as (m' & g' & v' & E' & Hm' & GV' & X' & C1 & C2 & [M' _] & _).
  rewrite E, E'. cbn [fst snd].
  destruct (Z.lt_trichotomy (exponent n d) (exponent n' d')) as [L | [L | L]].
  - assert (Y : 2 * (2 ^ g * 2 ^ v') <= 2 ^ g' * 2 ^ v) by (rewrite <- N.pow_add_r, <- N.pow_succ_r', <- N.pow_add_r; apply N.pow_le_mono_r; lia).
    change (2 ^ 53) with (2 * 2 ^ 52) in M.
    assert (Z1 : m * (2 ^ g * 2 ^ v') <= 2 * 2 ^ 52 * (2 ^ g * 2 ^ v')) by (apply N.mul_le_mono_r; exact M).
    assert (Z2 : 2 ^ 52 * (2 ^ g' * 2 ^ v) <= m' * (2 ^ g' * 2 ^ v)) by (apply N.mul_le_mono_r; exact M').
    assert (Z3 : 2 ^ 52 * (2 * (2 ^ g * 2 ^ v')) <= 2 ^ 52 * (2 ^ g' * 2 ^ v)) by (apply N.mul_le_mono_l; exact Y). lia.
  - assert (G : g = g' /\ v = v') by lia. destruct G as [<- <-]. rewrite Hm, Hm'.
    assert (Y : half_even (n * 2 ^ v) (2 ^ g * d) <= half_even (n' * 2 ^ v) (2 ^ g * d')).
    { pose proof (pow2_pos g). apply half_even_mono; [nia | nia |].
      replace (n * 2 ^ v * (2 ^ g * d')) with (n * d' * (2 ^ v * 2 ^ g)) by lia. replace (n' * 2 ^ v * (2 ^ g * d)) with (n' * d * (2 ^ v * 2 ^ g)) by lia.
      apply N.mul_le_mono_r. exact H. }
    apply (N.mul_le_mono_r _ _ (2 ^ g * 2 ^ v)) in Y. lia.
  - exfalso. (* n / d >= 2^52 ulp > n' / d' *)
    assert (Y : 2 * (2 ^ g' * 2 ^ v) <= 2 ^ g * 2 ^ v') by (rewrite <- N.pow_add_r, <- N.pow_succ_r', <- N.pow_add_r; apply N.pow_le_mono_r; lia).
    assert (Z1 : n' * 2 ^ v' * (d * 2 ^ v) < 2 ^ 53 * (2 ^ g' * d') * (d * 2 ^ v)).
    { apply N.mul_lt_mono_pos_r; [| exact C2]. pose proof (pow2_pos v). nia. }
    assert (Z2 : 2 ^ 52 * (2 ^ g * d) * (d' * 2 ^ v') <= n * 2 ^ v * (d' * 2 ^ v')) by (apply N.mul_le_mono_r; exact B1).
    assert (Z3 : n * d' * (2 ^ v * 2 ^ v') <= n' * d * (2 ^ v * 2 ^ v')) by (apply N.mul_le_mono_r; exact H).
    assert (Z4 : 2 ^ 52 * (d * d') * (2 * (2 ^ g' * 2 ^ v)) <= 2 ^ 52 * (d * d') * (2 ^ g * 2 ^ v')) by (apply N.mul_le_mono_l; exact Y).
    change (2 ^ 53) with (2 * 2 ^ 52) in Z1. lia.
Qed.
(* a number of 53 bits divided by another: the conversions before the division change nothing *)
Lemma div_exact n d x y : 0 < n -> 0 < d -> 0 < snd x -> 0 < snd y -> is_number x n -> is_number y d -> double_div x y = double n d.
Proof.
  unfold is_number, double_div. intros Pn Pd X Y -> ->.
  replace (n * snd x * snd y) with (n * (snd x * snd y)) by lia. replace (snd x * (d * snd y)) with (d * (snd x * snd y)) by lia.
  apply double_scale; nia.
Qed.
Lemma integer_double n : 0 < n -> representable n 1 -> 0 < snd (double n 1) /\ is_number (double n 1) n.
Proof.
  intros Pn R. split; [apply (double_pos n 1 Pn); lia |]. unfold is_number. pose proof (double_exact n 1 Pn R) as E. lia.
Qed.
