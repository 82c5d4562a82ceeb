(* Proofs about targets got back from difficulties. *)
From Coq Require Import Lia ZifyBool ZifyNat ZifyN.
From Verif Require Import Base BaseProofs WireModel ExtModel ScriptModel WorkModel WorkSpec WorkProofs WorkTargetProofs DifficultyModel DifficultySpec FeeProofs DoubleProofs DifficultyProofs.
Local Open Scope N_scope.

Lemma back_exact a : 0 < a -> absolute_of (double difficulty_unit a) = double (difficulty_unit * snd (double difficulty_unit a)) (fst (double difficulty_unit a)).
Proof. intro A. destruct (double_pos difficulty_unit a unit_pos A). apply absolute_exact; assumption. Qed.
Lemma back_pos a : 0 < a -> 0 < fst (absolute_of (double difficulty_unit a)) /\ 0 < snd (absolute_of (double difficulty_unit a)).
Proof.
  intro A. rewrite back_exact by exact A. destruct (double_pos difficulty_unit a unit_pos A). apply double_pos; [| assumption].
  pose proof unit_pos. nia.
Qed.
Lemma back_bounds a : 0 < a -> let v := absolute_of (double difficulty_unit a) in
  (2 ^ 53 - 1) * (a * snd v) <= (2 ^ 53 + 1) * fst v /\ (2 ^ 53 - 1) * fst v <= (2 ^ 53 + 1) * (a * snd v).
Proof.
  intro A. cbn zeta. rewrite back_exact by exact A. pose proof unit_pos as U. destruct (double_pos difficulty_unit a U A) as [X0 U0].
  pose proof (double_error difficulty_unit a U A) as [H1 H2].
  set (dx := fst (double difficulty_unit a)) in *. set (du := snd (double difficulty_unit a)) in *. clearbody dx du.
  assert (UU : 0 < difficulty_unit * du) by nia. set (W := difficulty_unit * du) in *. clearbody W.
  pose proof (double_error W dx UU X0) as [K1 K2]. destruct (double_pos W dx UU X0) as [P0 W0].
  set (p := fst (double W dx)) in *. set (w := snd (double W dx)) in *. clearbody p w.
  change (2 ^ 53) with 9007199254740992 in *. split; apply (N.mul_le_mono_pos_r _ _ (9007199254740992 * dx)); try lia.
  - assert (Y1 : (9007199254740992 - 1) * (9007199254740992 * (dx * a)) * w <= (9007199254740992 - 1) * ((9007199254740992 + 1) * W) * w)
      by (apply N.mul_le_mono_r, N.mul_le_mono_l; exact H1).
    assert (Y2 : (9007199254740992 + 1) * ((9007199254740992 - 1) * (W * w)) <= (9007199254740992 + 1) * (9007199254740992 * (p * dx)))
      by (apply N.mul_le_mono_l; exact K2). lia.
  - assert (Y1 : (9007199254740992 - 1) * (9007199254740992 * (p * dx)) <= (9007199254740992 - 1) * ((9007199254740992 + 1) * (W * w)))
      by (apply N.mul_le_mono_l; exact K1).
    assert (Y2 : (9007199254740992 + 1) * ((9007199254740992 - 1) * W) * w <= (9007199254740992 + 1) * (9007199254740992 * (dx * a)) * w)
      by (apply N.mul_le_mono_r, N.mul_le_mono_l; exact H2). lia.
Qed.

Lemma back_power k : is_number (absolute_of (double difficulty_unit (2 ^ k))) (2 ^ k).
Proof.
  pose proof (pow2_pos k) as A. rewrite back_exact by exact A. pose proof unit_pos as U. destruct (double_pos difficulty_unit (2 ^ k) U A) as [X0 U0].
  assert (R : representable difficulty_unit (2 ^ k)).
  { split; [exact A |]. exists 0xffff, k, 208. split; [reflexivity |]. rewrite unit_parts. reflexivity. }
  pose proof (double_exact difficulty_unit (2 ^ k) U R) as E. rewrite <- E.
  set (dx := fst (double difficulty_unit (2 ^ k))) in *. rewrite (N.mul_comm dx).
  assert (T : double (2 ^ k * dx) dx = double (2 ^ k) 1) by (rewrite <- (N.mul_1_l dx) at 2; apply double_scale; [lia | exact X0]).
  rewrite T. apply (integer_double (2 ^ k) A). rewrite <- (N.mul_1_l (2 ^ k)). apply representable_int. reflexivity.
Qed.
Lemma back_low a m j : a = m * 2 ^ j -> 0 < m < 2 ^ 24 -> low_fraction a -> is_number (absolute_of (double difficulty_unit a)) a.
Proof.
  intros E M L. unfold low_fraction in L. pose proof (pow2_pos j) as J0.
  assert (A : 0 < a) by (rewrite E; nia).
  pose proof (N.log2_spec a A) as [L1 L2]. set (K := N.log2 a) in *. clearbody K. rewrite N.pow_succ_r' in L2.
  destruct (N.eq_dec a (2 ^ K)) as [Q | Q]; [rewrite Q; apply back_power |].
  (* K - 23 <= j <= K *)
  assert (JK : j <= K).
  { apply N.lt_succ_r. apply (N.pow_lt_mono_r_iff 2); [lia |]. rewrite N.pow_succ_r'. eapply N.le_lt_trans; [| exact L2]. rewrite E. nia. }
  assert (KJ : K < j + 24).
  { apply (N.pow_lt_mono_r_iff 2); [lia |]. eapply N.le_lt_trans; [exact L1 |]. rewrite E, N.pow_add_r, (N.mul_comm (2 ^ j)). apply N.mul_lt_mono_pos_r; [exact J0 | apply M]. }
  assert (YK : 2 ^ K = 2 ^ (K - j) * 2 ^ j) by (rewrite <- N.pow_add_r; f_equal; lia).
  assert (YY : 2 ^ (K - j) <= 2 ^ 23) by (apply N.pow_le_mono_r; lia).
  set (y := 2 ^ (K - j)) in *.
  assert (MY : y + 1 <= m /\ m + 1 <= 2 * y).
  { split.
    - assert (X : y * 2 ^ j < m * 2 ^ j) by lia. apply N.mul_lt_mono_pos_r in X; [lia | exact J0].
    - assert (X : m * 2 ^ j < 2 * y * 2 ^ j) by lia. apply N.mul_lt_mono_pos_r in X; [lia | exact J0]. }
  pose proof unit_pos as U. rewrite back_exact by exact A.
  (* the difficulty *)
  assert (R : representable (a * 2 ^ 223) (2 ^ (2 * K))).
  { split; [apply pow2_pos |]. exists m, (2 * K), (j + 223). split; [eapply N.lt_trans; [apply M | reflexivity] |]. rewrite E, N.pow_add_r. lia. }
  assert (R2 : a * 2 ^ 223 * a <= difficulty_unit * 2 ^ (2 * K)).
  { rewrite unit_parts. apply (N.mul_le_mono_r _ _ (2 ^ 208)) in L. change (2 ^ 223) with (2 ^ 15 * 2 ^ 208). lia. }
  pose proof (double_above difficulty_unit a _ _ U A R R2) as H1.
  destruct (double_form difficulty_unit a U A) as (md & g & v & Ed & _ & _ & _ & B1 & _ & _ & N1 & N2).
  rewrite Ed in H1 |- *. cbn [fst snd] in H1 |- *. replace (md * (2 ^ g * a)) with (md * 2 ^ g * a) in N1, N2 by lia.
  assert (DX : 0 < md * 2 ^ g) by (pose proof (double_pos difficulty_unit a U A) as [X _]; rewrite Ed in X; exact X).
  set (dx := md * 2 ^ g) in *. clearbody dx. clear Ed md.
  assert (GV : 52 + g + K <= 223 + v).
  { apply N.lt_succ_r. apply (N.pow_lt_mono_r_iff 2); [lia |]. replace (N.succ (223 + v)) with (224 + v) by lia. rewrite !N.pow_add_r.
    assert (X : 2 ^ 52 * 2 ^ g * 2 ^ K <= 2 ^ 52 * (2 ^ g * a)) by (rewrite <- N.mul_assoc; apply N.mul_le_mono_l, N.mul_le_mono_l; exact L1).
    eapply N.le_lt_trans; [exact X |]. eapply N.le_lt_trans; [exact B1 |]. apply N.mul_lt_mono_pos_r; [apply pow2_pos | reflexivity]. }
  assert (GP : 2 ^ 52 * 2 ^ g * 2 ^ K <= 2 ^ 223 * 2 ^ v) by (rewrite <- !N.pow_add_r; apply N.pow_le_mono_r; lia).
  set (W := difficulty_unit * 2 ^ v) in *.
  (* the error of a quotient by the difficulty *)
  assert (ER : 2 ^ 53 * W <= 2 ^ 53 * (dx * a) + dx * 2 ^ K /\ 2 ^ 53 * (dx * a) <= 2 ^ 53 * W + dx * 2 ^ K).
  { assert (T : 2 ^ 52 * (2 ^ g * a) <= dx * 2 ^ K).
    { apply (N.mul_le_mono_pos_r _ _ (2 ^ K)); [apply pow2_pos |].
      assert (X : 2 ^ 52 * 2 ^ g * 2 ^ K * a <= 2 ^ 223 * 2 ^ v * a) by (apply N.mul_le_mono_r; exact GP).
      assert (X2 : 2 ^ (2 * K) = 2 ^ K * 2 ^ K) by (rewrite <- N.pow_add_r; f_equal; lia). rewrite X2 in H1. lia. }
    change (2 ^ 53) with (2 * 2 ^ 52). set (h := 2 ^ g * a) in *. clearbody h. change (2 ^ 52) with 4503599627370496 in *. lia. }
  assert (W0 : 0 < W) by (pose proof (pow2_pos v); unfold W; nia). clearbody W.
  clear N1 N2 GP GV H1 B1 R R2 L. destruct ER as [E1 E2].
  destruct (double_form W dx W0 DX) as (m2 & g2 & v2 & -> & Hm & _ & _ & C1 & C2 & _). unfold is_number. cbn [fst snd].
  assert (Q1 : dx * 2 ^ K <= W).
  { assert (X : dx * 2 ^ K * 2 ^ 53 + dx * 2 ^ j * 2 ^ 53 <= dx * a * 2 ^ 53).
    { rewrite <- N.mul_add_distr_r. apply N.mul_le_mono_r. rewrite <- N.mul_add_distr_l. apply N.mul_le_mono_l. rewrite YK, E. nia. }
    assert (X2 : dx * 2 ^ K <= dx * 2 ^ j * 2 ^ 53).
    { rewrite YK. replace (dx * (y * 2 ^ j)) with (dx * 2 ^ j * y) by lia. apply N.mul_le_mono_l. eapply N.le_trans; [exact YY |]. apply N.pow_le_mono_r; lia. }
    change (2 ^ 53) with 9007199254740992 in *. lia. }
  assert (Q2 : W < 2 * (dx * 2 ^ K)).
  { assert (X : dx * a * 2 ^ 53 + dx * 2 ^ j * 2 ^ 53 <= 2 * (dx * 2 ^ K) * 2 ^ 53).
    { rewrite <- N.mul_add_distr_r. apply N.mul_le_mono_r. rewrite <- N.mul_add_distr_l. replace (2 * (dx * 2 ^ K)) with (dx * (2 * 2 ^ K)) by lia. apply N.mul_le_mono_l. rewrite YK, E. nia. }
    assert (X2 : dx * 2 ^ K < dx * 2 ^ j * 2 ^ 53).
    { rewrite YK. replace (dx * (y * 2 ^ j)) with (dx * 2 ^ j * y) by lia. apply N.mul_lt_mono_pos_l; [nia |]. eapply N.le_lt_trans; [exact YY |]. apply N.pow_lt_mono_r; lia. }
    change (2 ^ 53) with 9007199254740992 in *. lia. }
  assert (EG : 52 + g2 = K + v2).
  { apply N.le_antisymm; apply N.lt_succ_r; apply (N.pow_lt_mono_r_iff 2); try lia; rewrite N.pow_succ_r', !N.pow_add_r;
      apply (N.mul_lt_mono_pos_r dx); try exact DX.
    - assert (X : W * 2 ^ v2 < 2 * (dx * 2 ^ K) * 2 ^ v2) by (apply N.mul_lt_mono_pos_r; [apply pow2_pos | exact Q2]). lia.
    - assert (X : dx * 2 ^ K * 2 ^ v2 <= W * 2 ^ v2) by (apply N.mul_le_mono_r; exact Q1). change (2 ^ 53) with (2 * 2 ^ 52) in C2. lia. }
  assert (PG : 2 ^ 52 * 2 ^ g2 = 2 ^ K * 2 ^ v2) by (rewrite <- !N.pow_add_r; f_equal; exact EG).
  set (MM := m * 2 ^ (52 - (K - j))).
  assert (MA : MM * 2 ^ g2 = a * 2 ^ v2).
  { unfold MM. rewrite E, <- !N.mul_assoc, <- !N.pow_add_r. do 2 f_equal. lia. }
  rewrite <- MA. f_equal. rewrite Hm. apply half_even_tie.
  - pose proof (pow2_pos g2). nia.
  - replace (MM * (2 ^ g2 * dx)) with (MM * 2 ^ g2 * dx) by lia. rewrite MA. apply (N.mul_le_mono_pos_l _ _ (2 ^ 52)); [reflexivity |].
    assert (X : 2 ^ 53 * W * 2 ^ v2 <= (2 ^ 53 * (dx * a) + dx * 2 ^ K) * 2 ^ v2) by (apply N.mul_le_mono_r; exact E1).
    change (2 ^ 53) with (2 * 2 ^ 52) in X. assert (X2 : dx * (2 ^ 52 * 2 ^ g2) = dx * (2 ^ K * 2 ^ v2)) by (rewrite PG; reflexivity). lia.
  - replace (MM * (2 ^ g2 * dx)) with (MM * 2 ^ g2 * dx) by lia. rewrite MA. apply (N.mul_le_mono_pos_l _ _ (2 ^ 52)); [reflexivity |].
    assert (X : 2 ^ 53 * (dx * a) * 2 ^ v2 <= (2 ^ 53 * W + dx * 2 ^ K) * 2 ^ v2) by (apply N.mul_le_mono_r; exact E2).
    change (2 ^ 53) with (2 * 2 ^ 52) in X. assert (X2 : dx * (2 ^ 52 * 2 ^ g2) = dx * (2 ^ K * 2 ^ v2)) by (rewrite PG; reflexivity). lia.
  - right. unfold MM. replace (52 - (K - j)) with (N.succ (51 - (K - j))) by lia. rewrite N.pow_succ_r'. rewrite N.even_mul, N.even_mul. change (N.even 2) with true. apply Bool.orb_true_r.
Qed.

(* ---------------------------------------------------------------- compact targets *)
Lemma normal_shape c : normal c -> 4 <= exponent_of c /\ expand c = mantissa_of c * 256 ^ (exponent_of c - 3) /\ 2 ^ 15 <= mantissa_of c < 2 ^ 23 /\ 2 ^ 24 <= expand c < 2 ^ 256.
Proof.
  intros (Ng & M & B). assert (E : expand c = magnitude c).
  { rewrite expand_exact, Ng. replace (magnitude c <? 2 ^ 256) with true by lia. reflexivity. }
  rewrite E. destruct (magnitude_cases c) as [L | [X ->]].
  - change (2 ^ 23) with 8388608 in L. change (2 ^ 24) with 16777216 in B. lia.
  - split; [exact X |]. split; [reflexivity |]. split; [split; [exact M | apply N.mod_lt; discriminate] |].
    destruct (magnitude_cases c) as [L | [_ E2]]; [change (2 ^ 23) with 8388608 in L; change (2 ^ 24) with 16777216 in B; lia |]. rewrite <- E2. exact B.
Qed.
Lemma pow256_pos k : 0 < 256 ^ k. Proof. apply N.neq_0_lt_0, N.pow_nonzero. discriminate. Qed.
(* the exponents: what is a multiple of 256^k *)
Lemma multiples k x y : 0 < 256 ^ k -> x * 256 ^ k <= y * 256 ^ k -> y * 256 ^ k < x * 256 ^ k + 256 ^ k -> y = x.
Proof.
  intros W A B. apply N.mul_le_mono_pos_r in A; [| exact W]. assert (C : y * 256 ^ k < (x + 1) * 256 ^ k) by lia.
  apply N.mul_lt_mono_pos_r in C; [lia | exact W].
Qed.
Lemma compact_within junk c n : normal c -> expand c <= n -> n < expand c + 256 ^ (exponent_of c - 3) -> n < 2 ^ 256 -> compact_of junk n = c.
Proof.
  intros Nc A B U. destruct (normal_shape c Nc) as (E4 & Ec & M & R).
  assert (N2 : normal (compact_of junk n)) by (apply compact_of_normal; split; [lia | exact U]).
  pose proof (compact_le junk n U) as L1. pose proof (compact_greatest junk n c ltac:(lia) A) as L2.
  rewrite <- (compact_canonical junk _ N2), <- (compact_canonical junk c Nc). f_equal.
  destruct (normal_shape _ N2) as (F4 & Fc & M2 & _).
  set (c2 := compact_of junk n) in *. clearbody c2. set (k := exponent_of c - 3) in *. set (k2 := exponent_of c2 - 3) in *. clearbody k k2.
  pose proof (pow256_pos k) as W.
  destruct (N.le_gt_cases k k2) as [K | K].
  - assert (Y : mantissa_of c2 * 256 ^ k2 = mantissa_of c2 * 256 ^ (k2 - k) * 256 ^ k) by (rewrite <- N.mul_assoc, <- N.pow_add_r; do 2 f_equal; lia).
    rewrite Ec, Fc, Y in *. f_equal. apply (multiples k); [exact W | exact L2 | lia].
  - exfalso. assert (Y : 256 ^ k = 256 * 256 ^ (k - 1 - k2) * 256 ^ k2) by (rewrite <- N.pow_succ_r', <- N.pow_add_r; f_equal; lia).
    pose proof (pow256_pos (k - 1 - k2)) as W1. pose proof (pow256_pos k2) as W2.
    assert (Z1 : mantissa_of c2 * 256 ^ k2 < 2 ^ 23 * 256 ^ k2) by (apply N.mul_lt_mono_pos_r; [exact W2 | apply M2]).
    assert (Z2 : 2 ^ 15 * 256 ^ k <= mantissa_of c * 256 ^ k) by (apply N.mul_le_mono_r; apply M).
    assert (Z3 : 2 ^ 23 * 256 ^ k2 <= 2 ^ 15 * 256 ^ k).
    { rewrite Y. change (2 ^ 23) with (2 ^ 15 * 256). replace (2 ^ 15 * (256 * 256 ^ (k - 1 - k2) * 256 ^ k2)) with (2 ^ 15 * 256 * 256 ^ k2 * 256 ^ (k - 1 - k2)) by lia. nia. }
    lia.
Qed.
Lemma quotient_within c p s : normal c -> expand c * 2 ^ s <= p -> p < (expand c + 256 ^ (exponent_of c - 3)) * 2 ^ s ->
  (forall e, p <> 2 ^ s * 256 ^ e) -> compact_of_quotient p s = Some c.
Proof.
  intros Nc A B NP. destruct (normal_shape c Nc) as (E4 & Ec & M & R). set (k := exponent_of c - 3) in *.
  pose proof (pow2_pos s) as S0.
  assert (N1 : expand c <= p / 2 ^ s) by (apply N.div_le_lower_bound; lia).
  assert (N2 : p / 2 ^ s < expand c + 256 ^ k) by (apply N.div_lt_upper_bound; lia).
  (* a + 256^k <= 2^256 *)
  assert (K30 : k <= 32).
  { apply N.lt_succ_r. apply (N.pow_lt_mono_r_iff 256); [lia |]. eapply N.le_lt_trans with (m := expand c).
    - rewrite Ec. change (2 ^ 15) with 32768 in M. nia.
    - eapply N.lt_trans; [apply R | reflexivity]. }
  assert (TOP : expand c + 256 ^ k <= 2 ^ 256).
  { assert (Y : 2 ^ 256 = 256 ^ (32 - k) * 256 ^ k) by (rewrite <- N.pow_add_r; replace (32 - k + k) with 32 by lia; reflexivity).
    rewrite Ec in R |- *. rewrite Y in R |- *. pose proof (pow256_pos k) as W. destruct R as [_ R]. apply N.mul_lt_mono_pos_r in R; [| exact W].
    replace (mantissa_of c * 256 ^ k + 256 ^ k) with ((mantissa_of c + 1) * 256 ^ k) by lia. apply N.mul_le_mono_r. lia. }
  destruct (scale_exact p s) as (e & Sc & _).
  assert (E3 : 4 <= e <= 32).
  { destruct Sc as [S1 S2]. specialize (NP e). split.
    - apply N.le_ngt. intro C. assert (X : 256 ^ e <= 256 ^ 3) by (apply N.pow_le_mono_r; lia). change (256 ^ 3) with (2 ^ 24) in X.
      assert (Y : 2 ^ 24 * 2 ^ s <= expand c * 2 ^ s) by (apply N.mul_le_mono_r; apply R).
      assert (Z : 2 ^ s * 256 ^ e <= 2 ^ s * 2 ^ 24) by (apply N.mul_le_mono_l; exact X). lia.
    - apply N.le_ngt. intro C. destruct S2 as [-> | S2]; [lia |].
      assert (X : 256 ^ 32 <= 256 ^ (e - 1)) by (apply N.pow_le_mono_r; lia). change (256 ^ 32) with (2 ^ 256) in X.
      assert (Z : 2 ^ s * 2 ^ 256 <= 2 ^ s * 256 ^ (e - 1)) by (apply N.mul_le_mono_l; exact X).
      assert (Y : (expand c + 256 ^ k) * 2 ^ s <= 2 ^ 256 * 2 ^ s) by (apply N.mul_le_mono_r; exact TOP). lia. }
  rewrite (quotient_as_number x00 p s e Sc E3 (NP e)). f_equal. apply compact_within; [exact Nc | exact N1 | exact N2 | lia].
Qed.

(* the target below *)
Lemma normal_before c : normal c -> 2 ^ 15 < mantissa_of c -> 2 ^ 24 < expand c ->
  normal (c - 1) /\ exponent_of (c - 1) = exponent_of c /\ expand (c - 1) + 256 ^ (exponent_of c - 3) = expand c.
Proof.
  intros Nc M1 M2. destruct (normal_shape c Nc) as (E4 & Ec & M & R). pose proof (normal_parts c) as P. destruct Nc as (Ng & _ & _).
  rewrite Ng in P. change (N.b2n false) with 0 in P. set (m := mantissa_of c) in *. set (x := exponent_of c) in *.
  assert (Q : c - 1 = x * 2 ^ 24 + (m - 1)) by lia.
  assert (X1 : exponent_of (c - 1) = x) by (unfold exponent_of; rewrite Q; symmetry; apply (N.div_unique _ _ _ (m - 1)); change (2 ^ 24) with 16777216; change (2 ^ 23) with 8388608 in *; lia).
  assert (X2 : mantissa_of (c - 1) = m - 1).
  { unfold mantissa_of. rewrite Q. symmetry. apply (N.mod_unique _ _ (2 * x)); change (2 ^ 24) with 16777216; change (2 ^ 23) with 8388608 in *; lia. }
  assert (X3 : negative (c - 1) = false).
  { unfold negative. replace ((c - 1) / 2 ^ 23) with (2 * x); [rewrite N.odd_mul; reflexivity |]. rewrite Q. apply (N.div_unique _ _ _ (m - 1)); change (2 ^ 24) with 16777216; change (2 ^ 23) with 8388608 in *; lia. }
  assert (X4 : magnitude (c - 1) = (m - 1) * 256 ^ (x - 3)).
  { unfold magnitude. rewrite X1, X2. replace (256 ^ x) with (256 ^ (x - 3) * 256 ^ 3) by (rewrite <- N.pow_add_r; f_equal; lia).
    rewrite N.mul_assoc. apply N.div_mul. discriminate. }
  pose proof (pow256_pos (x - 3)) as W.
  assert (S1 : (m - 1) * 256 ^ (x - 3) + 256 ^ (x - 3) = m * 256 ^ (x - 3)) by (replace m with (m - 1 + 1) at 2 by lia; lia).
  assert (B : 2 ^ 24 <= (m - 1) * 256 ^ (x - 3) < 2 ^ 256).
  { split; [| rewrite Ec in R; lia].
    destruct (N.eq_dec x 4) as [H4 | H4].
    - rewrite Ec, H4 in M2. rewrite H4. change (256 ^ (4 - 3)) with 256 in *. change (2 ^ 24) with 16777216 in *. lia.
    - assert (Y : 256 ^ 2 <= 256 ^ (x - 3)) by (apply N.pow_le_mono_r; lia). change (256 ^ 2) with 65536 in Y. change (2 ^ 15) with 32768 in *. change (2 ^ 24) with 16777216. nia. }
  assert (X5 : expand (c - 1) = (m - 1) * 256 ^ (x - 3)).
  { rewrite expand_exact, X3, X4. replace ((m - 1) * 256 ^ (x - 3) <? 2 ^ 256) with true by lia. reflexivity. }
  split; [| split; [exact X1 | rewrite X5, Ec; exact S1]].
  split; [exact X3 | split; [rewrite X2; lia | rewrite X4; exact B]].
Qed.
Lemma low_power k : low_fraction (2 ^ k).
Proof.
  unfold low_fraction. rewrite N.log2_pow2 by lia. rewrite <- N.pow_add_r. replace (2 * k) with (k + k) by lia. rewrite (N.mul_comm _ (2 ^ (k + k))). apply N.mul_le_mono_l. discriminate.
Qed.
Lemma expand_low c : normal c -> low_fraction (expand c) -> is_number (absolute_of (double difficulty_unit (expand c))) (expand c).
Proof.
  intros Nc L. destruct (normal_shape c Nc) as (_ & Ec & M & _). apply (back_low _ (mantissa_of c) (8 * (exponent_of c - 3))); [| | exact L].
  - rewrite Ec at 1. rewrite pow256_two. reflexivity.
  - change (2 ^ 15) with 32768 in M. change (2 ^ 23) with 8388608 in M. change (2 ^ 24) with 16777216. lia.
Qed.
Lemma back_log a : 0 < a -> snd (absolute_of (double difficulty_unit a)) = 2 ^ N.log2 (snd (absolute_of (double difficulty_unit a))).
Proof.
  intro A. rewrite back_exact by exact A. destruct (double_pos difficulty_unit a unit_pos A) as [P1 P2].
  destruct (double_form (difficulty_unit * snd (double difficulty_unit a)) (fst (double difficulty_unit a))) as (m & g & v & -> & _); [pose proof unit_pos; nia | exact P1 |].
  cbn [snd]. rewrite N.log2_pow2 by lia. reflexivity.
Qed.

Lemma compact_back c : normal c -> (forall e, expand c <> 256 ^ e) ->
  let v := absolute_of (double difficulty_unit (expand c)) in
  compact_of_difficulty (difficulty_of c) = Some (if expand c * snd v <=? fst v then c else c - 1).
Proof.
  intros Nc NP. destruct (normal_shape c Nc) as (E4 & Ec & M & R). cbn zeta.
  assert (Z : expand c <> 0) by (intro Q; rewrite Q in R; vm_compute in R; destruct R as [R _]; apply R; reflexivity).
  assert (A : 0 < expand c) by lia.
  rewrite difficulty_exact by exact Z. unfold compact_of_difficulty. destruct (double_pos difficulty_unit (expand c) unit_pos A) as [D0 _].
  replace (fst (double difficulty_unit (expand c)) =? 0) with false by lia. clear D0.
  pose proof (back_bounds (expand c) A) as [B1 B2]. pose proof (back_log (expand c) A) as LG. destruct (back_pos (expand c) A) as [_ W0].
  pose proof (expand_low c Nc) as LOW. unfold is_number in LOW.
  set (v := absolute_of (double difficulty_unit (expand c))) in *. clearbody v. destruct v as [p w]. cbn [fst snd] in *. set (s := N.log2 w) in *. clearbody s. subst w.
  set (k := exponent_of c - 3) in *. pose proof (pow256_pos k) as K0.
  assert (T0 : expand c * 2 ^ s < 2 ^ 23 * (256 ^ k * 2 ^ s)).
  { rewrite Ec, N.mul_assoc. apply N.mul_lt_mono_pos_r; [exact W0 |]. apply N.mul_lt_mono_pos_r; [exact K0 | apply M]. }
  assert (UP : p < expand c * 2 ^ s + 256 ^ k * 2 ^ s /\ expand c * 2 ^ s < p + 256 ^ k * 2 ^ s).
  { set (T := 256 ^ k * 2 ^ s) in *. set (aw := expand c * 2 ^ s) in *. clearbody T aw. change (2 ^ 53) with 9007199254740992 in *. change (2 ^ 23) with 8388608 in *. lia. }
  destruct UP as [UP DOWN].
  (* a power of 256 near the target is a multiple of 256^k *)
  assert (PW : forall e, p = 2 ^ s * 256 ^ e -> exists y, 256 ^ e = y * 256 ^ k).
  { intros e Q. exists (256 ^ (e - k)). rewrite <- N.pow_add_r. f_equal.
    assert (k <= e); [| lia]. apply N.le_ngt. intro C.
    assert (X : 256 ^ e <= 256 ^ k) by (apply N.pow_le_mono_r; lia).
    assert (Y : 2 * 256 ^ k <= expand c) by (rewrite Ec; apply N.mul_le_mono_r; change (2 ^ 15) with 32768 in M; lia).
    assert (Y2 : 2 * 256 ^ k * 2 ^ s <= expand c * 2 ^ s) by (apply N.mul_le_mono_r; exact Y).
    assert (X2 : 2 ^ s * 256 ^ e <= 2 ^ s * 256 ^ k) by (apply N.mul_le_mono_l; exact X). lia. }
  destruct (expand c * 2 ^ s <=? p) eqn:G.
  - apply quotient_within; [exact Nc | lia | fold k; lia |].
    intros e Q. destruct (PW e Q) as [y Hy]. apply (NP e). rewrite Hy. rewrite Ec. f_equal. symmetry.
    rewrite Q, (N.mul_comm (2 ^ s)) in *. rewrite <- N.mul_add_distr_r in UP. apply N.mul_lt_mono_pos_r in UP; [| exact W0].
    assert (G' : expand c * 2 ^ s <= 256 ^ e * 2 ^ s) by lia. apply N.mul_le_mono_pos_r in G'; [| exact W0].
    rewrite Hy, Ec in *. apply (multiples k); [exact K0 | exact G' | exact UP].
  - assert (NL : forall j, expand c <> 2 ^ j).
    { intros j Q. rewrite Q in LOW. specialize (LOW (low_power j)). rewrite Q in G. lia. }
    assert (M1 : 2 ^ 15 < mantissa_of c).
    { destruct (N.eq_dec (mantissa_of c) (2 ^ 15)) as [Q | Q]; [| lia]. exfalso. apply (NL (15 + 8 * k)). rewrite Ec, Q, pow256_two, N.pow_add_r. reflexivity. }
    assert (M2 : 2 ^ 24 < expand c) by (pose proof (NL 24); lia).
    destruct (normal_before c Nc M1 M2) as (Nb & Xb & Sb). fold k in Sb.
    assert (SS : expand (c - 1) * 2 ^ s + 256 ^ k * 2 ^ s = expand c * 2 ^ s) by (rewrite <- N.mul_add_distr_r, Sb; reflexivity).
    apply quotient_within; [exact Nb | lia | rewrite Xb; fold k; rewrite N.mul_add_distr_r; lia |].
    intros e Q. destruct (PW e Q) as [y Hy]. rewrite Hy in Q.
    assert (X1 : mantissa_of c * 256 ^ k * 2 ^ s < (y + 1) * 256 ^ k * 2 ^ s) by (rewrite <- Ec; lia).
    assert (X2 : y * 256 ^ k * 2 ^ s < mantissa_of c * 256 ^ k * 2 ^ s) by (rewrite <- Ec; lia).
    do 2 (apply N.mul_lt_mono_pos_r in X1; [| assumption]). do 2 (apply N.mul_lt_mono_pos_r in X2; [| assumption]). lia.
Qed.
Lemma compact_back_low c : normal c -> (forall e, expand c <> 256 ^ e) -> low_fraction (expand c) -> compact_of_difficulty (difficulty_of c) = Some c.
Proof.
  intros Nc NP L. rewrite (compact_back c Nc NP). pose proof (expand_low c Nc L) as E. unfold is_number in E. rewrite E, N.leb_refl. reflexivity.
Qed.
(* a target that is a power of 256 *)
Lemma compact_back_power c e : normal c -> expand c = 256 ^ e -> exists r, compact_of_difficulty (difficulty_of c) = Some r /\ expand r = 0.
Proof.
  intros Nc E. destruct (normal_shape c Nc) as (_ & _ & _ & R).
  assert (Z : expand c <> 0) by (intro Q; rewrite Q in R; vm_compute in R; destruct R as [R _]; apply R; reflexivity).
  rewrite difficulty_exact by exact Z. unfold compact_of_difficulty. destruct (double_pos difficulty_unit (expand c) unit_pos ltac:(lia)) as [D0 _].
  replace (fst (double difficulty_unit (expand c)) =? 0) with false by lia. clear D0.
  pose proof (back_log (expand c) ltac:(lia)) as LG. pose proof (back_power (8 * e)) as P. rewrite <- pow256_two, <- E in P. unfold is_number in P. rewrite P. clear P.
  set (w := snd (absolute_of (double difficulty_unit (expand c)))) in *. clearbody w. rewrite E. set (s := N.log2 w) in *. clearbody s. rewrite LG, (N.mul_comm (256 ^ e)). apply quotient_power.
  rewrite E in R. split.
  - apply N.lt_succ_r. apply (N.pow_lt_mono_r_iff 256); [lia |]. rewrite N.pow_succ_r'. change (256 ^ 3) with (2 ^ 24). change (2 ^ 24) with 16777216 in *. lia.
  - apply (N.pow_le_mono_r_iff 256); [lia |]. change (256 ^ 32) with (2 ^ 256). lia.
Qed.
Lemma compact_back_le c : normal c -> exists r, compact_of_difficulty (difficulty_of c) = Some r /\ expand r <= expand c.
Proof.
  intro Nc. destruct (normal_shape c Nc) as (_ & _ & _ & R).
  destruct (N.eq_dec (2 ^ N.log2 (expand c)) (expand c)) as [Q | Q].
  - destruct (N.eq_dec (N.log2 (expand c) mod 8) 0) as [T | T].
    + assert (X : expand c = 256 ^ (N.log2 (expand c) / 8)).
      { rewrite pow256_two. rewrite <- Q at 1. f_equal. pose proof (N.div_mod (N.log2 (expand c)) 8 ltac:(discriminate)). lia. }
      destruct (compact_back_power c _ Nc X) as (r & E & Z). exists r. split; [exact E | rewrite Z; apply N.le_0_l].
    + exists c. split; [| apply N.le_refl]. apply compact_back_low; [exact Nc | | rewrite <- Q; apply low_power].
      intros e E. apply T. rewrite E, pow256_two, N.log2_pow2 by apply N.le_0_l. rewrite N.mul_comm. apply N.mod_mul. discriminate.
  - assert (NP : forall e, expand c <> 256 ^ e) by (intros e E; apply Q; rewrite E, pow256_two, N.log2_pow2 by apply N.le_0_l; reflexivity).
    rewrite (compact_back c Nc NP). eexists. split; [reflexivity |].
    destruct (expand c * _ <=? _) eqn:G; [apply N.le_refl |].
    assert (NL : forall j, expand c <> 2 ^ j) by (intros j E; apply Q; rewrite E, N.log2_pow2 by apply N.le_0_l; reflexivity).
    destruct (normal_shape c Nc) as (_ & Ec & M & _).
    assert (M1 : 2 ^ 15 < mantissa_of c).
    { destruct (N.eq_dec (mantissa_of c) (2 ^ 15)) as [E | E]; [| lia]. exfalso. apply (NL (15 + 8 * (exponent_of c - 3))). rewrite Ec, E, pow256_two, N.pow_add_r. reflexivity. }
    assert (M2 : 2 ^ 24 < expand c) by (pose proof (NL 24); lia).
    destruct (normal_before c Nc M1 M2) as (_ & _ & S). lia.
Qed.
