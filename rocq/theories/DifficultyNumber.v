(* Proofs about difficulties as numbers of 256 bits, and profitability. *)
From Coq Require Import Lia ZifyBool ZifyNat ZifyN.
From Verif Require Import Base BaseProofs WireModel ExtModel ScriptModel WorkModel WorkSpec WorkProofs WorkTargetProofs BoostModel BoostRedeemModel DifficultyModel DifficultySpec FeeProofs DoubleProofs DifficultyProofs DifficultyBack.
Local Open Scope N_scope.

Lemma number_value p q : 0 < p -> representable p q ->
  let e := exponent p q in
  (if (0 <=? e - 52)%Z then 2 ^ 52 * q <= p /\ exists k, p = k * q /\ N.shiftl (p / (q * 2 ^ Z.to_N (e - 52))) (Z.to_N (e + 1 - 52 - 1)) = k else p < 2 ^ 52 * q).
Proof.
  intros P R. assert (Q : 0 < q) by apply R. pose proof (exponent_spec p q P Q) as [K1 K2]. cbn zeta in *. set (e := exponent p q) in *. clearbody e.
  destruct (0 <=? e - 52)%Z eqn:C.
  - replace (Z.to_N (- e)) with 0 in * by lia. change (2 ^ 0) with 1 in *. rewrite N.mul_1_r in *.
    assert (L : 2 ^ 52 * 2 ^ Z.to_N (e - 52) = 2 ^ Z.to_N e) by (rewrite <- N.pow_add_r; f_equal; lia).
    assert (B : 2 ^ 52 * 2 ^ Z.to_N (e - 52) * q <= p * 2 ^ 0) by (rewrite L; change (2 ^ 0) with 1; lia).
    split.
    + assert (X : 2 ^ 52 <= 2 ^ Z.to_N e) by (apply N.pow_le_mono_r; lia). nia.
    + destruct (representable_units p q (Z.to_N (e - 52)) 0 R B) as [j J]. change (2 ^ 0) with 1 in J. rewrite N.mul_1_r in J.
      exists (j * 2 ^ Z.to_N (e - 52)). split; [exact J |].
      replace (p / (q * 2 ^ Z.to_N (e - 52))) with j.
      * rewrite N.shiftl_mul_pow2. do 2 f_equal. lia.
      * rewrite J. symmetry. replace (j * 2 ^ Z.to_N (e - 52) * q) with (j * (q * 2 ^ Z.to_N (e - 52))) by lia. apply N.div_mul.
        pose proof (pow2_pos (Z.to_N (e - 52))). nia.
  - destruct (Z.lt_ge_cases e 0) as [X | X].
    + replace (Z.to_N e) with 0 in K2 by lia. change (2 ^ 0) with 1 in K2. rewrite N.mul_1_r in K2.
      assert (Y : 2 ^ 1 <= 2 ^ Z.to_N (- e)) by (apply N.pow_le_mono_r; lia). change (2 ^ 1) with 2 in Y. change (2 ^ 52) with 4503599627370496. nia.
    + replace (Z.to_N (- e)) with 0 in * by lia. change (2 ^ 0) with 1 in *. rewrite N.mul_1_r in *.
      assert (Y : 2 * 2 ^ Z.to_N e <= 2 ^ 52) by (rewrite <- N.pow_succ_r'; apply N.pow_le_mono_r; lia). nia.
Qed.
Lemma absolute_double x : 0 < fst x -> 0 < snd x -> 0 < fst (absolute_of x) /\ 0 < snd (absolute_of x) /\ representable (fst (absolute_of x)) (snd (absolute_of x)).
Proof.
  intros A B. rewrite absolute_exact by assumption. assert (U : 0 < difficulty_unit * snd x) by (pose proof unit_pos; nia).
  destruct (double_pos _ _ U A) as [P Q]. split; [exact P | split; [exact Q | apply representable_double; assumption]].
Qed.
Lemma number_exact x n : 0 < fst x -> 0 < snd x ->
  number_of_difficulty (Num x) = Some n <-> exists k, is_number (absolute_of x) k /\ 2 ^ 52 <= k /\ n = k mod 2 ^ 256.
Proof.
  intros A B. destruct (absolute_double x A B) as (P & Q & R). pose proof (number_value _ _ P R) as H. unfold is_number.
  unfold number_of_difficulty. replace (fst x =? 0) with false by lia. cbn zeta in *. set (v := absolute_of x) in *. clearbody v.
  destruct (0 <=? exponent (fst v) (snd v) - 52)%Z.
  - destruct H as (L & k & E & F). rewrite F. split.
    + intro G. exists k. split; [exact E |]. split; [| congruence]. rewrite E in L. apply N.mul_le_mono_pos_r in L; assumption.
    + intros (k' & E' & _ & ->). do 2 f_equal. rewrite E in E'. apply N.mul_cancel_r in E'; [exact E' | lia].
  - split; [discriminate |]. intros (k & E & L & _). rewrite E in H. apply N.mul_lt_mono_pos_r in H; [lia | exact Q].
Qed.
Lemma number_none x : 0 < fst x -> 0 < snd x -> number_of_difficulty (Num x) = None <-> fst (absolute_of x) < 2 ^ 52 * snd (absolute_of x).
Proof.
  intros A B. destruct (absolute_double x A B) as (P & Q & R). pose proof (number_value _ _ P R) as H.
  unfold number_of_difficulty. replace (fst x =? 0) with false by lia. cbn zeta in *. set (v := absolute_of x) in *. clearbody v.
  destruct (0 <=? exponent (fst v) (snd v) - 52)%Z.
  - split; [discriminate | lia].
  - split; [intros _; exact H | reflexivity].
Qed.

(* the number of the difficulty of a target *)
Lemma expand_top c : expand c <= 2 ^ 256 - 2 ^ 240.
Proof. pose proof (compact_max_greatest c) as H. change (expand compact_max) with (2 ^ 256 - 2 ^ 240) in H. exact H. Qed.
Lemma number_target c : 2 ^ 53 <= expand c -> exists k, number_of_difficulty (difficulty_of c) = Some k /\
  is_number (absolute_of (double difficulty_unit (expand c))) k /\
  (2 ^ 53 - 1) * expand c <= (2 ^ 53 + 1) * k /\ (2 ^ 53 - 1) * k <= (2 ^ 53 + 1) * expand c.
Proof.
  intro L. assert (A : 0 < expand c) by (change (2 ^ 53) with 9007199254740992 in L; lia).
  rewrite difficulty_exact by lia. destruct (double_pos difficulty_unit (expand c) unit_pos A) as [X U].
  destruct (back_pos (expand c) A) as [P W]. pose proof (back_bounds (expand c) A) as [B1 B2]. pose proof (expand_top c) as T.
  destruct (absolute_double _ X U) as (_ & _ & R).
  assert (G : 2 ^ 52 * snd (absolute_of (double difficulty_unit (expand c))) <= fst (absolute_of (double difficulty_unit (expand c)))).
  { set (p := fst (absolute_of _)) in *. set (w := snd (absolute_of _)) in *. clearbody p w.
    assert (Y : 2 ^ 53 * w <= expand c * w) by (apply N.mul_le_mono_r; exact L). change (2 ^ 53) with 9007199254740992 in *. change (2 ^ 52) with 4503599627370496. lia. }
  pose proof (representable_units _ _ 0 0 R) as J. change (2 ^ 0) with 1 in J. rewrite !N.mul_1_r in J. destruct (J G) as [k K]. rewrite N.mul_1_r in K.
  assert (C1 : (2 ^ 53 - 1) * expand c <= (2 ^ 53 + 1) * k).
  { apply (N.mul_le_mono_pos_r _ _ _ W). rewrite K in B1. lia. }
  assert (C2 : (2 ^ 53 - 1) * k <= (2 ^ 53 + 1) * expand c).
  { apply (N.mul_le_mono_pos_r _ _ _ W). rewrite K in B2. lia. }
  exists k. split; [| split; [exact K | split; assumption]].
  apply number_exact; [exact X | exact U |]. exists k. split; [exact K |]. split.
  - rewrite K in G. apply N.mul_le_mono_pos_r in G; assumption.
  - symmetry. apply N.mod_small. apply N.nle_gt. intro C.
    assert (Y : (2 ^ 53 - 1) * 2 ^ 256 <= (2 ^ 53 + 1) * (2 ^ 256 - 2 ^ 240)).
    { eapply N.le_trans; [apply N.mul_le_mono_l; exact C |]. eapply N.le_trans; [exact C2 |]. apply N.mul_le_mono_l. exact T. }
    revert Y. vm_compute. intro Y. apply Y. reflexivity.
Qed.
Lemma number_low c : 2 ^ 53 <= expand c -> low_fraction (expand c) -> number_of_difficulty (difficulty_of c) = Some (expand c).
Proof.
  intros L F. destruct (number_target c L) as (k & E & K & _). rewrite E. f_equal.
  assert (Z : expand c <> 0) by (change (2 ^ 53) with 9007199254740992 in L; lia).
  destruct (expand_parts c Z) as (m & j & Ex & M).
  assert (B : is_number (absolute_of (double difficulty_unit (expand c))) (expand c)).
  { apply (back_low _ m (8 * j)); [rewrite Ex, pow256_two; reflexivity | change (2 ^ 23) with 8388608 in M; change (2 ^ 24) with 16777216; lia | exact F]. }
  unfold is_number in *. rewrite B in K. destruct (back_pos (expand c) ltac:(lia)) as [_ W]. apply N.mul_cancel_r in K; [congruence | lia].
Qed.
Lemma number_small c : 0 < expand c < 2 ^ 51 -> number_of_difficulty (difficulty_of c) = None.
Proof.
  intros [A L]. rewrite difficulty_exact by lia. destruct (double_pos difficulty_unit (expand c) unit_pos A) as [X U].
  apply number_none; [exact X | exact U |]. pose proof (back_bounds (expand c) A) as [_ B]. destruct (back_pos (expand c) A) as [_ W].
  set (p := fst (absolute_of _)) in *. set (w := snd (absolute_of _)) in *. clearbody p w.
  assert (Y : expand c * w < 2 ^ 51 * w) by (apply N.mul_lt_mono_pos_r; assumption).
  change (2 ^ 51) with 2251799813685248 in Y. change (2 ^ 52) with 4503599627370496. change (2 ^ 53) with 9007199254740992 in B. lia.
Qed.

(* profitability *)
Lemma profit_more v v' c : (0 <= v <= v')%Z -> float_ltb (profit v' (difficulty_of c)) (profit v (difficulty_of c)) = false.
Proof.
  intros [V V']. destruct (N.eq_dec (expand c) 0) as [Z | Z].
  - unfold difficulty_of. rewrite Z. reflexivity.
  - rewrite difficulty_exact by exact Z. unfold profit. replace (v <? 0)%Z with false by lia. replace (v' <? 0)%Z with false by lia.
    destruct (double_pos difficulty_unit (expand c) unit_pos ltac:(lia)) as [X U]. set (d := double difficulty_unit (expand c)) in *. clearbody d.
    cbn [float_ltb]. apply N.ltb_ge. destruct (Z.eq_dec v 0) as [-> | V0].
    + change (double (Z.to_N 0) 1) with ((0, 1) : N * N). unfold double_div at 1. cbn [fst snd]. rewrite N.mul_0_l. change (double 0 _) with ((0, 1) : N * N). cbn [fst]. lia.
    + assert (P : 0 < Z.to_N v) by lia. assert (P' : 0 < Z.to_N v') by lia.
      pose proof (double_pos (Z.to_N v) 1 P ltac:(lia)) as [A1 A2]. pose proof (double_pos (Z.to_N v') 1 P' ltac:(lia)) as [B1 B2].
      assert (M : fst (double (Z.to_N v) 1) * snd (double (Z.to_N v') 1) <= fst (double (Z.to_N v') 1) * snd (double (Z.to_N v) 1)) by (apply double_mono; lia).
      unfold double_div. apply double_mono; [nia | nia | nia | nia |].
      apply (N.mul_le_mono_r _ _ (snd d * fst d)) in M. lia.
Qed.
Lemma profit_harder v c c' : (0 <= v)%Z -> expand c <> 0 -> expand c <= expand c' ->
  float_ltb (profit v (difficulty_of c')) (profit v (difficulty_of c)) = false.
Proof.
  intros V Z L. rewrite !difficulty_exact by lia. unfold profit. replace (v <? 0)%Z with false by lia.
  destruct (double_pos difficulty_unit (expand c) unit_pos ltac:(lia)) as [X U]. destruct (double_pos difficulty_unit (expand c') unit_pos ltac:(lia)) as [X' U'].
  assert (M : fst (double difficulty_unit (expand c')) * snd (double difficulty_unit (expand c)) <= fst (double difficulty_unit (expand c)) * snd (double difficulty_unit (expand c'))).
  { apply double_mono; [exact unit_pos | lia | exact unit_pos | lia | apply N.mul_le_mono_l; exact L]. }
  set (d := double difficulty_unit (expand c)) in *. set (d' := double difficulty_unit (expand c')) in *. clearbody d d'.
  cbn [float_ltb]. apply N.ltb_ge. destruct (Z.eq_dec v 0) as [-> | V0].
  - change (double (Z.to_N 0) 1) with ((0, 1) : N * N). unfold double_div. cbn [fst snd]. rewrite !N.mul_0_l. change (double 0 _) with ((0, 1) : N * N). cbn [fst]. lia.
  - assert (P : 0 < Z.to_N v) by lia. pose proof (double_pos (Z.to_N v) 1 P ltac:(lia)) as [A1 A2].
    unfold double_div. apply double_mono; [nia | nia | nia | nia |].
    apply (N.mul_le_mono_r _ _ (fst (double (Z.to_N v) 1) * snd (double (Z.to_N v) 1))) in M. lia.
Qed.
Lemma profit_close v c : (0 < v < 2 ^ 53)%Z -> expand c <> 0 -> exists x, profit v (difficulty_of c) = Num x /\
  (2 ^ 53 - 1) * (fst x * difficulty_unit) <= (2 ^ 53 + 1) * (Z.to_N v * expand c * snd x) /\
  (2 ^ 53 - 1) * (Z.to_N v * expand c * snd x) <= (2 ^ 53 + 1) * (fst x * difficulty_unit).
Proof.
  intros V Z. rewrite difficulty_exact by exact Z. unfold profit. replace (v <? 0)%Z with false by lia. eexists. split; [reflexivity |].
  pose proof unit_pos as U0. assert (A : 0 < expand c) by lia. destruct (double_pos difficulty_unit (expand c) U0 A) as [X U].
  pose proof (double_error difficulty_unit (expand c) U0 A) as [H1 H2].
  set (n := Z.to_N v) in *. assert (N0 : 0 < n) by lia.
  assert (R : representable n 1).
  { rewrite <- (N.mul_1_r n). change 1 with (2 ^ 0) at 1. apply representable_int. change (2 ^ 53)%Z with 9007199254740992%Z in V. change (2 ^ 53) with 9007199254740992. lia. }
  destruct (integer_double n N0 R) as [Q E]. unfold is_number in E.
  assert (D : double_div (double n 1) (double difficulty_unit (expand c)) = double (n * snd (double difficulty_unit (expand c))) (fst (double difficulty_unit (expand c)))).
  { unfold double_div. rewrite E. set (k := snd (double n 1)) in *. set (du := snd (double difficulty_unit (expand c))) in *. set (dx := fst (double difficulty_unit (expand c))) in *.
    replace (n * k * du) with (n * du * k) by lia. rewrite (N.mul_comm k). apply double_scale; assumption. }
  rewrite D. clear D E. set (dx := fst (double difficulty_unit (expand c))) in *. set (du := snd (double difficulty_unit (expand c))) in *. clearbody dx du n.
  assert (W0 : 0 < n * du) by nia. pose proof (double_error (n * du) dx W0 X) as [K1 K2]. destruct (double_pos (n * du) dx W0 X) as [P0 Q0].
  set (p := fst (double (n * du) dx)) in *. set (w := snd (double (n * du) dx)) in *. clearbody p w. set (a := expand c) in *. clearbody a.
  set (W := difficulty_unit) in *. clearbody W. change (2 ^ 53) with 9007199254740992 in *. clear V R Z.
  assert (T : 0 < 9007199254740992 * (dx * du)) by nia. split; apply (N.mul_le_mono_pos_r _ _ _ T).
  - (* p dx <= (1+e) n du w, W du <= dx a / (1-e) *)
    assert (Y1 : (9007199254740992 - 1) * (W * du) * (9007199254740992 * (p * dx)) <= (9007199254740992 * (dx * a)) * ((9007199254740992 + 1) * (n * du * w))) by (apply N.mul_le_mono; assumption). lia.
  - assert (Y1 : (9007199254740992 * (dx * a)) * ((9007199254740992 - 1) * (n * du * w)) <= ((9007199254740992 + 1) * (W * du)) * (9007199254740992 * (p * dx))) by (apply N.mul_le_mono; assumption). lia.
Qed.
