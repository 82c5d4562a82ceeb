(* C122, C123, C124, C125: difficulties. *)
From Verif Require Import Base WireModel ExtModel ScriptModel WorkModel WorkSpec WorkExamples BoostModel BoostRedeemModel RedeemSpec BoostRedeemSpec BoostRunExamples BoostRedeemExamples DifficultyModel DifficultySpec FeeProofs DoubleProofs DifficultyProofs DifficultyBack DifficultyNumber DifficultyExamples DifficultyMore.
Local Open Scope N_scope.

(* C122: the difficulty of a target *)
Theorem C122_rounded : forall n d, 0 < n -> 0 < d -> representable (fst (double n d)) (snd (double n d)) /\
  forall p q, representable p q -> nearer (double n d) n d p q.
Proof. exact double_rounded. Qed.
Print Assumptions C122_rounded.
(* a third *)
Example C122_rounded_ex : double 1 3 = (6004799503160661, 2 ^ 54) /\ representable 6004799503160662 (2 ^ 54).
Proof. split; [vm_compute; reflexivity | split; [reflexivity | exists 6004799503160662, 54, 0; split; reflexivity]]. Qed.
Theorem C122_nearest : forall c, expand c <> 0 -> exists x, difficulty_of c = Num x /\ representable (fst x) (snd x) /\
  forall p q, representable p q -> nearer x difficulty_unit (expand c) p q.
Proof. exact difficulty_nearest. Qed.
Print Assumptions C122_nearest.
Example C122_nearest_ex : difficulty_of ex_compact = Num (2 ^ 52, 2 ^ 52) /\ exists x, difficulty_of ex_target_4 = Num x /\ double_floor x = 16307.
Proof. split; [vm_compute; reflexivity |]. eexists. split; [vm_compute; reflexivity | vm_compute; reflexivity]. Qed.
Theorem C122_order : forall c c', expand c <> 0 -> expand c' <> 0 ->
  float_ltb (difficulty_of c) (difficulty_of c') = (expand c' <? expand c) /\ float_eqb (difficulty_of c) (difficulty_of c') = (expand c =? expand c').
Proof. exact difficulty_order. Qed.
Print Assumptions C122_order.
(* two targets next to each other *)
Example C122_order_ex : float_ltb (difficulty_of 0x1d7fffff) (difficulty_of 0x1d7ffffe) = true /\ expand 0x1d7fffff <> 0.
Proof. split; [vm_compute; reflexivity | vm_compute; discriminate]. Qed.
Theorem C122_invalid : forall c, expand c = 0 <-> difficulty_of c = Infinity.
Proof. exact difficulty_infinite. Qed.
Print Assumptions C122_invalid.

(* C123: a target from the difficulty of a target *)
Theorem C123_back : forall c, normal c -> (forall e, expand c <> 256 ^ e) ->
  let v := absolute_of (double difficulty_unit (expand c)) in
  compact_of_difficulty (difficulty_of c) = Some (if expand c * snd v <=? fst v then c else c - 1).
Proof. exact compact_back. Qed.
Print Assumptions C123_back.
Theorem C123_same : forall c, normal c -> (forall e, expand c <> 256 ^ e) -> low_fraction (expand c) -> compact_of_difficulty (difficulty_of c) = Some c.
Proof. exact compact_back_low. Qed.
Print Assumptions C123_same.
Example C123_same_ex : normal ex_target_4 /\ (forall e, expand ex_target_4 <> 256 ^ e) /\ low_fraction (expand ex_target_4).
Proof. split; [apply ex_targets_normal | split; [apply ex_not_power; vm_compute; discriminate | vm_compute; discriminate]]. Qed.
Theorem C123_never_larger : forall c, normal c -> exists r, compact_of_difficulty (difficulty_of c) = Some r /\ expand r <= expand c.
Proof. exact compact_back_le. Qed.
Print Assumptions C123_never_larger.
(* the target of block 32256 comes back one less *)
Theorem C123_same_refuted : normal ex_target_1 /\ (forall e, expand ex_target_1 <> 256 ^ e) /\ compact_of_difficulty (difficulty_of ex_target_1) = Some (ex_target_1 - 1).
Proof. exact target_1_lost. Qed.
Print Assumptions C123_same_refuted.
Theorem C123_power_refuted : forall c e, normal c -> expand c = 256 ^ e -> exists r, compact_of_difficulty (difficulty_of c) = Some r /\ expand r = 0.
Proof. exact compact_back_power. Qed.
Print Assumptions C123_power_refuted.
Example C123_power_refuted_ex : normal 0x1b010000 /\ expand 0x1b010000 = 256 ^ 26.
Proof. split; [apply ex_normal |]; vm_compute; reflexivity. Qed.
(* what is not a number above zero *)
Theorem C123_others : forall f, (f = Infinity \/ f = Other) -> compact_of_difficulty f = Some compact_min.
Proof. exact compact_others. Qed.
Print Assumptions C123_others.

(* C124: the number of 256 bits of a difficulty *)
Theorem C124_exact : forall x n, 0 < fst x -> 0 < snd x ->
  number_of_difficulty (Num x) = Some n <-> exists k, is_number (absolute_of x) k /\ 2 ^ 52 <= k /\ n = k mod 2 ^ 256.
Proof. exact number_exact. Qed.
Print Assumptions C124_exact.
Theorem C124_undefined_refuted : forall x, 0 < fst x -> 0 < snd x ->
  number_of_difficulty (Num x) = None <-> fst (absolute_of x) < 2 ^ 52 * snd (absolute_of x).
Proof. exact number_none. Qed.
Print Assumptions C124_undefined_refuted.
Example C124_undefined_refuted_ex : number_of_difficulty (Num (2 ^ 172, 1)) = None /\ number_of_difficulty (Num (0, 1)) = None /\ number_of_difficulty (Num (2 ^ 171, 1)) = Some (0xffff * 2 ^ 37) /\
  number_of_difficulty (Num (1, 2 ^ 33)) = Some (0xfffe * 2 ^ 240).
Proof. repeat split; vm_compute; reflexivity. Qed.
Theorem C124_target : forall c, 2 ^ 53 <= expand c -> exists k, number_of_difficulty (difficulty_of c) = Some k /\
  is_number (absolute_of (double difficulty_unit (expand c))) k /\
  (2 ^ 53 - 1) * expand c <= (2 ^ 53 + 1) * k /\ (2 ^ 53 - 1) * k <= (2 ^ 53 + 1) * expand c.
Proof. exact number_target. Qed.
Print Assumptions C124_target.
Theorem C124_same : forall c, 2 ^ 53 <= expand c -> low_fraction (expand c) -> number_of_difficulty (difficulty_of c) = Some (expand c).
Proof. exact number_low. Qed.
Print Assumptions C124_same.
Example C124_same_ex : 2 ^ 53 <= expand ex_target_4 /\ low_fraction (expand ex_target_4) /\ number_of_difficulty (difficulty_of ex_target_3) = Some (expand ex_target_3) /\ ~ low_fraction (expand ex_target_3).
Proof. split; [vm_compute; discriminate | split; [vm_compute; discriminate | split; [vm_compute; reflexivity |]]]. unfold low_fraction. vm_compute. intro H. apply H. reflexivity. Qed.
(* for some targets the number is larger, for others smaller *)
Theorem C124_same_refuted : exists k1 k2, number_of_difficulty (difficulty_of ex_target_1) = Some k1 /\ k1 < expand ex_target_1 /\
  number_of_difficulty (difficulty_of ex_target_2) = Some k2 /\ expand ex_target_2 < k2.
Proof. exact numbers_differ. Qed.
Print Assumptions C124_same_refuted.
Theorem C124_small_refuted : forall c, 0 < expand c < 2 ^ 51 -> number_of_difficulty (difficulty_of c) = None.
Proof. exact number_small. Qed.
Print Assumptions C124_small_refuted.
Example C124_small_refuted_ex : expand 0x06123456 = 0x123456000000 /\ expand compact_min = 1.
Proof. split; vm_compute; reflexivity. Qed.

(* C125: profitability *)
Theorem C125_candidate : forall neg1 ovf c o, output_read neg1 (bn_script c) = Ret o -> no_overflow (map bv_value (bn_prevouts c)) ->
  candidate_difficulty neg1 c = Ret (difficulty_of (bo_target o)) /\
  candidate_profitability neg1 ovf c = Ret (profit (sum_of_values (map bv_value (bn_prevouts c))) (difficulty_of (bo_target o))).
Proof. exact candidate_profit. Qed.
Print Assumptions C125_candidate.
Example C125_candidate_ex : output_read (w_neg1 ex_bworld) (bn_script ex_b_cand) = Ret ex_run_bounty /\ no_overflow (map bv_value (bn_prevouts ex_b_cand)) /\
  exists x, profit 3000 (difficulty_of (bo_target ex_run_bounty)) = Num x /\ double_floor x = 6442548481488.
Proof. exact ex_profit. Qed.
Theorem C125_close : forall v c, (0 < v < 2 ^ 53)%Z -> expand c <> 0 -> exists x, profit v (difficulty_of c) = Num x /\
  (2 ^ 53 - 1) * (fst x * difficulty_unit) <= (2 ^ 53 + 1) * (Z.to_N v * expand c * snd x) /\
  (2 ^ 53 - 1) * (Z.to_N v * expand c * snd x) <= (2 ^ 53 + 1) * (fst x * difficulty_unit).
Proof. exact profit_close. Qed.
Print Assumptions C125_close.
Theorem C125_more : forall v v' c, (0 <= v <= v')%Z -> float_ltb (profit v' (difficulty_of c)) (profit v (difficulty_of c)) = false.
Proof. exact profit_more. Qed.
Print Assumptions C125_more.
Theorem C125_harder : forall v c c', (0 <= v)%Z -> expand c <> 0 -> expand c <= expand c' ->
  float_ltb (profit v (difficulty_of c')) (profit v (difficulty_of c)) = false.
Proof. exact profit_harder. Qed.
Print Assumptions C125_harder.
Example C125_harder_ex : float_ltb (profit 1000 (difficulty_of ex_target_2)) (profit 1000 (difficulty_of ex_target_1)) = true /\ expand ex_target_2 <= expand ex_target_1.
Proof. split; [vm_compute; reflexivity | vm_compute; discriminate]. Qed.
Theorem C125_invalid : forall v c v' c', expand c = 0 -> profit v (difficulty_of c) = Num (0, 1) /\
  float_ltb (profit v' (difficulty_of c')) (profit v (difficulty_of c)) = false.
Proof. exact profit_invalid. Qed.
Print Assumptions C125_invalid.
Example C125_invalid_ex : expand 0x01000000 = 0.
Proof. vm_compute. reflexivity. Qed.
