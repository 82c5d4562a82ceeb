(* The statements of PropertiesDifficulty.v that put others together, and examples. *)
From Coq Require Import Lia ZifyBool ZifyNat ZifyN.
From Verif Require Import Base WireModel ExtModel ScriptModel WorkModel WorkSpec WorkTargetProofs BoostModel BoostRedeemModel RedeemSpec BoostRedeemSpec BoostRedeemProofs BoostRunExamples BoostRedeemExamples DifficultyModel DifficultySpec FeeProofs DoubleProofs DifficultyProofs DifficultyBack DifficultyNumber DifficultyExamples.
Local Open Scope N_scope.

Lemma double_rounded n d : 0 < n -> 0 < d -> representable (fst (double n d)) (snd (double n d)) /\ forall p q, representable p q -> nearer (double n d) n d p q.
Proof. intros A B. split; [apply representable_double; assumption |]. intros p q R. apply double_nearest; assumption. Qed.
Lemma difficulty_nearest c : expand c <> 0 -> exists x, difficulty_of c = Num x /\ representable (fst x) (snd x) /\
  forall p q, representable p q -> nearer x difficulty_unit (expand c) p q.
Proof. intro Z. eexists. split; [apply difficulty_exact; exact Z |]. apply double_rounded; [exact unit_pos | lia]. Qed.
Lemma difficulty_infinite c : expand c = 0 <-> difficulty_of c = Infinity.
Proof. unfold difficulty_of. destruct (expand c =? 0) eqn:E; split; intro H; try reflexivity; try discriminate; lia. Qed.
Lemma compact_others f : f = Infinity \/ f = Other -> compact_of_difficulty f = Some compact_min.
Proof. intros [-> | ->]; vm_compute; reflexivity. Qed.
Lemma target_1_lost : normal ex_target_1 /\ (forall e, expand ex_target_1 <> 256 ^ e) /\ compact_of_difficulty (difficulty_of ex_target_1) = Some (ex_target_1 - 1).
Proof. split; [apply ex_targets_normal | split; [apply ex_not_power; vm_compute; discriminate | vm_compute; reflexivity]]. Qed.
Lemma numbers_differ : exists k1 k2, number_of_difficulty (difficulty_of ex_target_1) = Some k1 /\ k1 < expand ex_target_1 /\
  number_of_difficulty (difficulty_of ex_target_2) = Some k2 /\ expand ex_target_2 < k2.
Proof. do 2 eexists. split; [vm_compute; reflexivity | split; [vm_compute; reflexivity | split; [vm_compute; reflexivity | vm_compute; reflexivity]]]. Qed.
Lemma candidate_profit neg1 ovf c o : output_read neg1 (bn_script c) = Ret o -> no_overflow (map bv_value (bn_prevouts c)) ->
  candidate_difficulty neg1 c = Ret (difficulty_of (bo_target o)) /\
  candidate_profitability neg1 ovf c = Ret (profit (sum_of_values (map bv_value (bn_prevouts c))) (difficulty_of (bo_target o))).
Proof.
  intros R O. unfold candidate_profitability, candidate_difficulty. rewrite R. split; [reflexivity |]. rewrite candidate_amount by exact O. reflexivity.
Qed.
Lemma ex_profit : output_read (w_neg1 ex_bworld) (bn_script ex_b_cand) = Ret ex_run_bounty /\ no_overflow (map bv_value (bn_prevouts ex_b_cand)) /\
  exists x, profit 3000 (difficulty_of (bo_target ex_run_bounty)) = Num x /\ double_floor x = 6442548481488.
Proof.
  split; [apply ex_b_for |]. split; [split; [repeat constructor; discriminate | vm_compute; reflexivity] |].
  eexists. split; [vm_compute; reflexivity |]. vm_compute. reflexivity.
Qed.
Lemma profit_invalid v c v' c' : expand c = 0 -> profit v (difficulty_of c) = Num (0, 1) /\
  float_ltb (profit v' (difficulty_of c')) (profit v (difficulty_of c)) = false.
Proof.
  intro Z0. assert (E : difficulty_of c = Infinity) by (apply (proj1 (difficulty_infinite c)); exact Z0). rewrite E. split; [reflexivity |].
  change (profit v Infinity) with (Num (0, 1)). destruct (profit v' (difficulty_of c')) as [x | |]; cbn [float_ltb fst snd]; [apply N.ltb_ge; lia | reflexivity | reflexivity].
Qed.
