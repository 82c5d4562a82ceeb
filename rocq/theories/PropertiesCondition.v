From Verif Require Import Base ScriptModel ScriptSpec StackModel StackSpec NumModel MachineModel MachineSpec MachineExamples PatternModel.
From Verif Require Import StraightSpec PayRunSpec MultiSpec CheckRunSpec.
From Verif Require Import StraightProofs StraightEval PayRunProofs BranchProofs ConditionProofs.
Local Open Scope N_scope.

(* C142: an output whose script has conditions, nested to any depth, is spent exactly when the relation cond_runs gives
   a good end and the opcodes are not too many, those that are skipped included *)
Theorem C142_exact : forall X doc cf neg1, standard X -> c_max_memory cf < 2 ^ 63 ->
  forall B ux lx u l e, B < 2 ^ 31 -> decompile ux = Ret u -> is_push_program u = true -> decompile lx = Ret l ->
  has_flag FLAG_P2SH (c_flags cf) = false \/ is_P2SH lx = false -> 2 * len ux + len lx + len neg1 + 2 < 2 ^ 31 ->
  cond_runs X doc cf B l 0 l (stack_after u) [] e ->
  (spends X doc cf neg1 ux lx -> well_pushed cf (u ++ l) /\ well_formed cf l /\ exists x, satisfied cf e x /\ 1 + x <= c_max_ops cf) /\
  (forall x, satisfied cf e x -> enough cf B (1 + x) -> well_formed cf l -> well_pushed cf (u ++ l) -> spends X doc cf neg1 ux lx).
Proof. exact cond_spends. Qed.
Print Assumptions C142_exact.
(* so when the first branch pushes a value, one byte spends the output, whatever the script asks for afterwards *)
Theorem C142_first_branch : forall X doc cf neg1, standard X -> c_max_memory cf < 2 ^ 63 ->
  forall k rest lx, let l := op_instr OP_IF :: push k :: op_instr OP_ELSE :: rest in
  nonzeroZ (sn_val k) = true -> decompile lx = Ret l -> has_flag FLAG_P2SH (c_flags cf) = false \/ is_P2SH lx = false ->
  len k + len lx + len neg1 + 100 < 2 ^ 31 -> enough cf (len k + 66) (2 + counted (OP_ELSE :: ops rest)) ->
  well_pushed cf l -> well_formed cf l -> spends X doc cf neg1 [OP_1] lx.
Proof. exact first_branch. Qed.
Print Assumptions C142_first_branch.
(* and an output whose script starts with OP_RETURN is spent by anyone, where scripts with OP_RETURN are let through at all *)
Theorem C142_return : forall X doc cf neg1, standard X -> c_max_memory cf < 2 ^ 63 ->
  forall i rest ux lx u, let l := i :: rest in i_op i = OP_RETURN -> genesis cf = true ->
  decompile ux = Ret u -> is_push_program u = true -> decompile lx = Ret l -> has_flag FLAG_P2SH (c_flags cf) = false \/ is_P2SH lx = false ->
  2 * len ux + len lx + len neg1 + 2 < 2 ^ 31 -> room (stack_after u) [] < 2 ^ 31 ->
  (spends X doc cf neg1 ux lx -> well_pushed cf (u ++ l) /\ well_formed cf l /\ 2 <= c_max_ops cf) /\
  (enough cf (room (stack_after u) []) 2 -> well_formed cf l -> well_pushed cf (u ++ l) -> spends X doc cf neg1 ux lx).
Proof. exact return_first. Qed.
Print Assumptions C142_return.
(* what follows the end of a condition is not always run, even when the condition is met *)
Theorem C142_after_condition_refuted : ~ (forall X doc cf neg1 ux lx k1 k2, standard X -> cf = script_config genesis_profile true ->
  decompile ux = Ret [op_instr OP_1] ->
  decompile lx = Ret [op_instr OP_IF; push k1; op_instr OP_ELSE; push k2; op_instr OP_ENDIF; op_instr OP_CHECKSIG] ->
  ~ spends X doc cf neg1 ux lx).
Proof.
  intros H. set (k1 := repeat x02 33). set (k2 := repeat x03 33).
  set (doc := Some {| d_verify := fun _ _ _ => result_of_bool false; d_locktime := fun _ => true; d_sequence := fun _ => true |}).
  apply (H ex_externals doc (script_config genesis_profile true) [x81] [OP_1]
    (program_write [op_instr OP_IF; push k1; op_instr OP_ELSE; push k2; op_instr OP_ENDIF; op_instr OP_CHECKSIG]) k1 k2).
  - split; [|intros b; repeat split; reflexivity]. intros n m _. split; reflexivity.
  - reflexivity.
  - vm_compute. reflexivity.
  - vm_compute. reflexivity.
  - vm_compute. reflexivity.
Qed.
Print Assumptions C142_after_condition_refuted.

(* the hypotheses of C142_exact, for a condition within a condition and a check of a signature after both, and of C142_first_branch *)
Example C142_example :
  let X := ex_externals in let cf := script_config genesis_profile true in let k1 := repeat x02 33 in let k2 := repeat x03 33 in
  let doc := Some {| d_verify := fun _ _ k => result_of_bool (bytes_eqb k k1); d_locktime := fun _ => true; d_sequence := fun _ => true |} in
  let l := [op_instr OP_IF; op_instr OP_NOTIF; push k1; op_instr OP_ENDIF; op_instr OP_ENDIF; op_instr OP_CHECKSIG] in
  let u := [push [x07; x41]; op_instr OP_0; op_instr OP_1] in
  let rest := [push k2; op_instr OP_ENDIF; op_instr OP_CHECKSIG] in let l2 := op_instr OP_IF :: push k1 :: op_instr OP_ELSE :: rest in
  standard X /\ c_max_memory cf < 2 ^ 63 /\ decompile (program_write u) = Ret u /\ decompile (program_write l) = Ret l /\
  decompile (program_write l2) = Ret l2 /\ is_P2SH (program_write l) = false /\ is_P2SH (program_write l2) = false /\
  cond_runs X doc cf 200 l 0 l (stack_after u) [] (Goes [[x01]] [] 5) /\ satisfied cf (Goes [[x01]] [] 5) 5 /\
  enough cf 200 (1 + 5) /\ enough cf (len k1 + 66) (2 + counted (OP_ELSE :: ops rest)) /\
  well_pushed cf (u ++ l) /\ well_pushed cf l2 /\ well_formed cf l /\ well_formed cf l2 /\ nonzeroZ (sn_val k1) = true /\
  spends X doc cf [x81] (program_write u) (program_write l) /\ spends X doc cf [x81] [OP_1] (program_write l2).
Proof.
  cbv zeta.
  split; [split; [|intros b; repeat split; reflexivity]; intros n m _; split; reflexivity|].
  do 6 (split; [vm_compute; reflexivity|]).
  split.
  { change 5 with (1 + (1 + (0 + (1 + (1 + (1 + 0)))))).
    assert (G : forall k s' a' n, Goes s' a' (k + n) = after k (Goes s' a' n)) by reflexivity. rewrite !G.
    change (stack_after [push [x07; x41]; op_instr OP_0; op_instr OP_1]) with [[x01]; []; [x07; x41]].
    apply cond_meets; [vm_compute; discriminate|split; [left; reflexivity|split; [right; right; reflexivity|reflexivity]]|].
    apply cond_meets; [vm_compute; discriminate|split; [right; reflexivity|split; [right; left; reflexivity|reflexivity]]|].
    eapply cond_on; [vm_compute; discriminate|apply (step_table _ _ _ _ (push (repeat x02 33))); [split; [reflexivity|]; split; [discriminate|vm_compute; discriminate]|vm_compute; reflexivity]|].
    apply cond_endif; [vm_compute; discriminate|]. apply cond_endif; [vm_compute; discriminate|].
    eapply cond_on; [vm_compute; discriminate|apply step_sig; vm_compute; reflexivity|].
    apply cond_end. vm_compute. discriminate. }
  split; [right; exists [x01], [], []; repeat split|].
  split; [apply library_enough; [vm_compute; reflexivity|vm_compute; discriminate|left; vm_compute; reflexivity]|].
  split; [apply library_enough; [vm_compute; reflexivity|vm_compute; discriminate|left; vm_compute; reflexivity]|].
  split; [intros _; repeat (constructor; [vm_compute; reflexivity|]); constructor|].
  split; [intros _; repeat (constructor; [vm_compute; reflexivity|]); constructor|].
  split; [split; [|intros Q; vm_compute in Q; intuition discriminate]|].
  { apply (bal_if OP_IF [OP_NOTIF; i_op (push (repeat x02 33)); OP_ENDIF] [OP_CHECKSIG]); [left; reflexivity|..].
    - apply (bal_if OP_NOTIF [i_op (push (repeat x02 33))] []); [right; reflexivity|..|apply bal_nil].
      apply bal_op; [unfold control_op; vm_compute; intuition discriminate|apply bal_nil].
    - apply bal_op; [unfold control_op; vm_compute; intuition discriminate|apply bal_nil]. }
  split; [split; [|intros Q; vm_compute in Q; intuition discriminate]|].
  { apply (bal_else OP_IF [i_op (push (repeat x02 33))] [i_op (push (repeat x03 33))] [OP_CHECKSIG]); [left; reflexivity|..];
      (apply bal_op; [unfold control_op; vm_compute; intuition discriminate|apply bal_nil]). }
  split; [vm_compute; reflexivity|].
  split; vm_compute; reflexivity.
Qed.
(* OP_RETURN within a condition and after it; and the hypotheses of C142_return *)
Example C142_return_example :
  let X := ex_externals in let cf := script_config genesis_profile true in
  let l := [op_instr OP_IF; op_instr OP_RETURN; op_instr OP_ENDIF; op_instr OP_RETURN] in
  let r := [op_instr OP_RETURN; push [x07; x08]] in
  decompile (program_write r) = Ret r /\ genesis cf = true /\ is_P2SH (program_write r) = false /\ enough cf (room (stack_after []) []) 2 /\
  well_formed cf r /\ well_pushed cf r /\
  cond_runs X None cf 100 l 0 l [[x01]] [] (Satisfied 4) /\ spends X None cf [x81] [] (program_write r).
Proof.
  cbv zeta. do 3 (split; [vm_compute; reflexivity|]).
  split; [apply library_enough; [vm_compute; reflexivity|vm_compute; discriminate|left; vm_compute; reflexivity]|].
  split; [split; [do 2 (apply bal_op; [unfold control_op; vm_compute; intuition discriminate|]); apply bal_nil|intros _; vm_compute; reflexivity]|].
  split; [intros _; repeat (constructor; [vm_compute; reflexivity|]); constructor|].
  split; [|vm_compute; reflexivity].
  change 4 with (1 + (1 + (1 + 1))).
  assert (G : forall k n, Satisfied (k + n) = after k (Satisfied n)) by reflexivity. rewrite !G.
  apply cond_meets; [vm_compute; discriminate|split; [left; reflexivity|split; [right; right; reflexivity|reflexivity]]|].
  apply cond_no_return; [vm_compute; discriminate|vm_compute; reflexivity|reflexivity|].
  apply cond_endif; [vm_compute; discriminate|]. apply cond_return; [vm_compute; discriminate|vm_compute; reflexivity|reflexivity].
Qed.
(* a separator: the signature is checked with the code that follows it *)
Example C142_separator_example :
  let X := ex_externals in let cf := script_config genesis_profile true in let k1 := repeat x02 33 in let q := [push k1; op_instr OP_CHECKSIG] in
  let doc := Some {| d_verify := fun code _ _ => result_of_bool (Nat.eqb (length code) 2); d_locktime := fun _ => true; d_sequence := fun _ => true |} in
  let l := op_instr OP_IF :: op_instr OP_ENDIF :: op_instr OP_CODESEPARATOR :: q in let u := [push [x07; x41]; op_instr OP_1] in
  cond_runs X doc cf 200 l 0 l (stack_after u) [] (Goes [[x01]] [] 4) /\ spends X doc cf [x81] (program_write u) (program_write l).
Proof.
  cbv zeta. split; [|vm_compute; reflexivity].
  change 4 with (1 + (1 + (1 + (0 + (1 + 0))))).
  assert (G : forall k s' a' n, Goes s' a' (k + n) = after k (Goes s' a' n)) by reflexivity. rewrite !G.
  change (stack_after [push [x07; x41]; op_instr OP_1]) with [[x01]; [x07; x41]].
  apply cond_meets; [vm_compute; discriminate|split; [left; reflexivity|split; [right; right; reflexivity|reflexivity]]|].
  apply cond_endif; [vm_compute; discriminate|]. apply cond_separator; [vm_compute; discriminate|vm_compute; reflexivity|].
  eapply cond_on; [vm_compute; discriminate|apply (step_table _ _ _ _ (push (repeat x02 33))); [split; [reflexivity|]; split; [discriminate|vm_compute; discriminate]|vm_compute; reflexivity]|].
  eapply cond_on; [vm_compute; discriminate|apply step_sig; vm_compute; reflexivity|].
  apply cond_end. vm_compute. discriminate.
Qed.
