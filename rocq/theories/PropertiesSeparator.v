From Verif Require Import Base ScriptModel ScriptSpec StackModel StackSpec NumModel MachineModel MachineSpec MachineExamples PatternModel.
From Verif Require Import StraightSpec PayRunSpec MultiSpec CheckRunSpec.
From Verif Require Import StraightProofs StraightEval PayRunProofs BranchProofs ConditionProofs.
Local Open Scope N_scope.

(* C143: a branch with a separator and then a check of signatures never spends the output, whatever is signed *)
Theorem C143_frozen : forall X doc cf neg1, standard X -> c_max_memory cf < 2 ^ 63 ->
  forall B ux lx u o q c rest v st R, let l := op_instr o :: op_instr OP_CODESEPARATOR :: q ++ op_instr c :: rest in
  doc <> None -> B < 2 ^ 31 -> decompile ux = Ret u -> is_push_program u = true -> decompile lx = Ret l ->
  has_flag FLAG_P2SH (c_flags cf) = false \/ is_P2SH lx = false -> 2 * len ux + len lx + len neg1 + 2 < 2 ^ 31 ->
  stack_after u = v :: st -> meets cf o v -> room (v :: st) [] <= B -> runs X cf B q st [] R -> checking c ->
  ~ spends X doc cf neg1 ux lx.
Proof. exact frozen_branch. Qed.
Print Assumptions C143_frozen.
(* since what follows the separator closes a condition that it does not open, and so is not read *)
Theorem C143_unread : forall lx o q, o = OP_IF \/ o = OP_NOTIF -> decompile lx = Ret (op_instr o :: op_instr OP_CODESEPARATOR :: q) ->
  balanced (o :: OP_CODESEPARATOR :: ops q) -> forall l, decompile (program_write q) <> Ret l.
Proof. exact unread_branch. Qed.
Print Assumptions C143_unread.
(* with a signature that is good for any code, the same script is spent without the separator and not with it *)
Theorem C143_separator_refuted : ~ (forall X doc cf neg1 ux lx lx' k, standard X -> cf = script_config genesis_profile true ->
  (forall code sig key, signed doc code sig key) ->
  decompile lx = Ret [op_instr OP_IF; push k; op_instr OP_CHECKSIG; op_instr OP_ENDIF] ->
  decompile lx' = Ret [op_instr OP_IF; op_instr OP_CODESEPARATOR; push k; op_instr OP_CHECKSIG; op_instr OP_ENDIF] ->
  spends X doc cf neg1 ux lx -> spends X doc cf neg1 ux lx').
Proof.
  intros H. set (k := repeat x02 33).
  set (doc := Some {| d_verify := fun _ _ _ => result_of_bool true; d_locktime := fun _ => true; d_sequence := fun _ => true |}).
  assert (Q : spends ex_externals doc (script_config genesis_profile true) [x81] (program_write [push [x07; x41]; op_instr OP_1])
    (program_write [op_instr OP_IF; op_instr OP_CODESEPARATOR; push k; op_instr OP_CHECKSIG; op_instr OP_ENDIF])).
  { apply (H _ _ _ _ _ (program_write [op_instr OP_IF; push k; op_instr OP_CHECKSIG; op_instr OP_ENDIF]) _ k).
    - split; [|intros b; repeat split; reflexivity]. intros n m _. split; reflexivity.
    - reflexivity.
    - intros code sig key. reflexivity.
    - vm_compute. reflexivity.
    - vm_compute. reflexivity.
    - vm_compute. reflexivity. }
  vm_compute in Q. discriminate Q.
Qed.
Print Assumptions C143_separator_refuted.

(* the hypotheses of C143_frozen and C143_unread *)
Example C143_example :
  let X := ex_externals in let cf := script_config genesis_profile true in let k := repeat x02 33 in
  let l := op_instr OP_IF :: op_instr OP_CODESEPARATOR :: [push k] ++ op_instr OP_CHECKSIG :: [op_instr OP_ENDIF] in
  let u := [push [x07; x41]; op_instr OP_1] in
  standard X /\ c_max_memory cf < 2 ^ 63 /\ decompile (program_write u) = Ret u /\ is_push_program u = true /\ decompile (program_write l) = Ret l /\
  is_P2SH (program_write l) = false /\ stack_after u = [[x01]; [x07; x41]] /\ meets cf OP_IF [x01] /\ room [[x01]; [x07; x41]] [] <= 200 /\
  runs X cf 200 [push k] [[x07; x41]] [] (Some ([k; [x07; x41]], [])) /\ checking OP_CHECKSIG /\ balanced (ops l).
Proof.
  cbv zeta.
  split; [split; [|intros b; repeat split; reflexivity]; intros n m _; split; reflexivity|].
  do 6 (split; [vm_compute; reflexivity|]).
  split; [split; [left; reflexivity|split; [right; right; reflexivity|reflexivity]]|].
  split; [vm_compute; discriminate|].
  split.
  { eapply runs_on; [vm_compute; discriminate|split; [reflexivity|]; split; [discriminate|vm_compute; discriminate]|vm_compute; reflexivity|].
    apply runs_end. vm_compute. discriminate. }
  split; [left; reflexivity|].
  apply (bal_if OP_IF [OP_CODESEPARATOR; i_op (push (repeat x02 33)); OP_CHECKSIG] []); [left; reflexivity| |apply bal_nil].
  do 3 (apply bal_op; [unfold control_op; vm_compute; intuition discriminate|]). apply bal_nil.
Qed.
