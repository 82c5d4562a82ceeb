From Verif Require Import Base ScriptModel ScriptSpec StackModel StackSpec NumModel MachineModel MachineSpec MachineExamples PatternModel.
From Verif Require Import StraightSpec PayRunSpec MultiSpec CheckRunSpec.
From Verif Require Import StraightProofs StraightEval PayRunProofs BranchProofs.
Local Open Scope N_scope.

(* C141: when the first condition in the script of an output is not met, the output is spent exactly when what lies
   below the condition would be a good end; neither branch is run, nor what follows *)
Theorem C141_exact : forall X doc cf neg1, standard X -> c_max_memory cf < 2 ^ 63 ->
  forall B ux lx u q o rest v r a n, let l := q ++ op_instr o :: rest in
  B < 2 ^ 31 -> decompile ux = Ret u -> is_push_program u = true -> decompile lx = Ret l ->
  has_flag FLAG_P2SH (c_flags cf) = false \/ is_P2SH lx = false -> 2 * len ux + len lx + len neg1 + 2 < 2 ^ 31 ->
  check_runs X doc cf l B q (stack_after u) [] (Goes (v :: r) a n) -> falls cf o v ->
  let total := 1 + (n + counted (o :: ops rest)) in
  (spends X doc cf neg1 ux lx -> well_pushed cf (u ++ l) /\ well_formed cf l /\ good_end cf r /\ total <= c_max_ops cf) /\
  (enough cf B total -> well_pushed cf (u ++ l) -> well_formed cf l -> good_end cf r -> spends X doc cf neg1 ux lx).
Proof. exact falls_spends. Qed.
Print Assumptions C141_exact.
(* so two bytes, that only push, spend every output whose script starts with a condition *)
Theorem C141_first_condition : forall X doc cf neg1, standard X -> c_max_memory cf < 2 ^ 63 ->
  forall o rest lx, o = OP_IF \/ o = OP_NOTIF -> decompile lx = Ret (op_instr o :: rest) ->
  has_flag FLAG_P2SH (c_flags cf) = false \/ is_P2SH lx = false -> len lx + len neg1 + 10 < 2 ^ 31 ->
  enough cf 66 (1 + counted (o :: ops rest)) -> well_pushed cf (op_instr o :: rest) -> well_formed cf (op_instr o :: rest) ->
  spends X doc cf neg1 [OP_1; if byte_eqb o OP_NOTIF then OP_1 else OP_0] lx.
Proof. exact first_condition. Qed.
Print Assumptions C141_first_condition.
(* an output that either of two keys may spend is spent without a signature *)
Theorem C141_either_key_refuted : ~ (forall X doc cf neg1 ux lx k1 k2, standard X -> cf = script_config genesis_profile true ->
  decompile lx = Ret [op_instr OP_IF; push k1; op_instr OP_ELSE; push k2; op_instr OP_ENDIF; op_instr OP_CHECKSIG] ->
  spends X doc cf neg1 ux lx -> exists sig code, signed doc code sig k1 \/ signed doc code sig k2).
Proof.
  intros H. set (k1 := repeat x02 33). set (k2 := repeat x03 33).
  set (doc := Some {| d_verify := fun _ _ _ => result_of_bool false; d_locktime := fun _ => true; d_sequence := fun _ => true |}).
  destruct (H ex_externals doc (script_config genesis_profile true) [x81] [OP_1; OP_0]
    (program_write [op_instr OP_IF; push k1; op_instr OP_ELSE; push k2; op_instr OP_ENDIF; op_instr OP_CHECKSIG]) k1 k2) as (sig & code & Q).
  - split; [|intros b; repeat split; reflexivity]. intros n m _. split; reflexivity.
  - reflexivity.
  - vm_compute. reflexivity.
  - vm_compute. reflexivity.
  - cbn [signed doc d_verify] in Q. destruct Q as [Q|Q]; discriminate Q.
Qed.
Print Assumptions C141_either_key_refuted.

(* the hypotheses of C141_exact, for a condition in the middle of a script, and of C141_first_condition *)
Example C141_example :
  let X := ex_externals in let cf := script_config genesis_profile true in let k1 := repeat x02 33 in let k2 := repeat x03 33 in
  let doc := Some {| d_verify := fun _ _ k => result_of_bool (bytes_eqb k k1); d_locktime := fun _ => true; d_sequence := fun _ => true |} in
  let q := [push k1; op_instr OP_CHECKSIG; op_instr OP_NOT] in
  let rest := [push k1; op_instr OP_ELSE; push k2; op_instr OP_ENDIF; op_instr OP_CHECKSIG] in
  let l := q ++ op_instr OP_IF :: rest in let u := [op_instr OP_1; push [x07; x41]] in
  standard X /\ c_max_memory cf < 2 ^ 63 /\ decompile (program_write u) = Ret u /\ decompile (program_write l) = Ret l /\
  decompile (program_write (op_instr OP_IF :: rest)) = Ret (op_instr OP_IF :: rest) /\
  is_P2SH (program_write l) = false /\ is_P2SH (program_write (op_instr OP_IF :: rest)) = false /\
  check_runs X doc cf l 200 q (stack_after u) [] (Goes ([] :: [[x01]]) [] 2) /\ falls cf OP_IF [] /\
  enough cf 200 (1 + (2 + counted (OP_IF :: ops rest))) /\ enough cf 66 (1 + counted (OP_IF :: ops rest)) /\
  well_pushed cf (u ++ l) /\ well_formed cf l /\ well_formed cf (op_instr OP_IF :: rest) /\ good_end cf [[x01]] /\
  spends X doc cf [x81] (program_write u) (program_write l) /\
  spends X doc cf [x81] [OP_1; OP_0] (program_write (op_instr OP_IF :: rest)).
Proof.
  cbv zeta.
  split; [split; [|intros b; repeat split; reflexivity]; intros n m _; split; reflexivity|].
  do 6 (split; [vm_compute; reflexivity|]).
  split.
  { change 2 with (0 + (1 + (1 + 0))). 
    assert (G : forall k s' a' n, Goes s' a' (k + n) = after k (Goes s' a' n)) by reflexivity. rewrite !G.
    eapply check_on; [vm_compute; discriminate|apply (step_table _ _ _ _ (push (repeat x02 33))); [split; [reflexivity|]; split; [discriminate|vm_compute; discriminate]|vm_compute; reflexivity]|].
    eapply check_on; [vm_compute; discriminate|apply step_sig; vm_compute; reflexivity|].
    eapply check_on; [vm_compute; discriminate|apply (step_table _ _ _ _ (op_instr OP_NOT)); [split; [reflexivity|]; split; [discriminate|vm_compute; discriminate]|vm_compute; reflexivity]|].
    apply check_end. vm_compute. discriminate. }
  split; [split; [left; reflexivity|]; split; [left; vm_compute; reflexivity|vm_compute; reflexivity]|].
  split; [apply library_enough; [vm_compute; reflexivity|vm_compute; discriminate|left; vm_compute; reflexivity]|].
  split; [apply library_enough; [vm_compute; reflexivity|vm_compute; discriminate|left; vm_compute; reflexivity]|].
  split; [intros _; repeat (constructor; [vm_compute; reflexivity|]); constructor|].
  assert (Bt : balanced (ops (op_instr OP_IF :: [push (repeat x02 33); op_instr OP_ELSE; push (repeat x03 33); op_instr OP_ENDIF; op_instr OP_CHECKSIG]))).
  { apply (bal_else OP_IF [i_op (push (repeat x02 33))] [i_op (push (repeat x03 33))] [OP_CHECKSIG]); [left; reflexivity|..];
      (apply bal_op; [unfold control_op; vm_compute; intuition discriminate|apply bal_nil]). }
  split; [split; [|intros Q; vm_compute in Q; intuition discriminate]|].
  { cbn [app ops map]. do 3 (apply bal_op; [unfold control_op; vm_compute; intuition discriminate|]). exact Bt. }
  split; [split; [exact Bt|intros Q; vm_compute in Q; intuition discriminate]|].
  split; [exists [x01], []; repeat split|].
  split; vm_compute; reflexivity.
Qed.
