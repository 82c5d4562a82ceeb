(* C16: limits of the script stack. *)
From Verif Require Import Base NumModel StackModel StackSpec StackProofs ScriptModel MachineModel MachineSpec RunProofs ControlProofs TableProofs MachineExamples.
Local Open Scope N_scope.

Theorem C16_histories : forall l s s', good s -> Forall op_sane l -> do_ops l s = Val tt s' ->
  good s' /\ s_lim s' = s_lim s.
Proof. exact do_ops_good. Qed.
Print Assumptions C16_histories.
Theorem C16_start : forall l, capped l -> good (stack0 l).
Proof. exact good0. Qed.
Print Assumptions C16_start.
Theorem C16_push_exact : forall s x, good s -> len x < 2 ^ 62 ->
  ((exists s', push_back x s = Val tt s') <-> fits (s_lim s) (x :: s_main s) (s_alt s)).
Proof. exact push_exact. Qed.
Print Assumptions C16_push_exact.
Theorem C16_modify_exact : forall s x r f y, good s -> s_main s = x :: r -> f x = F_ok y -> len y < 2 ^ 62 ->
  match modify_top f s with
  | Val _ s' => becomes s s' (y :: r) (s_alt s)
  | Exc _ s' => ~ fits (s_lim s) (y :: r) (s_alt s)
  | _ => False
  end.
Proof. exact modify_top_spec. Qed.
Print Assumptions C16_modify_exact.
(* every state that the interpreter reaches while it has not halted is within the limits it started with *)
Theorem C16_every_step : forall X doc cf, truncating X -> short_hashes X -> minimal cf = true ->
  forall neg1 ux lx i k, 2 * len ux + len lx + len neg1 + 2 < 2 ^ 31 ->
  has_flag FLAG_GENESIS_STACK (c_flags cf) = false \/ c_max_memory cf < 2 ^ 31 ->
  interpreter cf neg1 ux lx = Ret i ->
  exists j, interp_steps X doc cf k i = Some j /\
    (in_halt j = false -> good (m_stack (in_state j)) /\ s_lim (m_stack (in_state j)) = s_lim (m_stack (machine0 cf))).
Proof. exact interpreter_sound. Qed.
Print Assumptions C16_every_step.
(* an operation that throws may leave the oversized element behind *)
Theorem C16_after_throw_refuted : exists s x s' e, good s /\ len x < 2 ^ 62 /\ do_op (Op_replace x) s = Exc e s' /\ ~ good s'.
Proof.
  exists (ex_stack [x00]), (repeat x00 521), (ex_stack (repeat x00 521)), (X_script E_PUSH_SIZE).
  split; [|split; [reflexivity|split; [vm_compute; reflexivity|]]].
  - repeat split; cbn; repeat constructor; discriminate.
  - intros ((F & _) & _). inversion F as [|a b H _]. vm_compute in H. apply H. reflexivity.
Qed.
Print Assumptions C16_after_throw_refuted.
Example C16_example :
  good (stack0 (Count 520 1000)) /\
  (exists s', do_ops [Op_push [x01; x02]; Op_push [x03]; Op_to_alt; Op_replace [x05]; Op_from_alt; Op_swap 1 2] (stack0 (Memory 70)) = Val tt s' /\
     s_mem s' = 66 /\ s_main s' = [[x05]; [x03]]) /\
  do_ops [Op_push [x01; x02]; Op_push [x03]; Op_push []] (stack0 (Memory 70)) =
    Exc (X_script E_STACK_SIZE) {| s_main := [[x03]; [x01; x02]]; s_alt := []; s_lim := Memory 70; s_mem := 67 |} /\
  truncating ex_externals /\ short_hashes ex_externals /\ minimal ex_config = true /\
  (exists i, interpreter ex_config [x81] [OP_1] [x76; OP_VERIFY] = Ret i).
Proof.
  split; [apply good0; exact I|]. split; [eexists; repeat split|]. split; [reflexivity|].
  split; [intros n m _; split; reflexivity|]. split; [repeat split|]. split; [reflexivity|]. eexists. vm_compute. reflexivity.
Qed.
