From Verif Require Import Base ScriptModel ScriptSpec StackModel StackSpec NumModel MachineModel MachineSpec MachineExamples PatternModel.
From Verif Require Import StraightSpec PayRunSpec MultiSpec CheckRunSpec PuzzleRunSpec.
From Verif Require Import StraightProofs StraightEval PayRunProofs PuzzleRunProofs.
Local Open Scope N_scope.

(* C145: an output with the hash of a secret is spent exactly by the secret *)
Theorem C145_secret : forall X doc cf neg1, standard X -> c_max_memory cf < 2 ^ 63 ->
  forall ux lx u o h, let l := puzzle o h in let B := footprint (stack_after u) + len h + 200 in
  hash_op o -> B < 2 ^ 31 -> decompile ux = Ret u -> is_push_program u = true -> decompile lx = Ret l ->
  has_flag FLAG_P2SH (c_flags cf) = false \/ is_P2SH lx = false -> 2 * len ux + len lx + len neg1 + 2 < 2 ^ 31 ->
  (spends X doc cf neg1 ux lx -> exists x r, stack_after u = x :: r /\ digest X o x = h /\ clean cf r) /\
  (forall x r, stack_after u = x :: r -> digest X o x = h -> clean cf r -> enough cf B 3 -> well_pushed cf (u ++ l) -> spends X doc cf neg1 ux lx).
Proof. exact puzzle_spends. Qed.
Print Assumptions C145_secret.
(* and with a key as well, exactly by the secret and a signature *)
Theorem C145_secret_and_key : forall X doc cf neg1, standard X -> c_max_memory cf < 2 ^ 63 ->
  forall ux lx u o h k, let l := puzzle_key o h k in let B := footprint (stack_after u) + len h + len k + 200 in
  hash_op o -> B < 2 ^ 31 -> decompile ux = Ret u -> is_push_program u = true -> decompile lx = Ret l ->
  has_flag FLAG_P2SH (c_flags cf) = false \/ is_P2SH lx = false -> 2 * len ux + len lx + len neg1 + 2 < 2 ^ 31 ->
  (spends X doc cf neg1 ux lx -> exists x sig r, stack_after u = x :: sig :: r /\ digest X o x = h /\ signed doc l sig k /\ clean cf r) /\
  (forall x sig r, stack_after u = x :: sig :: r -> digest X o x = h -> signed doc l sig k -> clean cf r -> enough cf B 4 -> well_pushed cf (u ++ l) ->
   spends X doc cf neg1 ux lx).
Proof. exact puzzle_key_spends. Qed.
Print Assumptions C145_secret_and_key.

(* the hypotheses, for a secret, a signature and a key that verifies it *)
Example C145_example :
  let X := ex_externals in let cf := script_config genesis_profile true in let k := repeat x02 33 in let x := [x07; x08] in let sig := [x09; x41] in
  let h := digest X OP_HASH160 x in let l1 := puzzle OP_HASH160 h in let l2 := puzzle_key OP_HASH160 h k in
  let doc := Some {| d_verify := fun _ _ p => result_of_bool (bytes_eqb p k); d_locktime := fun _ => true; d_sequence := fun _ => true |} in
  let u1 := [push x] in let u2 := [push sig; push x] in
  standard X /\ c_max_memory cf < 2 ^ 63 /\ hash_op OP_HASH160 /\ decompile (program_write u1) = Ret u1 /\ decompile (program_write u2) = Ret u2 /\
  is_push_program u1 = true /\ is_push_program u2 = true /\ decompile (program_write l1) = Ret l1 /\ decompile (program_write l2) = Ret l2 /\
  has_flag FLAG_P2SH (c_flags cf) = false /\ stack_after u1 = [x] /\ stack_after u2 = [x; sig] /\ signed doc l2 sig k /\ ~ signed doc l2 sig (repeat x03 33) /\
  clean cf [] /\ enough cf (footprint (stack_after u1) + len h + 200) 3 /\ enough cf (footprint (stack_after u2) + len h + len k + 200) 4 /\
  well_pushed cf (u1 ++ l1) /\ well_pushed cf (u2 ++ l2) /\
  spends X doc cf [x81] (program_write u2) (program_write l2).
Proof.
  cbv zeta.
  split; [split; [|intros b; repeat split; reflexivity]; intros n m _; split; reflexivity|].
  split; [vm_compute; reflexivity|]. split; [unfold hash_op; tauto|].
  do 10 (split; [vm_compute; reflexivity|]). split; [vm_compute; discriminate|]. split; [intros _; reflexivity|].
  split; [apply library_enough; [vm_compute; reflexivity|vm_compute; discriminate|left; vm_compute; reflexivity]|].
  split; [apply library_enough; [vm_compute; reflexivity|vm_compute; discriminate|left; vm_compute; reflexivity]|].
  split; [intros _; repeat (constructor; [vm_compute; reflexivity|]); constructor|].
  split; [intros _; repeat (constructor; [vm_compute; reflexivity|]); constructor|].
  vm_compute. reflexivity.
Qed.
