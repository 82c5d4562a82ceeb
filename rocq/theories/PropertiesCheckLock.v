From Verif Require Import Base ScriptModel ScriptSpec StackModel StackSpec NumModel MachineModel MachineSpec MachineExamples PatternModel.
From Verif Require Import StraightSpec PayRunSpec MultiSpec CheckRunSpec.
From Verif Require Import StraightProofs StraightEval PayRunProofs CheckLockProofs.
Local Open Scope N_scope.

(* C140: an output that is locked until a time or for a while is spent exactly when the lock opens and the key has
   signed. Without the flag the lock opens as BIP 65 and BIP 112 say; with it, always or never. *)
Theorem C140_exact : forall X cf neg1, standard X -> c_max_memory cf < 2 ^ 63 ->
  forall vf v lt sq o t key sig ux lx, lock_op o -> (- 2 ^ 31 <= v < 2 ^ 31)%Z -> (0 <= t < 2 ^ 32)%Z ->
  compile [push sig] = Some ux -> compile (locked_program o t key) = Some lx -> 3 * footprint [sig; key] + len neg1 + 300 < 2 ^ 31 ->
  let doc := lock_document vf v lt sq in
  (spends X doc cf neg1 ux lx -> lock_opens cf o v lt sq t /\ signed doc (locked_program o t key) sig key) /\
  (enough cf (footprint [sig; key] + 64) 4 -> well_pushed cf [push sig; push key] -> lock_opens cf o v lt sq t ->
   signed doc (locked_program o t key) sig key -> spends X doc cf neg1 ux lx).
Proof. exact lock_spends. Qed.
Print Assumptions C140_exact.
(* no pushes spend an output whose script starts with a lock, when the flag is set and the instruction discouraged *)
Theorem C140_frozen : forall X cf neg1, standard X -> c_max_memory cf < 2 ^ 63 ->
  forall doc o x rest ux lx u, lock_op o -> has_flag (lock_flag o) (c_flags cf) = true -> has_flag FLAG_DISCOURAGE_NOPS (c_flags cf) = true ->
  decompile ux = Ret u -> is_push_program u = true -> decompile lx = Ret (push x :: op_instr o :: rest) -> is_P2SH lx = false ->
  35 * len ux + 2 * len x + len lx + len neg1 + 100 < 2 ^ 31 -> ~ spends X doc cf neg1 ux lx.
Proof. exact lock_frozen. Qed.
Print Assumptions C140_frozen.
(* so with the rules before Genesis a lock that has been kept does not let the key spend *)
Theorem C140_kept_refuted : ~ (forall X cf vf v lt sq t key sig ux lx, standard X -> cf = script_config pre_genesis_profile true ->
  compile [push sig] = Some ux -> compile (locked_program OP_CHECKLOCKTIMEVERIFY t key) = Some lx -> well_pushed cf [push sig; push key] ->
  locktime_met lt sq t -> signed (lock_document vf v lt sq) (locked_program OP_CHECKLOCKTIMEVERIFY t key) sig key ->
  spends X (lock_document vf v lt sq) cf [x81] ux lx).
Proof.
  intros H. set (k := repeat x02 33). set (s := [x07; x41]).
  assert (Q : spends ex_externals (lock_document (fun _ _ _ => result_of_bool true) 1 600 0) (script_config pre_genesis_profile true) [x81]
    (program_write [push s]) (program_write (locked_program OP_CHECKLOCKTIMEVERIFY 500 k))).
  { apply (H ex_externals _ _ 1%Z 600 0 500%Z k s).
    - split; [|intros b; repeat split; reflexivity]. intros n m _. split; reflexivity.
    - reflexivity.
    - vm_compute. reflexivity.
    - vm_compute. reflexivity.
    - intros _. repeat (constructor; [vm_compute; reflexivity|]). constructor.
    - split; [discriminate|]. split; [|discriminate]. split; intros _; reflexivity.
    - reflexivity. }
  vm_compute in Q. discriminate Q.
Qed.
Print Assumptions C140_kept_refuted.
(* and with the flag, but no instruction discouraged, a lock that has not been kept lets it *)
Theorem C140_locked_refuted : ~ (forall X cf vf v lt sq t key ux lx, standard X -> c_max_memory cf < 2 ^ 63 -> has_flag FLAG_CLTV (c_flags cf) = true ->
  compile (locked_program OP_CHECKLOCKTIMEVERIFY t key) = Some lx -> spends X (lock_document vf v lt sq) cf [x81] ux lx -> locktime_met lt sq t).
Proof.
  intros H. set (k := repeat x02 33). set (s := [x07; x41]).
  assert (Q : locktime_met 400 0 500).
  { apply (H ex_externals (script_config (2 ^ FLAG_CLTV) true) (fun _ _ _ => result_of_bool true) 1%Z 400 0 500%Z k
      (program_write [push s]) (program_write (locked_program OP_CHECKLOCKTIMEVERIFY 500 k))).
    - split; [|intros b; repeat split; reflexivity]. intros n m _. split; reflexivity.
    - vm_compute. reflexivity.
    - vm_compute. reflexivity.
    - vm_compute. reflexivity.
    - vm_compute. reflexivity. }
  destruct Q as [Q _]. vm_compute in Q. apply Q. reflexivity.
Qed.
Print Assumptions C140_locked_refuted.

(* the hypotheses of C140_exact with the rules after Genesis, for a lock that is kept and one that is not *)
Example C140_example :
  let X := ex_externals in let cf := script_config genesis_profile true in let k := repeat x02 33 in let s := [x07; x41] in
  let doc := lock_document (fun _ _ _ => result_of_bool true) 2 600 10 in
  exists ux l1 l2 l3, compile [push s] = Some ux /\ compile (locked_program OP_CHECKLOCKTIMEVERIFY 500 k) = Some l1 /\
    compile (locked_program OP_CHECKLOCKTIMEVERIFY 700 k) = Some l2 /\ compile (locked_program OP_CHECKSEQUENCEVERIFY 10 k) = Some l3 /\
    standard X /\ c_max_memory cf < 2 ^ 63 /\ enough cf (footprint [s; k] + 64) 4 /\ well_pushed cf [push s; push k] /\
    lock_opens cf OP_CHECKLOCKTIMEVERIFY 2 600 10 500 /\ ~ lock_opens cf OP_CHECKLOCKTIMEVERIFY 2 600 10 700 /\
    lock_opens cf OP_CHECKSEQUENCEVERIFY 2 600 10 10 /\
    spends X doc cf [x81] ux l1 /\ ~ spends X doc cf [x81] ux l2 /\ spends X doc cf [x81] ux l3.
Proof.
  cbv zeta. eexists. eexists. eexists. eexists.
  do 4 (split; [vm_compute; reflexivity|]).
  split; [split; [|intros b; repeat split; reflexivity]; intros n m _; split; reflexivity|].
  split; [vm_compute; reflexivity|].
  split; [apply library_enough; [vm_compute; reflexivity|discriminate|left; vm_compute; reflexivity]|].
  split; [intros _; repeat (constructor; [vm_compute; reflexivity|]); constructor|].
  split; [split; [discriminate|]; split; [|discriminate]; split; intros _; reflexivity|].
  split; [intros [Q _]; vm_compute in Q; apply Q; reflexivity|].
  split; [split; [reflexivity|]; split; [right; discriminate|]; split; [reflexivity|]; split; [reflexivity|discriminate]|].
  split; [vm_compute; reflexivity|]. split; [vm_compute; discriminate|vm_compute; reflexivity].
Qed.
(* the hypotheses of C140_frozen *)
Example C140_frozen_example :
  let cf := script_config pre_genesis_profile true in let l := locked_program OP_CHECKSEQUENCEVERIFY 10 (repeat x02 33) in
  lock_op OP_CHECKSEQUENCEVERIFY /\ has_flag (lock_flag OP_CHECKSEQUENCEVERIFY) (c_flags cf) = true /\ has_flag FLAG_DISCOURAGE_NOPS (c_flags cf) = true /\
  decompile (program_write l) = Ret l /\ is_P2SH (program_write l) = false.
Proof. cbv zeta. split; [right; reflexivity|]. repeat split; vm_compute; reflexivity. Qed.
