From Verif Require Import Base ScriptModel ScriptSpec StackModel StackSpec NumModel MachineModel MachineSpec MachineExamples PatternModel.
From Verif Require Import StraightSpec PayRunSpec MultiSpec CheckRunSpec HashLockSpec.
From Verif Require Import StraightProofs StraightEval PayRunProofs BranchProofs ConditionProofs HashLockProofs.
Local Open Scope N_scope.

(* C144: an output that is locked by a hash is spent, without a signature, exactly by what has the hash *)
Theorem C144_hash : forall X doc cf neg1, standard X -> c_max_memory cf < 2 ^ 63 ->
  forall x h k rest ux lx, let l := hash_lock h k rest in let u := [push x; op_instr OP_1] in
  len h = 32 -> nonzeroZ (sn_val k) = true -> decompile ux = Ret u -> decompile lx = Ret l ->
  has_flag FLAG_P2SH (c_flags cf) = false \/ is_P2SH lx = false -> 2 * len ux + len lx + len neg1 + 2 < 2 ^ 31 -> len x + len k + 200 < 2 ^ 31 ->
  (spends X doc cf neg1 ux lx -> x_sha256 X x = h) /\
  (x_sha256 X x = h -> enough cf (len x + len k + 200) (4 + counted (OP_ELSE :: ops rest)) -> well_pushed cf (u ++ l) -> well_formed cf l ->
   spends X doc cf neg1 ux lx).
Proof. exact hash_spends. Qed.
Print Assumptions C144_hash.
(* and by anyone who does not meet the condition, who need not know what has the hash, and need not wait *)
Theorem C144_anyone : forall X doc cf neg1, standard X -> c_max_memory cf < 2 ^ 63 ->
  forall h k rest lx, decompile lx = Ret (hash_lock h k rest) ->
  has_flag FLAG_P2SH (c_flags cf) = false \/ is_P2SH lx = false -> len lx + len neg1 + 10 < 2 ^ 31 ->
  enough cf 66 (1 + counted (ops (hash_lock h k rest))) -> well_pushed cf (hash_lock h k rest) -> well_formed cf (hash_lock h k rest) ->
  spends X doc cf neg1 [OP_1; OP_0] lx.
Proof. exact hash_anyone. Qed.
Print Assumptions C144_anyone.
(* in a branch that checks the signature with OP_CHECKSIGVERIFY, the secret and the signature are both needed by who meets the condition, whatever follows *)
Theorem C144_signed_branch : forall X doc cf neg1, standard X -> c_max_memory cf < 2 ^ 63 ->
  forall x sig h k rest ux lx, let l := signed_lock h k rest in let u := [push sig; push x; op_instr OP_1] in let B := len x + len sig + len k + 250 in
  len h = 32 -> decompile ux = Ret u -> decompile lx = Ret l ->
  has_flag FLAG_P2SH (c_flags cf) = false \/ is_P2SH lx = false -> 2 * len ux + len lx + len neg1 + 2 < 2 ^ 31 -> B < 2 ^ 31 ->
  (spends X doc cf neg1 ux lx -> x_sha256 X x = h /\ signed doc l sig k) /\
  (x_sha256 X x = h -> signed doc l sig k -> enough cf B 5 -> well_pushed cf (u ++ l) -> well_formed cf l -> spends X doc cf neg1 ux lx).
Proof. exact signed_lock_spends. Qed.
Print Assumptions C144_signed_branch.
(* neither the hash nor a signature nor the time is needed *)
Theorem C144_protected_refuted : ~ (forall X doc cf neg1 ux lx h k t k2, standard X -> cf = script_config genesis_profile true ->
  decompile lx = Ret (hash_or_time h k t k2) -> spends X (Some doc) cf neg1 ux lx ->
  (exists x, x_sha256 X x = h) \/ (exists code sig, signed (Some doc) code sig k \/ signed (Some doc) code sig k2) \/ exists n, d_locktime doc n = true).
Proof.
  intros H.
  set (doc := {| d_verify := fun _ _ _ => result_of_bool false; d_locktime := fun _ => false; d_sequence := fun _ => false |}).
  set (h := repeat xff 32). set (k := repeat x02 33). set (k2 := repeat x03 33).
  destruct (H ex_externals doc (script_config genesis_profile true) [x81] [OP_1; OP_0] (program_write (hash_or_time h k [x10; x27] k2)) h k [x10; x27] k2)
    as [(x & Q)|[(code & sig & Q)|(n & Q)]].
  - split; [|intros b; repeat split; reflexivity]. intros n m _. split; reflexivity.
  - reflexivity.
  - vm_compute. reflexivity.
  - vm_compute. reflexivity.
  - discriminate Q.
  - destruct Q as [Q|Q]; discriminate Q.
  - discriminate Q.
Qed.
Print Assumptions C144_protected_refuted.

(* the hypotheses of C144_hash and of C144_anyone *)
Example C144_example :
  let X := ex_externals in let cf := script_config genesis_profile true in let k := repeat x02 33 in let k2 := repeat x03 33 in let x := [x07; x08] in
  let h := x_sha256 X x in let l := hash_or_time h k [x10; x27] k2 in let u := [push x; op_instr OP_1] in
  let rest := [push [x10; x27]; op_instr OP_CHECKLOCKTIMEVERIFY; op_instr OP_DROP; push k2; op_instr OP_ENDIF; op_instr OP_CHECKSIG] in
  standard X /\ c_max_memory cf < 2 ^ 63 /\ len h = 32 /\ nonzeroZ (sn_val k) = true /\ decompile (program_write u) = Ret u /\
  decompile (program_write l) = Ret l /\ is_P2SH (program_write l) = false /\ l = hash_lock h k rest /\
  enough cf (len x + len k + 200) (4 + counted (OP_ELSE :: ops rest)) /\ enough cf 66 (1 + counted (ops l)) /\
  well_pushed cf (u ++ l) /\ well_pushed cf l /\ well_formed cf l.
Proof.
  cbv zeta.
  split; [split; [|intros b; repeat split; reflexivity]; intros n m _; split; reflexivity|].
  do 6 (split; [vm_compute; reflexivity|]). split; [reflexivity|].
  split; [apply library_enough; [vm_compute; reflexivity|vm_compute; discriminate|left; vm_compute; reflexivity]|].
  split; [apply library_enough; [vm_compute; reflexivity|vm_compute; discriminate|left; vm_compute; reflexivity]|].
  split; [intros _; repeat (constructor; [vm_compute; reflexivity|]); constructor|].
  split; [intros _; repeat (constructor; [vm_compute; reflexivity|]); constructor|].
  split; [|intros Q; vm_compute in Q; intuition discriminate].
  apply (bal_else OP_IF [OP_SHA256; x20; OP_EQUALVERIFY; x21] [x02; OP_CHECKLOCKTIMEVERIFY; OP_DROP; x21] [OP_CHECKSIG]); [left; reflexivity|..];
    repeat (apply bal_op; [unfold control_op; vm_compute; intuition discriminate|]); apply bal_nil.
Qed.
(* the hypotheses of C144_signed_branch, with a key that verifies the signature and one that does not *)
Example C144_signed_example :
  let X := ex_externals in let cf := script_config genesis_profile true in let k := repeat x02 33 in let x := [x07; x08] in let sig := [x09; x41] in
  let h := x_sha256 X x in let l := signed_lock h k [op_instr OP_ENDIF] in let u := [push sig; push x; op_instr OP_1] in
  let doc := Some {| d_verify := fun _ _ p => result_of_bool (bytes_eqb p k); d_locktime := fun _ => true; d_sequence := fun _ => true |} in
  standard X /\ c_max_memory cf < 2 ^ 63 /\ len h = 32 /\ decompile (program_write u) = Ret u /\ decompile (program_write l) = Ret l /\
  is_P2SH (program_write l) = false /\ signed doc l sig k /\ ~ signed doc l sig (repeat x03 33) /\ enough cf (len x + len sig + len k + 250) 5 /\
  well_pushed cf (u ++ l) /\ well_formed cf l /\ spends X doc cf [x81] (program_write u) (program_write l).
Proof.
  cbv zeta.
  split; [split; [|intros b; repeat split; reflexivity]; intros n m _; split; reflexivity|].
  do 6 (split; [vm_compute; reflexivity|]). split; [vm_compute; discriminate|].
  split; [apply library_enough; [vm_compute; reflexivity|vm_compute; discriminate|left; vm_compute; reflexivity]|].
  split; [intros _; repeat (constructor; [vm_compute; reflexivity|]); constructor|].
  split; [|vm_compute; reflexivity].
  split; [|intros Q; vm_compute in Q; intuition discriminate].
  apply (bal_if OP_IF [OP_SHA256; x20; OP_EQUALVERIFY; x21; OP_CHECKSIGVERIFY] []); [left; reflexivity|..];
    repeat (apply bal_op; [unfold control_op; vm_compute; intuition discriminate|]); apply bal_nil.
Qed.
