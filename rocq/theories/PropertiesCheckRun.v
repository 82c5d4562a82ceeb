From Verif Require Import Base ScriptModel ScriptSpec StackModel StackSpec NumModel MachineModel MachineSpec MachineExamples PatternModel.
From Verif Require Import StraightSpec PayRunSpec MultiSpec CheckRunSpec.
From Verif Require Import StraightProofs StraightEval PayRunProofs CheckRunProofs CheckSpendProofs.
Local Open Scope N_scope.

(* C138: an output whose script has no conditions is spent exactly when the tables, with the checks of signatures, say so *)
Theorem C138_exact : forall X doc cf neg1, standard X -> c_max_memory cf < 2 ^ 63 ->
  forall B ux lx u l e, B < 2 ^ 31 -> decompile ux = Ret u -> is_push_program u = true -> decompile lx = Ret l ->
  has_flag FLAG_P2SH (c_flags cf) = false \/ is_P2SH lx = false -> 2 * len ux + len lx + len neg1 + 2 < 2 ^ 31 ->
  check_runs X doc cf l B l (stack_after u) [] e ->
  (spends X doc cf neg1 ux lx -> well_pushed cf (u ++ l) /\ exists x, satisfied cf e x /\ 1 + x <= c_max_ops cf) /\
  (forall x, satisfied cf e x -> enough cf B (1 + x) -> plain_ops l -> well_pushed cf (u ++ l) -> spends X doc cf neg1 ux lx).
Proof. exact check_spends. Qed.
Print Assumptions C138_exact.
(* whatever follows the check of a signature that verifies is ignored *)
Theorem C138_rest_ignored : forall X doc cf neg1, standard X -> c_max_memory cf < 2 ^ 63 ->
  forall ux lx sig key rest, len sig < 2 ^ 31 -> len key < 2 ^ 31 -> len sig + len key + 64 < 2 ^ 31 ->
  decompile ux = Ret [push sig] -> decompile lx = Ret (verify_then key rest) ->
  has_flag FLAG_P2SH (c_flags cf) = false \/ is_P2SH lx = false -> 2 * len ux + len lx + len neg1 + 2 < 2 ^ 31 ->
  (spends X doc cf neg1 ux lx -> signed doc (verify_then key rest) sig key) /\
  (enough cf (len sig + len key + 64) 2 -> plain_ops rest -> well_pushed cf (push sig :: verify_then key rest) ->
   signed doc (verify_then key rest) sig key -> spends X doc cf neg1 ux lx).
Proof. exact rest_ignored. Qed.
Print Assumptions C138_rest_ignored.
(* two keys, the first with OP_CHECKSIGVERIFY: a signature by the second is not needed *)
Theorem C138_both_keys_refuted : ~ (forall X doc cf neg1 ux lx k1 k2, standard X -> c_max_memory cf < 2 ^ 63 ->
  decompile lx = Ret (verify_then k1 [push k2; op_instr OP_CHECKSIG]) -> spends X doc cf neg1 ux lx ->
  exists sig code, signed doc code sig k2).
Proof.
  intros H. set (k1 := repeat x02 33). set (k2 := repeat x03 33).
  set (doc := Some {| d_verify := fun _ _ k => result_of_bool (bytes_eqb k k1); d_locktime := fun _ => true; d_sequence := fun _ => true |}).
  destruct (H ex_externals doc (script_config genesis_profile true) [x81] [x02; x07; x41]
    (program_write (verify_then k1 [push k2; op_instr OP_CHECKSIG])) k1 k2) as (sig & code & Q).
  - split; [|intros b; repeat split; reflexivity]. intros n m _. split; reflexivity.
  - vm_compute. reflexivity.
  - vm_compute. reflexivity.
  - vm_compute. reflexivity.
  - cbn [signed doc d_verify] in Q. discriminate Q.
Qed.
Print Assumptions C138_both_keys_refuted.

(* with OP_CHECKSIG and OP_VERIFY the second check is made: the hypotheses of C138_exact *)
Example C138_example :
  let X := ex_externals in let cf := script_config genesis_profile true in
  let k1 := repeat x02 33 in let k2 := repeat x03 33 in let s1 := [x07; x41] in let s2 := [x08; x41] in
  let doc := Some {| d_verify := fun _ s k => result_of_bool ((bytes_eqb k k1 && bytes_eqb s s1) || (bytes_eqb k k2 && bytes_eqb s s2));
                     d_locktime := fun _ => true; d_sequence := fun _ => true |} in
  let l := [push k1; op_instr OP_CHECKSIG; op_instr OP_VERIFY; push k2; op_instr OP_CHECKSIG] in
  standard X /\ c_max_memory cf < 2 ^ 63 /\ decompile (program_write l) = Ret l /\ is_P2SH (program_write l) = false /\
  check_runs X doc cf l 200 l (stack_after [push s2; push s1]) [] (Goes [[x01]] [] 3) /\ satisfied cf (Goes [[x01]] [] 3) 3 /\
  enough cf 200 4 /\ plain_ops l /\ well_pushed cf ([push s2; push s1] ++ l) /\
  spends X doc cf [x81] (program_write [push s2; push s1]) (program_write l) /\
  ~ spends X doc cf [x81] (program_write [push s1; push s1]) (program_write l).
Proof.
  cbv zeta. split; [|split; [|split; [|split; [|split; [|split; [|split; [|split; [|split; [|split]]]]]]]]].
  - split; [|intros b; repeat split; reflexivity]. intros n m _. split; reflexivity.
  - vm_compute. reflexivity.
  - vm_compute. reflexivity.
  - vm_compute. reflexivity.
  - change 3 with (0 + (1 + (1 + (0 + (1 + 0))))). 
    assert (G : forall k s' a' n, Goes s' a' (k + n) = after k (Goes s' a' n)) by reflexivity. rewrite !G.
    eapply check_on; [vm_compute; discriminate|apply (step_table _ _ _ _ (push (repeat x02 33))); [split; [reflexivity|]; split; [discriminate|vm_compute; discriminate]|vm_compute; reflexivity]|].
    eapply check_on; [vm_compute; discriminate|apply step_sig; vm_compute; reflexivity|].
    eapply check_on; [vm_compute; discriminate|apply (step_table _ _ _ _ (op_instr OP_VERIFY)); [split; [reflexivity|]; split; [discriminate|vm_compute; discriminate]|vm_compute; reflexivity]|].
    eapply check_on; [vm_compute; discriminate|apply (step_table _ _ _ _ (push (repeat x03 33))); [split; [reflexivity|]; split; [discriminate|vm_compute; discriminate]|vm_compute; reflexivity]|].
    eapply check_on; [vm_compute; discriminate|apply step_sig; vm_compute; reflexivity|].
    apply check_end. vm_compute. discriminate.
  - right. exists [x01], [], []. repeat split.
  - apply library_enough; [vm_compute; reflexivity|discriminate|left; vm_compute; reflexivity].
  - unfold plain_ops. cbn [map]. repeat (constructor; [split; [unfold control_op; vm_compute; intuition discriminate|vm_compute; discriminate]|]). constructor.
  - intros _. repeat (constructor; [vm_compute; reflexivity|]). constructor.
  - vm_compute. reflexivity.
  - vm_compute. discriminate.
Qed.

(* C139: an output with the hash of a script is spent exactly when the script, which is pushed last, is satisfied by
   the other pushes and has the hash; or when it ends early *)
Theorem C139_exact : forall X doc cf neg1, standard X -> c_max_memory cf < 2 ^ 63 ->
  forall B ux lx u pr d redeem e, B < 2 ^ 31 -> has_flag FLAG_P2SH (c_flags cf) = true -> len d = 20 -> p2sh_script d = Some lx ->
  decompile ux = Ret (u ++ [pr]) -> is_push_program (u ++ [pr]) = true -> i_op pr <> OP_1NEGATE ->
  decompile (pushed_by pr) = Ret redeem -> balanced (ops redeem) -> 2 * len ux + len neg1 + 25 < 2 ^ 31 ->
  check_runs X doc cf (by_hash redeem pr d) B redeem (stack_after u) [] e ->
  (forall st a x, e = Goes st a x -> room (d :: d :: pushed_by pr :: st) a <= B) ->
  (spends X doc cf neg1 ux lx -> exists x, hash_satisfied X cf pr d e x /\ 1 + x <= c_max_ops cf) /\
  (forall x, hash_satisfied X cf pr d e x -> enough cf B (1 + x) -> spends X doc cf neg1 ux lx).
Proof. exact script_hash_spends. Qed.
Print Assumptions C139_exact.
(* a script that asks for one signature: it is checked for the script together with what is appended to it *)
Theorem C139_key : forall X doc cf neg1, standard X -> c_max_memory cf < 2 ^ 63 ->
  forall sig key rx ux lx d, compile [push key; op_instr OP_CHECKSIG] = Some rx -> compile [push sig; push rx] = Some ux ->
  has_flag FLAG_P2SH (c_flags cf) = true -> len d = 20 -> p2sh_script d = Some lx -> 3 * footprint [sig; key] + len neg1 + 300 < 2 ^ 31 ->
  let code := by_hash [push key; op_instr OP_CHECKSIG] (push rx) d in
  (spends X doc cf neg1 ux lx -> x_ripemd160 X (x_sha256 X rx) = d /\ signed doc code sig key) /\
  (enough cf (2 * footprint [sig; key] + 200) 5 -> x_ripemd160 X (x_sha256 X rx) = d -> signed doc code sig key -> spends X doc cf neg1 ux lx).
Proof. exact key_by_hash. Qed.
Print Assumptions C139_key.
(* a signature for the script alone does not do *)
Theorem C139_own_code_refuted : ~ (forall X doc cf neg1 sig key rx ux lx, standard X -> c_max_memory cf < 2 ^ 63 ->
  compile [push key; op_instr OP_CHECKSIG] = Some rx -> compile [push sig; push rx] = Some ux -> has_flag FLAG_P2SH (c_flags cf) = true ->
  p2sh_script (x_ripemd160 X (x_sha256 X rx)) = Some lx -> enough cf (2 * footprint [sig; key] + 200) 5 ->
  signed doc [push key; op_instr OP_CHECKSIG] sig key -> spends X doc cf neg1 ux lx).
Proof.
  intros H. set (k := repeat x02 33). set (s := [x07; x41]).
  set (doc := Some {| d_verify := fun code _ _ => result_of_bool (N.of_nat (length code) =? 2); d_locktime := fun _ => true; d_sequence := fun _ => true |}).
  set (rx := program_write [push k; op_instr OP_CHECKSIG]).
  assert (Q : spends ex_externals doc (script_config pre_genesis_profile true) [x81] (program_write [push s; push rx])
    (match p2sh_script (x_ripemd160 ex_externals (x_sha256 ex_externals rx)) with Some b => b | None => [] end)).
  { apply (H ex_externals doc _ [x81] s k rx).
    - split; [|intros b; repeat split; reflexivity]. intros n m _. split; reflexivity.
    - vm_compute. reflexivity.
    - vm_compute. reflexivity.
    - vm_compute. reflexivity.
    - vm_compute. reflexivity.
    - vm_compute. reflexivity.
    - apply library_enough; [vm_compute; reflexivity|discriminate|right; vm_compute; discriminate].
    - vm_compute. reflexivity. }
  vm_compute in Q. discriminate Q.
Qed.
Print Assumptions C139_own_code_refuted.
(* the same five bytes spend every output with the hash of a script *)
Theorem C139_anyone_spends : forall X doc cf neg1, standard X -> c_max_memory cf < 2 ^ 63 ->
  forall lx, has_flag FLAG_P2SH (c_flags cf) = true -> is_P2SH lx = true -> enough cf 96 2 -> len neg1 + 40 < 2 ^ 31 ->
  spends X doc cf neg1 [x04; x00; x00; x00; xaf] lx.
Proof. exact anyone_spends. Qed.
Print Assumptions C139_anyone_spends.
(* so the script that spends such an output need not have the hash *)
Theorem C139_hash_refuted : ~ (forall X doc cf neg1 ux u pr lx d, standard X -> c_max_memory cf < 2 ^ 63 -> has_flag FLAG_P2SH (c_flags cf) = true ->
  p2sh_script d = Some lx -> decompile ux = Ret (u ++ [pr]) -> spends X doc cf neg1 ux lx -> x_ripemd160 X (x_sha256 X (pushed_by pr)) = d).
Proof.
  intros H. set (lx := match p2sh_script (repeat x07 20) with Some b => b | None => [] end).
  assert (Q : x_ripemd160 ex_externals (x_sha256 ex_externals (pushed_by (push [x00; x00; x00; xaf]))) = repeat x07 20).
  { apply (H ex_externals None (script_config pre_genesis_profile true) [x81] [x04; x00; x00; x00; xaf] [] _ lx).
    - split; [|intros b; repeat split; reflexivity]. intros n m _. split; reflexivity.
    - vm_compute. reflexivity.
    - vm_compute. reflexivity.
    - vm_compute. reflexivity.
    - vm_compute. reflexivity.
    - vm_compute. reflexivity. }
  vm_compute in Q. discriminate Q.
Qed.
Print Assumptions C139_hash_refuted.

(* the hypotheses of C139_key and C139_anyone_spends *)
Example C139_example :
  let X := ex_externals in let cf := script_config pre_genesis_profile true in let k := repeat x02 33 in let s := [x07; x41] in
  exists rx ux lx, compile [push k; op_instr OP_CHECKSIG] = Some rx /\ compile [push s; push rx] = Some ux /\
    p2sh_script (x_ripemd160 X (x_sha256 X rx)) = Some lx /\ standard X /\ c_max_memory cf < 2 ^ 63 /\ has_flag FLAG_P2SH (c_flags cf) = true /\
    enough cf (2 * footprint [s; k] + 200) 5 /\ enough cf 96 2 /\ is_P2SH lx = true /\
    let doc := Some {| d_verify := fun code _ _ => result_of_bool (N.of_nat (length code) =? 7); d_locktime := fun _ => true; d_sequence := fun _ => true |} in
    signed doc (by_hash [push k; op_instr OP_CHECKSIG] (push rx) (x_ripemd160 X (x_sha256 X rx))) s k /\ spends X doc cf [x81] ux lx.
Proof.
  cbv zeta. do 3 eexists. do 3 (split; [vm_compute; reflexivity|]). split; [|split; [|split; [|split; [|split; [|split; [|split]]]]]].
  - split; [|intros b; repeat split; reflexivity]. intros n m _. split; reflexivity.
  - vm_compute. reflexivity.
  - vm_compute. reflexivity.
  - apply library_enough; [vm_compute; reflexivity|discriminate|right; vm_compute; discriminate].
  - apply library_enough; [vm_compute; reflexivity|discriminate|right; vm_compute; discriminate].
  - vm_compute. reflexivity.
  - vm_compute. reflexivity.
  - vm_compute. reflexivity.
Qed.
