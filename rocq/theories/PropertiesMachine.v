(* C13, C15, C17 - C21, C57 - C65: the script machine and interpreter. *)
From Verif Require Import Base WireModel ScriptModel ScriptSpec NumModel NumSpec StackModel StackSpec MachineModel MachineSpec.
From Verif Require Import OpcodeProofs RunProofs ControlProofs FlowProofs SpendProofs MultisigProofs TableProofs MachineExamples.
Local Open Scope N_scope.

(* C13: every opcode that does not read the transaction or change the flow of control follows the table *)
Theorem C13_opcode_table : forall X doc cf c o m,
  good (m_stack m) -> small (s_main (m_stack m)) -> truncating X -> short_hashes X -> roomy (s_lim (m_stack m)) ->
  (positional o = true -> no_negative_zero cf o (s_main (m_stack m))) -> impure o = false ->
  agrees m (exec_op X doc cf c o m) (effect X cf o (s_main (m_stack m)) (s_alt (m_stack m))).
Proof. exact exec_exact. Qed.
Print Assumptions C13_opcode_table.
Theorem C13_instruction : forall X doc cf c i m, is_inst i (pc_next c) -> running m = true -> impure (i_op i) = false ->
  (b2n OP_16 < b2n (i_op i) -> m_ops m < c_max_ops cf) ->
  good (m_stack m) -> small (s_main (m_stack m)) -> roomy (s_lim (m_stack m)) -> truncating X -> short_hashes X ->
  (positional (i_op i) = true -> no_negative_zero cf (i_op i) (s_main (m_stack m))) -> len (pc_next c) < 2 ^ 62 ->
  agrees (counting (i_op i) m) (step X doc cf c m) (instr_effect X cf i (s_main (m_stack m)) (s_alt (m_stack m))).
Proof. exact step_table. Qed.
Print Assumptions C13_instruction.
Example C13_example :
  effect ex_externals ex_config OP_DIV [sn_enc 2; sn_enc (-7); [x09]] [] = Some ([sn_enc (-3); [x09]], []) /\
  effect ex_externals ex_config OP_MOD [sn_enc 2; sn_enc (-7)] [] = Some ([sn_enc (-1)], []) /\
  effect ex_externals ex_config OP_DIV [sn_enc 0; sn_enc (-7)] [] = None /\
  effect ex_externals ex_config OP_WITHIN [sn_enc 5; sn_enc (-5); sn_enc 5] [] = Some ([sn_enc 0], []) /\
  (exists m, exec_op ex_externals None ex_config ex_counter OP_MUL (ex_machine ex_config [sn_enc 70000; sn_enc (-300)]) = Val tt m /\
     s_main (m_stack m) = [sn_enc (-21000000)]) /\
  good (m_stack (ex_machine ex_config [sn_enc 70000; sn_enc (-300)])) /\ small [sn_enc 70000; sn_enc (-300)].
Proof.
  do 4 (split; [vm_compute; reflexivity|]). split; [eexists; split; [vm_compute; reflexivity|vm_compute; reflexivity]|].
  split; [repeat split; vm_compute; congruence|]. split; [reflexivity|repeat constructor; vm_compute; reflexivity].
Qed.

(* C15 *)
Theorem C15_split_then_cat : forall X cf n x r a s' a', effect X cf OP_SPLIT (n :: x :: r) a = Some (s', a') ->
  effect X cf OP_CAT s' a' = Some (x :: r, a).
Proof. exact split_then_cat. Qed.
Print Assumptions C15_split_then_cat.
Theorem C15_cat_then_split : forall X cf x y r a n, operand cf n = Some (Z.of_N (len x)) ->
  effect X cf OP_CAT (y :: x :: r) a = Some ((x ++ y) :: r, a) /\
  effect X cf OP_SPLIT (n :: (x ++ y) :: r) a = Some (y :: x :: r, a).
Proof. exact cat_then_split. Qed.
Print Assumptions C15_cat_then_split.
Theorem C15_left_right : forall X cf n x r a,
  match effect X cf OP_SPLIT (n :: x :: r) a with
  | Some (q :: p :: _, _) => effect X cf OP_LEFT (n :: x :: r) a = Some (p :: r, a) /\ x = p ++ q
  | Some _ => False
  | None => effect X cf OP_LEFT (n :: x :: r) a = None /\ effect X cf OP_RIGHT (n :: x :: r) a = None
  end.
Proof. exact left_right_split. Qed.
Print Assumptions C15_left_right.
Theorem C15_bitwise : forall X cf o f x y r a s' a',
  (o, f) = (OP_AND, andb) \/ (o, f) = (OP_OR, orb) \/ (o, f) = (OP_XOR, xorb) ->
  (effect X cf o (y :: x :: r) a = None <-> len x <> len y) /\
  (effect X cf o (y :: x :: r) a = Some (s', a') -> exists z, s' = z :: r /\ a' = a /\ len z = len x /\
     forall k, N.testbit (le_val z) k = f (N.testbit (le_val x) k) (N.testbit (le_val y) k)).
Proof. exact bitwise_bits. Qed.
Print Assumptions C15_bitwise.
Theorem C15_invert : forall X cf x r a, exists y, effect X cf OP_INVERT (x :: r) a = Some (y :: r, a) /\ len y = len x /\
  le_val x + le_val y = pow256 (length x) - 1 /\ effect X cf OP_INVERT (y :: r) a = Some (x :: r, a).
Proof. exact invert_twice. Qed.
Print Assumptions C15_invert.
Theorem C15_shifts : forall X cf x z n r a, operand cf n = Some z -> (0 <= z)%Z ->
  exists y w, effect X cf OP_LSHIFT (n :: x :: r) a = Some (y :: r, a) /\ effect X cf OP_RSHIFT (n :: x :: r) a = Some (w :: r, a) /\
    len y = len x /\ len w = len x /\
    (forall k, bit_from_end y k = (Z.to_N z <=? k) && (k <? 8 * len x) && bit_from_end x (k - Z.to_N z)) /\
    (forall k, bit_from_end w k = bit_from_end x (k + Z.to_N z)).
Proof. exact shift_bits. Qed.
Print Assumptions C15_shifts.
Theorem C15_num2bin : forall X cf n x r a y s' a', effect X cf OP_NUM2BIN (n :: x :: r) a = Some (y :: s', a') ->
  sn_val y = sn_val x /\ Z.of_N (len y) = sn_val n /\ s' = r /\ a' = a.
Proof. exact num2bin_value. Qed.
Print Assumptions C15_num2bin.
Theorem C15_bin2num : forall X cf x r a y s' a', effect X cf OP_BIN2NUM (x :: r) a = Some (y :: s', a') ->
  sn_val y = sn_val x /\ (exists z, y = sn_enc z) /\ len y <= c_max_num cf /\ s' = r /\ a' = a.
Proof. exact bin2num_value. Qed.
Print Assumptions C15_bin2num.
Theorem C15_num2bin_then_bin2num : forall X cf n x r a s' a', effect X cf OP_NUM2BIN (n :: x :: r) a = Some (s', a') ->
  effect X cf OP_BIN2NUM s' a' = effect X cf OP_BIN2NUM (x :: r) a.
Proof. exact num2bin_bin2num. Qed.
Print Assumptions C15_num2bin_then_bin2num.
Example C15_example :
  effect ex_externals ex_config OP_SPLIT [[x01]; [x0a; x0b; x0c]] [] = Some ([[x0b; x0c]; [x0a]], []) /\
  operand ex_config [x02] = Some (Z.of_N (len [x00; x00])) /\
  effect ex_externals ex_config OP_NUM2BIN [[x04]; [x85]] [] = Some ([[x05; x00; x00; x80]], []) /\
  effect ex_externals ex_config OP_LSHIFT [[x09]; [x80; xff; x01]] [] = Some ([[xfe; x02; x00]], []) /\
  effect ex_externals ex_config OP_AND [[x0f; xf0]; [xff; x18]] [] = Some ([[x0f; x10]], []).
Proof. repeat split. Qed.

(* C17 *)
Theorem C17_halts : forall X doc cf neg1 ux lx p r i k, setup_program cf neg1 ux lx = Ret (p, r) ->
  2 * len ux + len lx + len neg1 + 2 < 2 ^ 31 -> interpreter cf neg1 ux lx = Ret i -> (length p < k)%nat ->
  match interp_steps X doc cf k i with
  | Some j => in_halt j = true /\ interp_run X doc cf i = Ret j
  | None => interp_run X doc cf i = Undef
  end.
Proof. exact halts. Qed.
Print Assumptions C17_halts.
Theorem C17_evaluate_terminates : forall X doc cf neg1 ux lx, 2 * len ux + len lx + len neg1 + 2 < 2 ^ 31 ->
  evaluate X doc cf neg1 ux lx <> Throw X_Fuel.
Proof. exact evaluate_terminates. Qed.
Print Assumptions C17_evaluate_terminates.
Example C17_example : exists p r i, setup_program ex_config [x81] [OP_1] [x76; OP_VERIFY] = Ret (p, r) /\ length p = 4%nat /\
  interpreter ex_config [x81] [OP_1] [x76; OP_VERIFY] = Ret i /\
  2 * len [OP_1] + len [x76; OP_VERIFY] + len [x81] + 2 < 2 ^ 31.
Proof. do 3 eexists. repeat split; vm_compute; reflexivity. Qed.

(* C18 *)
Theorem C18_all_taken_is_right : forall X doc cf fuel c m, all_taken X doc cf fuel c m ->
  machine_run X doc cf fuel c m = ref_run X doc cf fuel c m.
Proof. exact ref_agrees. Qed.
Print Assumptions C18_all_taken_is_right.
Theorem C18_not_taken_skips_the_rest : forall X doc cf p s, segments p s -> len (concat s) < 2 ^ 31 ->
  forall (neg : bool) fuel j k m v r,
  nth_error (ops p) k = Some (if neg then OP_NOTIF else OP_IF) -> (length p - k < fuel)%nat ->
  good (m_stack m) -> running m = true -> m_ops m <= c_max_ops cf -> s_main (m_stack m) = v :: r ->
  has_flag FLAG_MINIMALIF (c_flags cf) = false \/ v = [] \/ v = [x01] -> nonzeroZ (sn_val v) = neg ->
  exists m' c', machine_run X doc cf fuel (counter_at s j k) m = Ret (skipped cf (m_ops m) (skipn k (ops p)) r, m', c').
Proof. exact if_not_taken. Qed.
Print Assumptions C18_not_taken_skips_the_rest.
Theorem C18_else_skips_the_rest : forall X doc cf p s, segments p s -> len (concat s) < 2 ^ 31 ->
  forall fuel j k m x ex y el,
  nth_error (ops p) k = Some OP_ELSE -> (length p - k < fuel)%nat ->
  running m = true -> m_ops m <= c_max_ops cf -> m_exec m = x :: ex -> m_else m = y :: el -> y && genesis cf = false ->
  exists m' c', machine_run X doc cf fuel (counter_at s j k) m =
    Ret (skipped cf (m_ops m) (skipn k (ops p)) (s_main (m_stack m)), m', c').
Proof. exact else_after_taken. Qed.
Print Assumptions C18_else_skips_the_rest.
Theorem C18_selected_branch_refuted : exists ux lx, ex_run ex_config ux lx = Ret (result_of_bool true) /\
  exists i, interpreter ex_config [x81] ux lx = Ret i /\
  match ref_run ex_externals None ex_config 20 (in_counter i) (in_state i) with Ret (r, _, _) => r = result_of_bool false | _ => False end.
Proof. exists [OP_1], [OP_0; OP_IF; OP_ENDIF; OP_VERIFY; OP_0]. split; [vm_compute; reflexivity|]. eexists. split; [vm_compute; reflexivity|]. vm_compute. reflexivity. Qed.
Print Assumptions C18_selected_branch_refuted.
Example C18_example :
  ex_run ex_config [] [OP_0; OP_IF; OP_0; OP_ELSE; OP_1; OP_ENDIF] = Ret (result_of_bool false) /\
  ex_run ex_config [] [OP_1; OP_IF; OP_1; OP_IF; x53; OP_ENDIF; OP_ENDIF] = Ret (result_of_bool true) /\
  exists i, interpreter ex_config [x81] [] [OP_1; OP_IF; OP_1; OP_IF; x53; OP_ENDIF; OP_ENDIF] = Ret i /\
    all_taken ex_externals None ex_config 20 (in_counter i) (in_state i).
Proof. split; [vm_compute; reflexivity|]. split; [vm_compute; reflexivity|]. eexists. split; [vm_compute; reflexivity|]. vm_compute. tauto. Qed.

(* C19 *)
Theorem C19_verify_never_continues : forall X doc cf c o m, o = OP_CHECKSIGVERIFY \/ o = OP_CHECKMULTISIGVERIFY ->
  match exec_op X doc cf c o m with Val _ _ => False | _ => True end.
Proof. exact verify_ends. Qed.
Print Assumptions C19_verify_never_continues.
Theorem C19_checksigverify_succeeds : forall X doc cf p s, segments p s -> len (concat s) < 2 ^ 31 -> forall fuel j k m pub sig r,
  nth_error (ops p) k = Some OP_CHECKSIGVERIFY -> running m = true -> m_ops m < c_max_ops cf ->
  good (m_stack m) -> roomy (s_lim (m_stack m)) -> s_main (m_stack m) = pub :: sig :: r ->
  accepts doc (counter_at s j k) sig pub ->
  exists m' c', machine_run X doc cf (S fuel) (counter_at s j k) m = Ret (result_of_bool true, m', c').
Proof. exact checksigverify_succeeds. Qed.
Print Assumptions C19_checksigverify_succeeds.
Theorem C19_script_goes_on_refuted : exists ux lx, ex_run ex_config ux lx = Ret (result_of_bool true) /\
  exists a b, lx = a ++ OP_CHECKSIGVERIFY :: b /\ b = [OP_0; OP_VERIFY].
Proof. exists [x02; x17; x01], [x01; x17; OP_CHECKSIGVERIFY; OP_0; OP_VERIFY]. split; [vm_compute; reflexivity|]. exists [x01; x17], [OP_0; OP_VERIFY]. split; reflexivity. Qed.
Print Assumptions C19_script_goes_on_refuted.
Example C19_example : ex_run ex_config [x02; x17; x01] [x01; x17; OP_CHECKSIG; OP_VERIFY; OP_0; OP_VERIFY] = Ret (result_of_error E_VERIFY) /\
  ex_run ex_config [x02; x18; x01] [x01; x17; OP_CHECKSIGVERIFY] = Ret (result_of_error E_CHECKSIGVERIFY) /\
  accepts (Some (ex_document 0)) {| pc_next := [OP_CHECKSIGVERIFY]; pc_script := [OP_CHECKSIGVERIFY]; pc_pos := 0; pc_sep := 0 |} [x17; x01] [x17].
Proof. split; [vm_compute; reflexivity|]. split; [vm_compute; reflexivity|]. eexists. split; [vm_compute; reflexivity|]. vm_compute. reflexivity. Qed.

(* C20 *)
Theorem C20_checklocktimeverify_exact : forall doc cf m,
  (has_flag FLAG_CLTV (c_flags cf) = true -> op_cltv doc cf m =
     if has_flag FLAG_DISCOURAGE_NOPS (c_flags cf) then Stop (result_of_error E_DISCOURAGE_UPGRADABLE_NOPS) m else Val tt m) /\
  (has_flag FLAG_CLTV (c_flags cf) = false -> minimal cf = true \/ Forall (fun b => ~ negative_zero b) (s_main (m_stack m)) ->
   op_cltv doc cf m = locktime_outcome cf m (fun x =>
     if match doc with None => true | Some d => d_locktime d (Z.to_N (sn_val x mod 2 ^ 32)) end
     then Val tt m else Stop (result_of_error E_UNSATISFIED_LOCKTIME) m)).
Proof. exact cltv_exact. Qed.
Print Assumptions C20_checklocktimeverify_exact.
Theorem C20_checksequenceverify_exact : forall doc cf m,
  (has_flag FLAG_CSV (c_flags cf) = true -> op_csv doc cf m =
     if has_flag FLAG_DISCOURAGE_NOPS (c_flags cf) then Stop (result_of_error E_DISCOURAGE_UPGRADABLE_NOPS) m else Val tt m) /\
  (has_flag FLAG_CSV (c_flags cf) = false -> minimal cf = true \/ Forall (fun b => ~ negative_zero b) (s_main (m_stack m)) ->
   op_csv doc cf m = locktime_outcome cf m (fun x =>
     let n := Z.to_N (sn_val x mod 2 ^ 32) in
     if N.testbit n 31 then Stop (result_of_bool false) m
     else if match doc with None => true | Some d => d_sequence d n end
     then Val tt m else Stop (result_of_error E_UNSATISFIED_LOCKTIME) m)).
Proof. exact csv_exact. Qed.
Print Assumptions C20_checksequenceverify_exact.
Theorem C20_check_locktime : forall lt sq n, check_locktime lt sq n = true <-> locktime_met lt sq (Z.of_N n).
Proof. exact check_locktime_exact. Qed.
Print Assumptions C20_check_locktime.
Theorem C20_check_sequence : forall v sq n, (- 2 ^ 31 <= v < 2 ^ 31)%Z -> check_sequence v sq n = true <-> sequence_met v sq n.
Proof. exact check_sequence_exact. Qed.
Print Assumptions C20_check_sequence.
(* with the flag set an unmet lock passes; without it an unmet lock fails *)
Theorem C20_flag_enforces_refuted : exists m, ~ locktime_met 100 0 200 /\ s_main (m_stack m) = [sn_enc 200] /\
  op_cltv (Some (ex_document 0)) {| c_flags := 2 ^ FLAG_CLTV; c_max_ops := 500; c_max_keys := 20; c_max_memory := 2 ^ 30; c_max_num := 4 |} m = Val tt m /\
  op_cltv (Some (ex_document 0)) ex_old_config m = Stop (result_of_error E_UNSATISFIED_LOCKTIME) m.
Proof.
  exists (ex_machine ex_old_config [sn_enc 200]). split; [intros (H & _); vm_compute in H; congruence|].
  repeat split; vm_compute; reflexivity.
Qed.
Print Assumptions C20_flag_enforces_refuted.
Example C20_example : locktime_met 100 0 100 /\ ~ locktime_met 100 0xffffffff 100 /\ ~ locktime_met 600000000 0 100 /\
  sequence_met 2 100 99 /\ ~ sequence_met 1 100 99 /\
  ex_run ex_old_config [x02; xc8; x00] [OP_CHECKLOCKTIMEVERIFY] = Ret (result_of_error E_UNSATISFIED_LOCKTIME) /\
  ex_run ex_old_config [x01; x64] [OP_CHECKLOCKTIMEVERIFY] = Ret (result_of_bool true).
Proof.
  rewrite <- !(check_locktime_exact _ _ 100), <- !check_sequence_exact by (split; [discriminate|reflexivity]).
  repeat split; vm_compute; (reflexivity || discriminate).
Qed.

(* C63: the operand is reduced modulo 2^32 *)
Theorem C63_locktime_operand_exact_refuted : exists lx, let n := (4294967296)%Z in ~ locktime_met 100 0 n /\
  ex_run ex_old_config (x05 :: sn_enc n) lx = Ret (result_of_bool true) /\ lx = [OP_CHECKLOCKTIMEVERIFY].
Proof. exists [OP_CHECKLOCKTIMEVERIFY]. split; [intros (H & _); vm_compute in H; congruence|]. split; vm_compute; reflexivity. Qed.
Print Assumptions C63_locktime_operand_exact_refuted.
Theorem C63_locktime_operand_small : forall x : bytes, (0 <= sn_val x < 2 ^ 32)%Z -> Z.of_N (Z.to_N (sn_val x mod 2 ^ 32)) = sn_val x.
Proof. intros x H. rewrite Z.mod_small by exact H. apply Z2N.id. apply H. Qed.
Print Assumptions C63_locktime_operand_small.
Example C63_example : (0 <= sn_val [x64] < 2 ^ 32)%Z /\
  ex_run ex_old_config [OP_1; x05; x00; x00; x00; x80; x00] [OP_CHECKSEQUENCEVERIFY] = Ret (result_of_bool false).
Proof. repeat split; vm_compute; congruence. Qed.

(* C21 *)
Theorem C21_run_is_stepping : forall X doc cf neg1 ux lx p r i, setup_program cf neg1 ux lx = Ret (p, r) ->
  2 * len ux + len lx + len neg1 + 2 < 2 ^ 31 -> interpreter cf neg1 ux lx = Ret i ->
  match interp_run X doc cf i with
  | Ret j => in_halt j = true /\ interp_steps X doc cf (S (length p)) i = Some j
  | Undef => interp_steps X doc cf (S (length p)) i = None
  | Throw _ => False
  end.
Proof. exact run_is_stepping. Qed.
Print Assumptions C21_run_is_stepping.
Theorem C21_halted_stays : forall X doc cf k i, in_halt i = true -> interp_steps X doc cf k i = Some i.
Proof. exact halted_steps. Qed.
Print Assumptions C21_halted_stays.
Theorem C21_exceptions_reported : forall X doc cf i e m, in_halt i = false -> step X doc cf (in_counter i) (in_state i) = Exc e m ->
  exists j, interp_step X doc cf i = Some j /\ in_halt j = true /\ in_state j = m /\ in_counter j = in_counter i /\
    in_result j = match e with
                  | X_script r => result_of_error r
                  | X_range => result_of_error E_INVALID_STACK_OPERATION
                  | X_other => result_of_error E_UNKNOWN_ERROR
                  end.
Proof. exact exceptions_reported. Qed.
Print Assumptions C21_exceptions_reported.
Example C21_example : exists i j, interpreter ex_config [x81] [OP_1] [x76; OP_VERIFY] = Ret i /\
  interp_run ex_externals None ex_config i = Ret j /\ in_halt j = true /\ in_result j = result_of_bool true.
Proof. eexists. eexists. split; [vm_compute; reflexivity|]. split; [vm_compute; reflexivity|]. split; reflexivity. Qed.
Example C21_exception_example : exists i j, interpreter ex_config [x81] [] [OP_1; OP_0; OP_NUM2BIN] = Ret i /\
  interp_steps ex_externals None ex_config 3 i = Some j /\ in_halt j = false /\
  exists e m, step ex_externals None ex_config (in_counter j) (in_state j) = Exc e m.
Proof. eexists. eexists. split; [vm_compute; reflexivity|]. split; [vm_compute; reflexivity|]. split; [reflexivity|]. eexists. eexists. vm_compute. reflexivity. Qed.

(* C57 *)
Theorem C57_return_ends_with_success : forall X doc cf p s, segments p s -> len (concat s) < 2 ^ 31 -> forall fuel j k m,
  nth_error (ops p) k = Some OP_RETURN -> genesis cf = true -> m_exec m = [] -> m_ops m < c_max_ops cf ->
  exists m' c', machine_run X doc cf (S fuel) (counter_at s j k) m = Ret (result_of_bool true, m', c').
Proof. exact return_ends. Qed.
Print Assumptions C57_return_ends_with_success.
Theorem C57_data_output_is_spent : forall X doc cf neg1 lx l, decompile lx = Ret (op_instr OP_0 :: op_instr OP_RETURN :: l) ->
  pre_verify (op_instr OP_CODESEPARATOR :: op_instr OP_0 :: op_instr OP_RETURN :: l) (c_flags cf) = E_OK ->
  genesis cf = true -> 2 <= c_max_ops cf -> some_room cf -> len lx + len neg1 + 10 < 2 ^ 31 ->
  evaluate X doc cf neg1 [] lx = Ret (result_of_bool true).
Proof. exact unspendable_spent. Qed.
Print Assumptions C57_data_output_is_spent.
Theorem C57_return_unlocks : forall X doc cf neg1 lx l, decompile lx = Ret l -> valid_program l [] (c_flags cf) = E_OK ->
  genesis cf = true -> has_flag FLAG_SAFE_RETURN (c_flags cf) = true -> has_flag FLAG_SIGPUSHONLY (c_flags cf) = false ->
  has_flag FLAG_P2SH (c_flags cf) = false \/ is_P2SH lx = false -> 1 <= c_max_ops cf -> len lx + len neg1 + 10 < 2 ^ 31 ->
  evaluate X doc cf neg1 [OP_RETURN] lx = Ret (result_of_bool true).
Proof. exact return_unlocks. Qed.
Print Assumptions C57_return_unlocks.
Example C57_example : genesis ex_config = true /\ some_room ex_config /\
  decompile [OP_0; OP_RETURN; x01; x33] = Ret (op_instr OP_0 :: op_instr OP_RETURN :: [{| i_op := x01; i_data := [x33] |}]) /\
  pre_verify (op_instr OP_CODESEPARATOR :: op_instr OP_0 :: op_instr OP_RETURN :: [{| i_op := x01; i_data := [x33] |}]) (c_flags ex_config) = E_OK /\
  valid_program [op_instr OP_0; op_instr OP_VERIFY] [] (c_flags ex_config) = E_OK /\
  ex_run ex_config [OP_RETURN] [OP_0; OP_VERIFY] = Ret (result_of_bool true) /\
  ex_run ex_config [] [OP_0; OP_RETURN; x01; x33] = Ret (result_of_bool true).
Proof. split; [reflexivity|]. split; [right; split; [discriminate|reflexivity]|]. repeat split; vm_compute; reflexivity. Qed.

(* C58 *)
Theorem C58_strict_multisig : forall X d cf c m m', strict d -> small (s_main (m_stack m)) ->
  exec_op X (Some d) cf c OP_CHECKMULTISIG m = Val tt m' ->
  exists pubs sigs q, multisig_stack (s_main (m_stack m)) pubs sigs /\ (length sigs <= length pubs)%nat /\
    nth_error (s_main (m_stack m')) 0 = Some [x01] /\
    forall i sig pub, nth_error sigs i = Some sig -> nth_error pubs i = Some pub -> d_verify d q sig pub = result_of_bool true.
Proof. exact multisig_matches. Qed.
Print Assumptions C58_strict_multisig.
Theorem C58_profiles_are_strict : forall K f v lt sq, has_flag FLAG_NULLFAIL f = true -> has_flag FLAG_REQUIRE_FORKID f = true ->
  strict (document K f v lt sq).
Proof. exact profiles_strict. Qed.
Print Assumptions C58_profiles_are_strict.
(* one signature of two keys: the signature by the key pushed first is an error *)
Theorem C58_any_subset_refuted : exists lx, 
  ex_run ex_strict_config [OP_0; x02; x17; x41] lx = Ret (result_of_error E_SIG_NULLFAIL) /\
  ex_run ex_strict_config [OP_0; x02; x18; x41] lx = Ret (result_of_bool true) /\
  ex_run ex_old_config [OP_0; x02; x17; x01] lx = Ret (result_of_bool true) /\
  lx = [OP_1; x01; x17; x01; x18; x52; OP_CHECKMULTISIG].
Proof. exists [OP_1; x01; x17; x01; x18; x52; OP_CHECKMULTISIG]. repeat split; vm_compute; reflexivity. Qed.
Print Assumptions C58_any_subset_refuted.
Example C58_example : has_flag FLAG_NULLFAIL ex_strict_flags = true /\ has_flag FLAG_REQUIRE_FORKID ex_strict_flags = true /\
  (exists d, forall p s k, d_verify (ex_document d) p s k = verify_signature ex_checks d p s k) /\
  exists m c m', exec_op ex_externals (Some (ex_document ex_strict_flags)) ex_strict_config c OP_CHECKMULTISIG m = Val tt m' /\
    s_main (m_stack m) = [sn_enc 2; [x18]; [x17]; sn_enc 1; [x18; x41]; []].
Proof.
  split; [reflexivity|]. split; [reflexivity|]. split; [exists 0; reflexivity|].
  exists (ex_machine ex_strict_config [sn_enc 2; [x18]; [x17]; sn_enc 1; [x18; x41]; []]), ex_counter. eexists.
  split; [vm_compute; reflexivity|reflexivity].
Qed.

(* C59 *)
Theorem C59_evaluate_throws : forall X doc cf neg1 ux lx, 2 * len ux + len lx + len neg1 + 2 < 2 ^ 31 ->
  (forall e, evaluate X doc cf neg1 ux lx = Throw e -> e = X_EndOfStream) /\
  (decompile ux = Throw X_EndOfStream -> evaluate X doc cf neg1 ux lx = Throw X_EndOfStream) /\
  (forall u, decompile ux = Ret u -> decompile lx = Throw X_EndOfStream -> evaluate X doc cf neg1 ux lx = Throw X_EndOfStream).
Proof. exact evaluate_throws. Qed.
Print Assumptions C59_evaluate_throws.
Example C59_example : ex_run ex_config [] [x4d; x01] = Throw X_EndOfStream /\ ex_run ex_config [] [x04] = Ret (result_of_error E_PUSH_SIZE).
Proof. split; vm_compute; reflexivity. Qed.

(* C60 *)
Theorem C60_negative_zero_misread : forall X doc cf c m d r, minimal cf = false -> 1 <= c_max_num cf -> len d < 128 ->
  s_main (m_stack m) = [x80] :: d :: r ->
  exec_op X doc cf c OP_LEFT m = UB /\ exec_op X doc cf c OP_RIGHT m = UB /\ exec_op X doc cf c OP_SPLIT m = Exc X_other m.
Proof. exact negative_zero_misread. Qed.
Print Assumptions C60_negative_zero_misread.
Example C60_example : minimal ex_old_config = false /\ sn_val [x80] = 0%Z /\
  ex_run ex_old_config [x02; x01; x02] [x01; x80; OP_LEFT] = Undef /\
  ex_run ex_old_config [x02; x01; x02] [x01; x80; OP_SPLIT] = Ret (result_of_error E_UNKNOWN_ERROR) /\
  (exists m, exec_op ex_externals None ex_old_config ex_counter OP_LEFT (ex_machine ex_old_config [[]; [x01; x02]]) = Val tt m).
Proof. split; [reflexivity|]. split; [reflexivity|]. split; [vm_compute; reflexivity|]. split; [vm_compute; reflexivity|]. eexists. vm_compute. reflexivity. Qed.

(* C61: a separator inside a conditional makes every later signature check in it fail *)
Theorem C61_separator_in_conditional_refuted : exists ux lx, 
  ex_run ex_config (ux ++ [OP_1]) (OP_IF :: lx ++ [OP_ENDIF]) = Ret (result_of_bool true) /\
  ex_run ex_config (ux ++ [OP_1]) (OP_IF :: OP_CODESEPARATOR :: lx ++ [OP_ENDIF]) = Ret (result_of_error E_UNKNOWN_ERROR) /\
  ex_run ex_config ux (OP_CODESEPARATOR :: lx) = Ret (result_of_bool true).
Proof. exists [x02; x17; x01], [x01; x17; OP_CHECKSIG]. repeat split; vm_compute; reflexivity. Qed.
Print Assumptions C61_separator_in_conditional_refuted.

(* C62 *)
Theorem C62_anyone_can_spend : forall X doc cf neg1 lx l, decompile lx = Ret l -> valid_program l [] (c_flags cf) = E_OK ->
  has_flag FLAG_SIGPUSHONLY (c_flags cf) = false -> has_flag FLAG_P2SH (c_flags cf) = false \/ is_P2SH lx = false ->
  3 + counted (ops l) <= c_max_ops cf -> some_room cf -> len lx + len neg1 + 10 < 2 ^ 31 ->
  evaluate X doc cf neg1 [OP_1; OP_0; OP_IF; OP_ENDIF] lx = Ret (result_of_bool true).
Proof. exact anyone_can_spend. Qed.
Print Assumptions C62_anyone_can_spend.
Example C62_example : 
  ex_run ex_config [OP_1; OP_0; OP_IF; OP_ENDIF] [x76; xa9; x01; x33; x88; OP_CHECKSIG] = Ret (result_of_bool true) /\
  exists l, decompile [x76; xa9; x01; x33; x88; OP_CHECKSIG] = Ret l /\ valid_program l [] (c_flags ex_config) = E_OK /\
    3 + counted (ops l) <= c_max_ops ex_config.
Proof. split; [vm_compute; reflexivity|]. eexists. split; [vm_compute; reflexivity|]. split; [vm_compute; reflexivity|vm_compute; discriminate]. Qed.

(* C64 *)
Theorem C64_verify_signature_exact : forall K f code sig pub,
  (verify_signature K f code sig pub = result_of_bool true <-> signature_fine K f code sig pub) /\
  (verify_signature K f code sig pub = result_of_bool true \/ verify_signature K f code sig pub = result_of_bool false \/
   exists e, e <> E_OK /\ verify_signature K f code sig pub = result_of_error e) /\
  (verify_signature K f code sig pub = result_of_bool false -> has_flag FLAG_NULLFAIL f = false \/ sig = []).
Proof. exact verify_signature_exact. Qed.
Print Assumptions C64_verify_signature_exact.
Example C64_example : signature_fine ex_checks ex_strict_flags [] [x17; x41] [x17] /\
  verify_signature ex_checks ex_strict_flags [] [x17; x01] [x17] = result_of_error E_MUST_USE_FORKID /\
  verify_signature ex_checks 0 [] [x17; x41] [x17] = result_of_error E_ILLEGAL_FORKID /\
  verify_signature ex_checks ex_strict_flags [] [] [x17] = result_of_error E_MUST_USE_FORKID.
Proof. split; [apply verify_signature_exact; vm_compute; reflexivity|]. repeat split; vm_compute; reflexivity. Qed.

(* C65 *)
Theorem C65_evaluation_is_defined : forall X doc cf, truncating X -> short_hashes X -> minimal cf = true ->
  forall neg1 ux lx, 2 * len ux + len lx + len neg1 + 2 < 2 ^ 31 ->
  has_flag FLAG_GENESIS_STACK (c_flags cf) = false \/ c_max_memory cf < 2 ^ 31 ->
  match setup_program cf neg1 ux lx with
  | Ret _ => exists r, evaluate X doc cf neg1 ux lx = Ret r
  | Throw e => evaluate X doc cf neg1 ux lx = Throw e
  | Undef => False
  end.
Proof. exact evaluate_defined. Qed.
Print Assumptions C65_evaluation_is_defined.
Example C65_example : truncating ex_externals /\ short_hashes ex_externals /\ minimal ex_config = true /\ c_max_memory ex_config < 2 ^ 31.
Proof. split; [intros n m _; split; reflexivity|]. repeat split. Qed.
