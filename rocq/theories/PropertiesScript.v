(* C08 - C11, C55, C56: script instructions, programs, program counter. *)
From Verif Require Import Base ScriptModel ScriptSpec ScriptProofs ProgramProofs.
Local Open Scope N_scope.

(* C08 *)
Theorem C08_push_round_trip : forall d rest, len d < 2 ^ 31 ->
  push_form d (instr_write (push d)) /\
  read_instr (instr_write (push d) ++ rest) = Ret (push d, rest) /\
  compile_instr (push d) = Some (instr_write (push d)) /\
  len (instr_write (push d)) = instr_size (push d).
Proof. exact push_round_trip. Qed.
Print Assumptions C08_push_round_trip.
(* neg1 is what the external class makes of the expression [integer {0x81}] *)
Theorem C08_push_data : forall neg1 d, len d < 2 ^ 31 ->
  push_value neg1 (push d) = if bytes_eqb d [x81] then neg1 else d.
Proof. exact push_value_push. Qed.
Print Assumptions C08_push_data.
Theorem C08_reader_exact : forall b i rest, read_instr b = Ret (i, rest) <-> exists c, b = c ++ rest /\ is_inst i c.
Proof. exact read_instr_exact. Qed.
Print Assumptions C08_reader_exact.
Example C08_example : len (repeat x07 300) < 2 ^ 31 /\ i_op (push (repeat x07 300)) = x4d /\
  push_value [x81] (push [x81]) = [x81] /\ push_value [x81; x00] (push [x81]) <> [x81] /\
  read_instr [x02; x0a; x0b; xac] = Ret ({| i_op := x02; i_data := [x0a; x0b] |}, [xac]).
Proof. repeat split. discriminate. Qed.

(* C09 *)
Theorem C09_push_is_shortest : forall d c, len d < 2 ^ 31 -> push_form d c ->
  len (instr_write (push d)) <= len c /\ (len (instr_write (push d)) = len c -> c = instr_write (push d)).
Proof. exact push_shortest. Qed.
Print Assumptions C09_push_is_shortest.
Theorem C09_push_accepted_exact : forall d, len d < 2 ^ 31 ->
  is_minimal_instruction (push d) = negb ((len d =? 256) || (len d =? 65536)).
Proof. exact push_minimal_exact. Qed.
Print Assumptions C09_push_accepted_exact.
Theorem C09_minimal_is_push : forall b i r, read_instr b = Ret (i, r) -> len b < 2 ^ 31 -> is_push_op (i_op i) = true ->
  (is_minimal_instruction i = true <-> exists d, i = push d /\ len d < 2 ^ 31 /\ len d <> 256 /\ len d <> 65536).
Proof. exact minimal_read_exact. Qed.
Print Assumptions C09_minimal_is_push.
Example C09_example : is_minimal_instruction (push (repeat x07 256)) = false /\
  is_minimal_instruction (push (repeat x07 257)) = true /\ is_minimal_instruction (push (repeat x07 255)) = true /\
  push_form [x05] [x01; x05] /\ push_form [x05] [x55] /\ instr_write (push [x05]) = [x55].
Proof. repeat split; [apply (pf_direct [x05]) | apply (pf_small 5)]; vm_compute; try split; discriminate. Qed.

(* C55 *)
Theorem C55_min_push_size_exact : forall d, len d < 2 ^ 31 ->
  (min_push_size d = len (instr_write (push d)) <-> len d <> 75 /\ len d <> 255 /\ len d <> 65535) /\
  (len d = 75 -> min_push_size d = 77) /\ (len d = 255 -> min_push_size d = 258) /\ (len d = 65535 -> min_push_size d = 65540).
Proof. exact min_push_size_exact. Qed.
Print Assumptions C55_min_push_size_exact.
Example C55_example : len (instr_write (push (repeat x07 75))) = 76 /\ min_push_size (repeat x07 75) = 77 /\
  min_push_size (repeat x07 74) = len (instr_write (push (repeat x07 74))).
Proof. repeat split. Qed.

(* C10 *)
Theorem C10_compile_after_decompile : forall b p, decompile b = Ret p -> len b < 2 ^ 32 -> compile p = Some b.
Proof. exact compile_decompile. Qed.
Print Assumptions C10_compile_after_decompile.
Theorem C10_decompile_is_parsing : forall b p, decompile b = Ret p ->
  exists s, segments p s /\ b = concat s /\ Forall known_op (ops p).
Proof. exact decompile_segments. Qed.
Print Assumptions C10_decompile_is_parsing.
Theorem C10_decompile_after_compile : forall p s, segments p s ->
  (Forall known_op (ops p) -> balanced (ops p) -> decompile (concat s) = Ret p) /\
  (decompile (concat s) = Ret p \/
   (decompile (concat s) = Throw (X_Invalid E_BAD_OPCODE) /\ ~ Forall known_op (ops p)) \/
   (decompile (concat s) = Throw (X_Invalid E_UNBALANCED_CONDITIONAL) /\ ~ balanced (ops p))).
Proof. exact decompile_of_segments. Qed.
Print Assumptions C10_decompile_after_compile.
Theorem C10_compile_is_concatenation : forall p s, segments p s -> len (concat s) < 2 ^ 32 -> compile p = Some (concat s).
Proof. exact compile_segments. Qed.
Print Assumptions C10_compile_is_concatenation.
Theorem C10_decompile_total : forall b, decompile b <> Throw X_Fuel /\ decompile b <> Undef.
Proof. exact decompile_total. Qed.
Print Assumptions C10_decompile_total.
(* the only way an exception other than invalid_program leaves decompile: a cut-off PUSHDATA size *)
Theorem C10_end_of_stream : forall b, decompile b = Throw X_EndOfStream ->
  exists p s o t, segments p s /\ b = concat s ++ o :: t /\ (length t < size_bytes o)%nat.
Proof. exact decompile_eos. Qed.
Print Assumptions C10_end_of_stream.
Definition example_script : bytes := [x51; x63; x02; xaa; xbb; x67; x00; x68; xab; x4c; x01; xff; xac].
Definition example_program : program :=
  [op_instr x51; op_instr x63; {| i_op := x02; i_data := [xaa; xbb] |}; op_instr x67; op_instr x00;
   op_instr x68; op_instr xab; {| i_op := x4c; i_data := [xff] |}; op_instr xac].
Example C10_example : decompile example_script = Ret example_program /\ compile example_program = Some example_script /\
  decompile [x4d; x01] = Throw X_EndOfStream /\ decompile [x63] = Ret [op_instr x63] /\
  decompile [x68] = Throw (X_Invalid E_UNBALANCED_CONDITIONAL).
Proof. repeat split. Qed.

(* C56 *)
Theorem C56_pre_verify_exact : forall p f, pre_verify p f = E_OK <->
  (Forall (fun i => instr_verify f i = E_OK) p /\ balanced (ops p) /\
     (In OP_RETURN (ops p) -> has_flag FLAG_SAFE_RETURN f = true)) \/
  (has_flag FLAG_SAFE_RETURN f = false /\ ops p = [OP_RETURN]) \/
  (has_flag FLAG_SAFE_RETURN f = true /\ exists j, p = [op_instr OP_0; j] /\ i_op j = OP_RETURN).
Proof. exact pre_verify_exact. Qed.
Print Assumptions C56_pre_verify_exact.
Example C56_example : balanced (ops example_program) /\ pre_verify example_program chronicle_profile = E_OK /\
  pre_verify [op_instr x63] chronicle_profile = E_UNBALANCED_CONDITIONAL /\
  pre_verify [op_instr x63; op_instr x67; op_instr x67; op_instr x68] chronicle_profile = E_UNBALANCED_CONDITIONAL.
Proof.
  split; [|repeat split]. cbn.
  assert (P : forall o l, negb (byte_eqb o x63 || byte_eqb o x64 || byte_eqb o x67 || byte_eqb o x68) = true -> balanced l -> balanced (o :: l)).
  { intros o l H B. apply bal_op; [|assumption]. intros [-> | [-> | [-> | ->]]]; discriminate. }
  apply P; [reflexivity|]. apply (bal_else x63 [x02] [x00] [xab; x4c; xac]); auto; repeat (apply P; [reflexivity|]); constructor.
Qed.

(* C11 *)
Theorem C11_counter_visits_instructions : forall p s k, segments p s -> len (concat s) < 2 ^ 31 ->
  exists c0 c j, pc_start (concat s) = Ret c0 /\ pc_steps k c0 = Ret c /\
    pc_next c = nth k s [] /\ pc_script c = concat s /\ pc_pos c = len (concat (firstn k s)) /\
    after_last_separator p k j /\ pc_sep c = len (concat (firstn j s)) /\
    script_code c = decompile (concat (skipn j s)).
Proof. exact counter_visits. Qed.
Print Assumptions C11_counter_visits_instructions.
Theorem C11_any_bytes : forall s n, pc_read s = Ret n ->
  exists r, s = n ++ r /\ (s <> [] -> n <> []) /\ (r <> [] -> exists i, is_inst i n).
Proof. exact pc_read_prefix. Qed.
Print Assumptions C11_any_bytes.
(* "never reads outside the script" is false for raw bytes: exactly these scripts *)
Theorem C11_overread_exact : forall s, pc_read s = Undef <->
  exists size r, s = x4e :: le 4 size ++ r /\ 2 ^ 32 - 5 <= size < 2 ^ 32 /\ len r < size.
Proof. exact pc_read_undef_exact. Qed.
Print Assumptions C11_overread_exact.
Theorem C11_stays_inside_refuted : exists s, len s < 10 /\ pc_start s = Undef.
Proof. exact (ex_intro _ [x4e; xff; xff; xff; xff; x01] (conj eq_refl eq_refl)). Qed.
Print Assumptions C11_stays_inside_refuted.
Example C11_example : exists s, segments example_program s /\ concat s = example_script.
Proof.
  eexists. split.
  - unfold example_program.
    repeat (apply seg_cons; [first [apply if_op; reflexivity
        | apply (if_direct [xaa; xbb]); vm_compute; discriminate | apply (if_data1 [xff]); reflexivity
        | apply (if_direct []); vm_compute; discriminate]|]). apply seg_nil.
  - reflexivity.
Qed.
