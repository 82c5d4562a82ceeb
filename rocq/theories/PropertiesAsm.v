(* C108: the text of scripts and of instructions. *)
From Coq Require Import String.
From Verif Require Import Base TextModel Bip44Model ScriptModel ScriptSpec AsmModel AsmSpec AsmProofs AsmMore AsmExamples.
Local Open Scope list_scope.
Local Open Scope N_scope.

(* Two scripts that can be parsed have the same text exactly when they have the same opcodes and push the same data, except that a script
   which pushes nothing with OP_PUSHDATA1, OP_PUSHDATA2 or OP_PUSHDATA4 looks like the empty script. *)
Theorem C108_same_text : forall (up : bool) (a b : bytes) (p q : program), decompile a = Ret p -> decompile b = Ret q ->
  asm up a = asm up b <-> alike p q \/ (p = [] /\ empty_push q) \/ (empty_push p /\ q = []).
Proof. exact asm_exact. Qed.
Print Assumptions C108_same_text.
Example C108_same_text_example : forall up, asm up [] = Ret [] /\ asm up [x4c; x00] = Ret [] /\ decompile [x4c; x00] = Ret [{| i_op := x4c; i_data := [] |}].
Proof. exact empty_refuted. Qed.

(* The text of a script in which every push is minimal determines the script, as promised. *)
Theorem C108_unique : forall (up : bool) (a b : bytes), is_minimal_script a = Ret true -> is_minimal_script b = Ret true -> asm up a = asm up b -> a = b.
Proof. exact asm_unique. Qed.
Print Assumptions C108_unique.
Example C108_unique_example : is_minimal_script ex_script = Ret true /\ asm false ex_script = Ret (text "0 abcd OP_DUP OP_2") /\ asm true ex_script = Ret (text "0 ABCD OP_DUP OP_2").
Proof. exact asm_example. Qed.

(* The text of a script that is not minimal does not. *)
Theorem C108_unique_refuted : exists a b, a <> b /\ forall up, asm up a = asm up b /\ exists t, asm up a = Ret t.
Proof. exact asm_refuted. Qed.
Print Assumptions C108_unique_refuted.

(* There is no text of a script that cannot be parsed: writing it throws what parsing throws. Output scripts can hold anything, so writing
   a transaction can throw. *)
Theorem C108_throws : forall (up : bool) (b : bytes) (e : sexn), asm up b = Throw e <-> decompile b = Throw e.
Proof. exact asm_throws. Qed.
Print Assumptions C108_throws.
Example C108_throws_example : forall up, asm up [x02; x01] = Throw (X_Invalid E_PUSH_SIZE) /\ asm up [xba] = Throw (X_Invalid E_BAD_OPCODE) /\ asm up [x6a; x05] = Throw (X_Invalid E_PUSH_SIZE).
Proof. exact asm_throws_example. Qed.

(* The text of an instruction determines it, if its opcode has a name. *)
Theorem C108_instruction : forall (up : bool) (i j : instr), instr_fits i -> instr_fits j -> named (i_op i) -> named (i_op j) -> instr_text up i = instr_text up j <-> i = j.
Proof. exact instr_text_exact. Qed.
Print Assumptions C108_instruction.
Example C108_instruction_example : forall up,
  instr_fits {| i_op := x01; i_data := [xaa] |} /\ named x01 /\ instr_text false {| i_op := x01; i_data := [xaa] |} = text "push_size_1{aa}" /\ instr_text up {| i_op := x00; i_data := [] |} = text "push_empty{}" /\
  asm_instr up {| i_op := xba; i_data := [] |} = asm_instr up {| i_op := xbb; i_data := [] |}.
Proof. exact instr_example. Qed.

(* The opcodes without a name all look the same. *)
Theorem C108_unnamed : forall (up : bool) (o : byte), ~ named o ->
  asm_instr up {| i_op := o; i_data := [] |} = text "OP_UNKNOWN" /\ instr_text up {| i_op := o; i_data := [] |} = text "OP_UNKNOWN".
Proof. exact unnamed_text. Qed.
Print Assumptions C108_unnamed.

(* The text of an opcode determines it, if it has a name; a size is written as a number. *)
Theorem C108_code : forall a b : byte, named a -> named b -> op_text a = op_text b <-> a = b.
Proof. exact op_text_exact. Qed.
Print Assumptions C108_code.
Theorem C108_code_size : forall o : byte, 1 <= b2n o <= 75 -> op_text o = to_string (b2n o).
Proof. exact op_text_size. Qed.
Print Assumptions C108_code_size.
Example C108_code_example : named x4b /\ op_text x4b = text "75" /\ op_text x51 = text "OP_1" /\ op_text x4f <> op_text x51.
Proof. split; [left; reflexivity|]. split; [reflexivity|]. split; [reflexivity|discriminate]. Qed.
