(* What the text of a script says. *)
From Verif Require Import Base ScriptModel ScriptSpec.
Local Open Scope N_scope.

(* the parts of the text: OP_0, data that are pushed, any other opcode *)
Inductive word := Zero | Data (d : bytes) | Code (o : byte).
Definition word_of (i : instr) (w : word) : Prop :=
  (i_op i = x00 /\ w = Zero) \/ (0 < b2n (i_op i) <= 0x4e /\ w = Data (i_data i)) \/ (0x4e < b2n (i_op i) /\ w = Code (i_op i)).
(* two programs that push the same data and have the same opcodes *)
Definition alike (p q : program) : Prop := Forall2 (fun i j => exists w, word_of i w /\ word_of j w) p q.
(* a push of nothing by OP_PUSHDATA1, OP_PUSHDATA2 or OP_PUSHDATA4 alone *)
Definition empty_push (p : program) : Prop := exists o, In o [x4c; x4d; x4e] /\ p = [{| i_op := o; i_data := [] |}].
(* an instruction as it can be in a program *)
Definition instr_fits (i : instr) : Prop := (0x4e < b2n (i_op i) -> i_data i = []) /\ (b2n (i_op i) <= 75 -> len (i_data i) = b2n (i_op i)).
Definition named (o : byte) : Prop := b2n o < 0xba \/ o = xff.
