(* What script bytes mean, independently of the code: which byte strings denote a push of given
   data, which denote one instruction, and which opcode sequences have balanced conditionals. *)
From Verif Require Import Base ScriptModel.
Local Open Scope N_scope.

(* [push_form d c]: the bytes c are an instruction that pushes d *)
Inductive push_form : bytes -> bytes -> Prop :=
| pf_direct d : len d <= 75 -> push_form d (n2b (len d) :: d)
| pf_data1 d : len d < 2 ^ 8 -> push_form d (x4c :: le 1 (len d) ++ d)
| pf_data2 d : len d < 2 ^ 16 -> push_form d (x4d :: le 2 (len d) ++ d)
| pf_data4 d : len d < 2 ^ 32 -> push_form d (x4e :: le 4 (len d) ++ d)
| pf_minus1 : push_form [x81] [x4f]
| pf_small k : 1 <= k <= 16 -> push_form [n2b k] [n2b (0x50 + k)].

(* [inst_form o d c]: the bytes c are exactly one instruction with opcode byte o and inline data d *)
Inductive inst_form : byte -> bytes -> bytes -> Prop :=
| if_direct d : len d <= 75 -> inst_form (n2b (len d)) d (n2b (len d) :: d)
| if_data1 d : len d < 2 ^ 8 -> inst_form x4c d (x4c :: le 1 (len d) ++ d)
| if_data2 d : len d < 2 ^ 16 -> inst_form x4d d (x4d :: le 2 (len d) ++ d)
| if_data4 d : len d < 2 ^ 32 -> inst_form x4e d (x4e :: le 4 (len d) ++ d)
| if_op o : 0x4e < b2n o -> inst_form o [] [o].

Definition is_inst (i : instr) (c : bytes) : Prop := inst_form (i_op i) (i_data i) c.

(* opcodes that have a meaning: everything below 0xba except 0x50, 0x89 and 0x8a *)
Definition known_op (o : byte) : Prop :=
  b2n o < 0xba /\ b2n o <> 0x50 /\ b2n o <> 0x89 /\ b2n o <> 0x8a.

Definition control_op (o : byte) : Prop := o = OP_IF \/ o = OP_NOTIF \/ o = OP_ELSE \/ o = OP_ENDIF.

(* Conditionals are properly nested, each with at most one ELSE. *)
Inductive balanced : list byte -> Prop :=
| bal_nil : balanced []
| bal_op o p : ~ control_op o -> balanced p -> balanced (o :: p)
| bal_if o a p : o = OP_IF \/ o = OP_NOTIF -> balanced a -> balanced p -> balanced (o :: a ++ OP_ENDIF :: p)
| bal_else o a b p : o = OP_IF \/ o = OP_NOTIF -> balanced a -> balanced b -> balanced p ->
    balanced (o :: a ++ OP_ELSE :: b ++ OP_ENDIF :: p).

Definition ops (p : program) : list byte := map i_op p.

(* [segments p b]: b is the concatenation of one encoding per instruction of p *)
Inductive segments : program -> list bytes -> Prop :=
| seg_nil : segments [] []
| seg_cons i p c s : is_inst i c -> segments p s -> segments (i :: p) (c :: s).

(* j is the index just after the last OP_CODESEPARATOR among the first k instructions, or 0 *)
Definition after_last_separator (p : program) (k j : nat) : Prop :=
  (j <= k)%nat /\
  (j = O \/ nth_error (ops p) (j - 1) = Some OP_CODESEPARATOR) /\
  (forall m, (j <= m < k)%nat -> nth_error (ops p) m <> Some OP_CODESEPARATOR).

(* the number of length bytes that follow OP_PUSHDATA1, OP_PUSHDATA2, OP_PUSHDATA4 *)
Definition size_bytes (o : byte) : nat := if byte_eqb o x4c then 1 else if byte_eqb o x4d then 2 else if byte_eqb o x4e then 4 else 0.
