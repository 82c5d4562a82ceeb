(* Outputs for whoever knows what has a hash, or else for someone else. *)
From Verif Require Import Base ScriptModel MachineModel PatternModel.

(* the first branch asks for the hash h and for the key k, whose signature is to be checked after both branches *)
Definition hash_lock (h k : bytes) (rest : program) : program :=
  op_instr OP_IF :: op_instr OP_SHA256 :: push h :: op_instr OP_EQUALVERIFY :: push k :: op_instr OP_ELSE :: rest.
(* with a second branch that another key may use once a time has come *)
Definition hash_or_time (h k : bytes) (t : bytes) (k2 : bytes) : program :=
  hash_lock h k [push t; op_instr OP_CHECKLOCKTIMEVERIFY; op_instr OP_DROP; push k2; op_instr OP_ENDIF; op_instr OP_CHECKSIG].
(* the signature is checked in the branch, by an opcode that ends the script when the signature is good *)
Definition signed_lock (h k : bytes) (rest : program) : program :=
  op_instr OP_IF :: op_instr OP_SHA256 :: push h :: op_instr OP_EQUALVERIFY :: push k :: op_instr OP_CHECKSIGVERIFY :: rest.
