(* Outputs for whoever knows what has a hash, without conditions: with and without a signature. *)
From Verif Require Import Base ScriptModel MachineModel PatternModel.

Definition hash_op (o : byte) : Prop := o = OP_RIPEMD160 \/ o = OP_SHA1 \/ o = OP_SHA256 \/ o = OP_HASH160 \/ o = OP_HASH256.
(* the hash functions as Bitcoin has them *)
Definition digest (X : externals) (o : byte) (x : bytes) : bytes :=
  if byte_eqb o OP_RIPEMD160 then x_ripemd160 X x else if byte_eqb o OP_SHA1 then x_sha1 X x else if byte_eqb o OP_SHA256 then x_sha256 X x
  else if byte_eqb o OP_HASH160 then x_ripemd160 X (x_sha256 X x) else x_sha256 X (x_sha256 X x).
Definition puzzle (o : byte) (h : bytes) : program := [op_instr o; push h; op_instr OP_EQUAL].
Definition puzzle_key (o : byte) (h k : bytes) : program := [op_instr o; push h; op_instr OP_EQUALVERIFY; push k; op_instr OP_CHECKSIG].
