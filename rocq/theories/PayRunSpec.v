(* When outputs that pay to an address or to a public key can be spent. *)
From Verif Require Import Base ScriptModel ScriptSpec StackSpec MachineModel MachineSpec PatternModel StraightSpec.
Local Open Scope N_scope.

Definition address_program (d : bytes) : program :=
  [op_instr OP_DUP; op_instr OP_HASH160; push d; op_instr OP_EQUALVERIFY; op_instr OP_CHECKSIG].
Definition pubkey_program (k : bytes) : program := [push k; op_instr OP_CHECKSIG].

(* enough memory and operations *)
Definition enough (cf : config) (memory operations : N) : Prop := ample memory (limits_of cf) /\ operations <= c_max_ops cf.

(* the unlocking script u pushes a key with the address d and a signature for it *)
Definition address_unlocked (X : externals) (doc : option rdoc) (cf : config) (d : bytes) (u : program) : Prop :=
  exists sig key rest, stack_after u = key :: sig :: rest /\ x_ripemd160 X (x_sha256 X key) = d /\
    signed doc (address_program d) sig key /\ clean cf rest /\ well_pushed cf u.
(* the unlocking script u pushes a signature for the key k *)
Definition pubkey_unlocked (doc : option rdoc) (cf : config) (k : bytes) (u : program) : Prop :=
  exists sig rest, stack_after u = sig :: rest /\ signed doc (pubkey_program k) sig k /\ clean cf rest /\ well_pushed cf u.
