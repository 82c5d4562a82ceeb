(* When boost outputs can be spent. *)
From Verif Require Import Base ScriptModel ScriptSpec NumModel NumSpec StackModel StackSpec MachineModel MachineSpec.
From Verif Require Import WireSpec WorkModel WorkSpec PatternModel PatternSpec BoostModel BoostSpec StraightSpec PayRunSpec.
Local Open Scope N_scope.

Section BoostRun.
Variable X : externals.
Variable doc : option rdoc.
Variable cf : config.

Definition hash256 (b : bytes) : bytes := x_sha256 X (x_sha256 X b).
Definition hash160 (b : bytes) : bytes := x_ripemd160 X (x_sha256 X b).

(* the targets that the script can compute with: those of one of the exponents 3 to 32 and a positive mantissa *)
Definition computable (t : N) : Prop := 3 <= exponent_of t <= 32 /\ negative t = false /\ 0 < mantissa_of t.
(* and numbers of this size are allowed *)
Definition computed_by (t : N) : Prop := computable t /\ expand t < 2 ^ (8 * c_max_num cf - 1).

(* the version: bits 13 to 28 come from the miner *)
Definition version_bytes (category bits : bytes) : bytes :=
  le 4 (N.lor (N.land (le_val category) 0xE0001FFF) (N.land (le_val bits) 0x1FFFE000)).
(* the header of the work *)
Definition raw_header (o : output) (hash bits extra1 extra2 timestamp nonce : bytes) : bytes :=
  (if bo_bits o then version_bytes (sle 4 (bo_category o)) bits else sle 4 (bo_category o)) ++ bo_content o ++
  hash256 (bo_tag o ++ hash ++ extra1 ++ extra2 ++ le 4 (bo_nonce o) ++ bo_data o) ++ timestamp ++ le 4 (bo_target o) ++ nonce.

(* the unlocking script u presents valid work, by the owner of a key *)
Definition boost_unlocked (o : output) (u : program) : Prop :=
  exists hash bits extra1 extra2 timestamp nonce key sig rest,
    stack_after u = (match bo_type o with Contract => [] | _ => [hash] end) ++ (if bo_bits o then [bits] else []) ++
                    [extra1; extra2; timestamp; nonce; key; sig] ++ rest /\
    (bo_type o = Contract -> hash = bo_hash o) /\
    (len extra1 = 4 /\ (if bo_bits o then len bits = 4 /\ len extra2 <= 32 else len extra2 = 8) /\ len timestamp = 4 /\ len nonce = 4) /\
    (computed_by (bo_target o) /\ le_val (hash256 (raw_header o hash bits extra1 extra2 timestamp nonce)) < expand (bo_target o)) /\
    hash160 key = hash /\ signed doc (output_program o) sig key /\ clean cf rest /\
    well_pushed cf u /\ well_pushed cf [push (bo_tag o); push (bo_data o)].
End BoostRun.

(* the two scripts that the library writes: a valid proof of work, for a target that the script can compute with, by the owner of the
   key with the miner's address *)
Definition boost_redeemed (X : externals) (doc : option rdoc) (cf : config) (o : output) (i : input) : Prop :=
  bproof_valid (hash256 X) (proof_of o i) = true /\ computed_by cf (bo_target o) /\ hash160 X (bi_key i) = miner_hash o i /\
  signed doc (output_program o) (bi_sig i) (bi_key i) /\ well_pushed cf [push (bi_sig i); push (bo_tag o); push (bo_data o)].
