(* The check of the scripts in SPV.cpp 185-195, with the interpreter: Bitcoin::evaluate of interpreter.hpp 34-37 with the document of the
   input and the rules that go with the time. *)
From Verif Require Import Base WireModel ScriptModel StackModel MachineModel SighashModel RedeemSpec.
Local Open Scope N_scope.

(* SPV.cpp 189-192 *)
Definition rules (before : bool) : config := script_config (if before then pre_genesis_profile else genesis_profile) false.
(* script.hpp 37-59: a result is true when it is success without an error. An exception ends the validation: it is not taken for a success. *)
Definition script_passes (w : world) (X : externals) (before : bool) (ux lx : bytes) (t : itx) (i : N) (v : Z) : bool :=
  match evaluate X (redeeming w (c_flags (rules before)) t i v) (rules before) (w_neg1 w) ux lx with
  | Ret r => r_verify r
  | _ => false
  end.
