(* When outputs that ask for several signatures can be spent. *)
From Verif Require Import Base ScriptModel NumModel StackModel StackSpec MachineModel MachineSpec StraightSpec MultiSpec.
Local Open Scope N_scope.

(* the locking script for m signatures by n keys: m, the keys, n and OP_CHECKMULTISIG *)
Definition multi_pushed (m : nat) (keys : list bytes) : list bytes :=
  sn_enc (Z.of_nat m) :: keys ++ [sn_enc (Z.of_nat (length keys))].
Definition multi_program (m : nat) (keys : list bytes) : program := map push (multi_pushed m keys) ++ [op_instr OP_CHECKMULTISIG].

(* the unlocking script u pushes one element and m signatures that go with the keys; they are tried from the last
   on. Below them there may be more. *)
Definition multi_unlocked (doc : option rdoc) (cf : config) (m : nat) (keys : list bytes) (u : program) : Prop :=
  exists sigs dummy rest, stack_after u = rev sigs ++ dummy :: rest /\ length sigs = m /\
    tried (multi_check doc (multi_program m keys) (rev (multi_pushed m keys) ++ stack_after u) m) (rev sigs) (rev keys) (inr true) /\
    (has_flag FLAG_NULLDUMMY (c_flags cf) = true -> dummy = []) /\ clean cf rest /\ well_pushed cf u.

(* how a signature is checked for such a script: the signatures are removed from it *)
Definition multi_verify (doc : option rdoc) (m : nat) (keys sigs : list bytes) : bytes -> bytes -> result :=
  match doc with
  | None => fun _ _ => result_of_bool true
  | Some d => d_verify d (fold_left cleanup_script_code sigs (multi_program m keys))
  end.
