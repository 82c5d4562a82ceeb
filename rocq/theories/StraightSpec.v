(* Scripts without conditions: what the table of opcodes says about the whole of them, and about the evaluation of
   an unlocking script that only pushes and a locking script that ends with a signature check. *)
From Verif Require Import Base ScriptModel NumModel NumSpec StackModel StackSpec MachineModel MachineSpec.
Local Open Scope N_scope.

Section Straight.
Variable X : externals.
Variable cf : config.

(* all the instructions of p, one after the other *)
Fixpoint table_run (p : program) (s a : list bytes) : option stacks :=
  match p with
  | [] => Some (s, a)
  | i :: q => match instr_effect X cf i s a with Some (s', a') => table_run q s' a' | None => None end
  end.

(* the room that both stacks take *)
Definition room (s a : list bytes) : N := footprint s + footprint a.
(* instructions that the table describes *)
Definition direct (i : instr) (s : list bytes) : Prop :=
  impure (i_op i) = false /\ i_op i <> OP_CODESEPARATOR /\ (positional (i_op i) = true -> no_negative_zero cf (i_op i) s).
(* the table gives R for p, and no more than B is needed on the way *)
Inductive runs (B : N) : program -> list bytes -> list bytes -> option stacks -> Prop :=
| runs_end s a : room s a <= B -> runs B [] s a (Some (s, a))
| runs_on i q s a s' a' R : room s a <= B -> direct i s -> instr_effect X cf i s a = Some (s', a') -> runs B q s' a' R ->
    runs B (i :: q) s a R
| runs_stop i q s a : room s a <= B -> direct i s -> instr_effect X cf i s a = None -> runs B (i :: q) s a None.
End Straight.

(* limits under which every pair of stacks that needs no more than B is allowed *)
Definition ample (B : N) (l : limits) : Prop :=
  match l with Memory max => B <= max | Count msize melem => B <= msize /\ B <= 32 * melem end.
Definition limits_of (cf : config) : limits :=
  if has_flag FLAG_GENESIS_STACK (c_flags cf) then Memory (c_max_memory cf)
  else Count MAX_ELEMENT_BEFORE_GENESIS MAX_ELEMENTS_BEFORE_GENESIS.

(* the machine between two instructions, outside of conditions *)
Definition at_level (lv : list bool * list bool) (cf : config) (m : mstate) (s a : list bytes) (n : N) : Prop :=
  good (m_stack m) /\ s_lim (m_stack m) = limits_of cf /\ s_main (m_stack m) = s /\ s_alt (m_stack m) = a /\
  (m_exec m, m_else m) = lv /\ m_ops m = n.
Definition at_rest : config -> mstate -> list bytes -> list bytes -> N -> Prop := at_level ([], []).

(* what an instruction that pushes leaves on the stack, and what a script that only pushes leaves *)
Definition pushed_by (i : instr) : bytes := push_value [x81] i.
Definition stack_after (u : program) : list bytes := rev (map pushed_by u).

(* the script spends an output when evaluation gives true *)
Definition spends (X : externals) (doc : option rdoc) (cf : config) (neg1 ux lx : bytes) : Prop :=
  evaluate X doc cf neg1 ux lx = Ret (result_of_bool true).
(* the document accepts the signature, the script code being l without the signature *)
Definition signed (doc : option rdoc) (l : program) (sig pub : bytes) : Prop :=
  match doc with None => True | Some d => d_verify d (cleanup_script_code l sig) sig pub = result_of_bool true end.
(* what is asked of the way in which data are pushed *)
Definition well_pushed (cf : config) (p : program) : Prop :=
  has_flag FLAG_MINIMALDATA (c_flags cf) = true -> Forall (fun i => is_minimal_instruction i = true) p.
Definition clean (cf : config) (rest : list bytes) : Prop := has_flag FLAG_CLEANSTACK (c_flags cf) = true -> rest = [].
(* division truncates toward zero; hash functions give digests of their sizes *)
Definition standard (X : externals) : Prop :=
  truncating X /\ forall b, len (x_ripemd160 X b) = 20 /\ len (x_sha1 X b) = 20 /\ len (x_sha256 X b) = 32.
