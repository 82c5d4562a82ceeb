(* Limits for scripts and the profiles of flags. *)
From Verif Require Import Base ScriptModel MachineModel.
Local Open Scope N_scope.

(* the values that may be asked for: before custom limits only the usual ones *)
Definition allowed (custom : bool) (ops keys mem num size : N) : Prop :=
  if custom then ops < 2 ^ 32 /\ keys < 2 ^ 32 /\ 4 <= num <= 750000 /\ size < 2 ^ 32
  else ops = 500 /\ keys = 20 /\ mem = 2 ^ 63 - 1 /\ num = 4 /\ size = 10000.

(* a configuration with the given limits *)
Definition limited (c : config) (f : flag) (ops keys mem num : N) : Prop :=
  c_flags c = f /\ c_max_ops c = ops /\ c_max_keys c = keys /\ c_max_memory c = mem /\ c_max_num c = num.

(* the flags of one profile that the other has not *)
Definition only_in (p q : flag) (l : list N) : Prop :=
  forall k, has_flag k p = true /\ has_flag k q = false <-> In k l.
