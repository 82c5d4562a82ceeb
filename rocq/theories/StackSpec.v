(* What the limits of the two-stack mean, independently of how they are enforced. *)
From Verif Require Import Base NumModel StackModel.
Local Open Scope N_scope.

(* total of element sizes plus 32 bytes for each element *)
Definition footprint (l : list bytes) : N :=
  fold_right (fun x n => len x + n) 0 l + 32 * N.of_nat (length l).

(* a pair of stacks within the limits *)
Definition fits (l : limits) (main alt : list bytes) : Prop :=
  match l with
  | Count msize melem => Forall (fun x => len x <= msize) (main ++ alt) /\
                         N.of_nat (length main) + N.of_nat (length alt) <= melem
  | Memory max => footprint main + footprint alt <= max
  end.

(* the counter agrees with the contents *)
Definition accounted (s : stack) : Prop :=
  match s_lim s with
  | Count _ _ => True
  | Memory _ => s_mem s = footprint (s_main s) + footprint (s_alt s)
  end.

(* every default limit of the library is at most INT64_MAX *)
Definition capped (l : limits) : Prop := match l with Count _ _ => True | Memory max => max < 2 ^ 63 end.

Definition good (s : stack) : Prop :=
  fits (s_lim s) (s_main s) (s_alt s) /\ accounted s /\ capped (s_lim s).

Definition becomes (s s' : stack) (main alt : list bytes) : Prop :=
  s_lim s' = s_lim s /\ s_main s' = main /\ s_alt s' = alt /\ good s'.

(* the operations of two_stack, for histories *)
Inductive stack_op : Type :=
| Op_push (x : bytes)
| Op_pop
| Op_erase (i : Z)
| Op_erase_range (first last : Z)
| Op_insert (i : Z) (x : bytes)
| Op_to_alt
| Op_from_alt
| Op_swap (d1 d2 : N)
| Op_replace (x : bytes).

Definition do_op (o : stack_op) : SO unit :=
  match o with
  | Op_push x => push_back x
  | Op_pop => pop_back
  | Op_erase i => erase i
  | Op_erase_range f l => erase_range f l
  | Op_insert i x => insert i x
  | Op_to_alt => to_alt
  | Op_from_alt => from_alt
  | Op_swap a b => swap a b
  | Op_replace x => replace_back x
  end.

(* strings that exist in memory *)
Definition op_sane (o : stack_op) : Prop :=
  match o with
  | Op_push x | Op_insert _ x | Op_replace x => len x < 2 ^ 62
  | _ => True
  end.

(* a history stops at the first exception, as evaluation of a script does *)
Fixpoint do_ops (l : list stack_op) : SO unit :=
  match l with
  | [] => mret tt
  | o :: r => do_op o ;;; do_ops r
  end.
