(* The two-stack of the script machine.
   /repo/src/gigamonkey/include/gigamonkey/script/stack.hpp, src/gigamonkey/script/stack.cpp.
   A C++ vector is a list with the back of the vector at the head of the list. *)
From Verif Require Import Base ScriptModel NumModel.
Local Open Scope N_scope.

(* What a call can do to a state: return, leave the enclosing step with a result (the [return x;]
   statements of machine::step), throw, or have undefined behaviour.  The state at the time of a throw
   is kept, because the machine survives it. *)
Inductive mexn : Type :=
| X_script (e : serror)      (* script_exception *)
| X_range                    (* std::out_of_range *)
| X_other.                   (* anything else *)

(* include/gigamonkey/script.hpp 38-60 *)
Record result : Type := { r_error : serror; r_success : bool }.
Definition result_of_bool (b : bool) : result := {| r_error := E_OK; r_success := b |}.
Definition result_of_error (e : serror) : result := {| r_error := e; r_success := false |}.
Definition r_verify (r : result) : bool := serror_is_ok (r_error r) && r_success r.

Inductive mres (S A : Type) : Type :=
| Val (a : A) (s : S)
| Stop (r : result) (s : S)
| Exc (e : mexn) (s : S)
| UB.
Arguments Val {S A}. Arguments Stop {S A}. Arguments Exc {S A}. Arguments UB {S A}.

Definition mret {S A} (a : A) : S -> mres S A := fun s => Val a s.
Definition mbind {S A B} (m : S -> mres S A) (f : A -> S -> mres S B) : S -> mres S B :=
  fun s => match m s with
           | Val a s' => f a s'
           | Stop r s' => Stop r s'
           | Exc e s' => Exc e s'
           | UB => UB
           end.
Notation "x <- m ;; k" := (mbind m (fun x => k)) (at level 100, m at next level, right associativity).
Notation "m ;;; k" := (mbind m (fun _ => k)) (at level 100, right associativity).
Definition mthrow {S A} (e : mexn) : S -> mres S A := fun s => Exc e s.
Definition mstop {S A} (r : result) : S -> mres S A := fun s => Stop r s.
Definition mundef {S A} : S -> mres S A := fun _ => UB.

(* stack.hpp 94-152: the limits of limited_two_stack<false> and limited_two_stack<true> *)
Inductive limits : Type :=
| Count (max_size max_elements : N)
| Memory (max_usage : N).

(* stack.hpp 39-92; s_mem is MemoryUsage, used with [Memory] only *)
Record stack : Type := { s_main : list bytes; s_alt : list bytes; s_lim : limits; s_mem : N }.

Definition stack0 (l : limits) : stack := {| s_main := []; s_alt := []; s_lim := l; s_mem := 0 |}.
Definition with_main (m : list bytes) (s : stack) : stack :=
  {| s_main := m; s_alt := s_alt s; s_lim := s_lim s; s_mem := s_mem s |}.
Definition with_mem (n : N) (s : stack) : stack :=
  {| s_main := s_main s; s_alt := s_alt s; s_lim := s_lim s; s_mem := n |}.

Definition size (s : stack) : N := N.of_nat (length (s_main s)).
Definition alt_size (s : stack) : N := N.of_nat (length (s_alt s)).
Definition combined_size (s : stack) : N := size s + alt_size s.

Definition SO (A : Type) := stack -> mres stack A.

(* stack.hpp 260-263 *)
Definition top (i : Z) : SO bytes := fun s =>
  if (0 <=? i)%Z then Exc X_other s
  else match nth_error (s_main s) (Z.to_nat (- i - 1)) with
       | Some x => Val x s
       | None => Exc X_range s
       end.

(* stack.hpp 303-310: uint64 arithmetic *)
Definition decrease_memory_usage (n : N) : SO unit := fun s =>
  Val tt (with_mem ((s_mem s + 2 ^ 64 - n mod 2 ^ 64) mod 2 ^ 64) s).
Definition increase_memory_usage (max n : N) : SO unit := fun s =>
  let t := (s_mem s + n) mod 2 ^ 64 in
  if max <? t then Exc (X_script E_STACK_SIZE) s else Val tt (with_mem t s).

Definition ELEMENT_OVERHEAD : N := 32.

Definition emplace (x : bytes) : SO unit := fun s => Val tt (with_main (x :: s_main s) s).

(* stack.hpp 312-321 *)
Definition push_back (x : bytes) : SO unit := fun s =>
  match s_lim s with
  | Memory max => (increase_memory_usage max (len x + ELEMENT_OVERHEAD) ;;; emplace x) s
  | Count msize melem =>
      if msize <? len x then Exc (X_script E_PUSH_SIZE) s
      else if combined_size s =? melem then Exc (X_script E_STACK_SIZE) s
      else emplace x s
  end.

(* stack.hpp 323-326, stack.cpp 25-30 *)
Definition pop_back : SO unit := fun s =>
  match s_main s with
  | [] => Exc X_other s
  | x :: r =>
      match s_lim s with
      | Count _ _ => Val tt (with_main r s)
      | Memory _ => (decrease_memory_usage (len x + ELEMENT_OVERHEAD) ;;; (fun s => Val tt (with_main r s))) s
      end
  end.

(* stack.cpp 6-23.  [f] may throw or be undefined after modifying the element. *)
Inductive fres : Type := F_ok (b : bytes) | F_throw (e : mexn) (b : bytes) | F_undef.

Definition modify_top (f : bytes -> fres) : SO unit := fun s =>
  match s_main s with
  | [] => Exc X_range s
  | x :: r =>
      match f x with
      | F_undef => UB
      | F_throw e y => Exc e (with_main (y :: r) s)
      | F_ok y =>
          let s' := with_main (y :: r) s in
          match s_lim s with
          | Count msize _ => if msize <? len y then Exc (X_script E_PUSH_SIZE) s' else Val tt s'
          | Memory max =>
              if len x <? len y then increase_memory_usage max (len y - len x) s'
              else decrease_memory_usage (len x - len y) s'
          end
      end
  end.

(* stack.hpp 75-79 *)
Definition replace_back (y : bytes) : SO unit := modify_top (fun _ => F_ok y).

Definition sum_sizes (l : list bytes) : N := fold_right (fun x n => len x + ELEMENT_OVERHEAD + n) 0 l.

(* stack.cpp 32-47: erase the elements from end () + first up to end () + last; no bounds check *)
Definition erase_range (first last : Z) : SO unit := fun s =>
  if (0 <=? last)%Z || (last <=? first)%Z then Exc X_other s
  else
    let hi := Z.to_nat (- first) in
    let lo := Z.to_nat (- last) in
    if (length (s_main s) <? hi)%nat then UB
    else
      let gone := firstn (hi - lo) (skipn lo (s_main s)) in
      let s' := with_main (firstn lo (s_main s) ++ skipn hi (s_main s)) s in
      match s_lim s with
      | Count _ _ => Val tt s'
      | Memory _ => decrease_memory_usage (sum_sizes gone) s'
      end.

(* stack.cpp 49-59: only the version with memory accounting checks bounds *)
Definition erase (i : Z) : SO unit := fun s =>
  if (0 <=? i)%Z then Exc X_other s
  else
    let p := Z.to_nat (- i - 1) in
    let s' := with_main (firstn p (s_main s) ++ skipn (p + 1) (s_main s)) s in
    match nth_error (s_main s) p, s_lim s with
    | None, Count _ _ => UB
    | None, Memory _ => Exc X_range s
    | Some _, Count _ _ => Val tt s'
    | Some x, Memory _ => decrease_memory_usage (len x + ELEMENT_OVERHEAD) s'
    end.

(* stack.cpp 61-76 *)
Definition insert (i : Z) (x : bytes) : SO unit := fun s =>
  if (0 <=? i)%Z then Exc X_other s
  else
    let p := Z.to_nat (- i) in
    let put s := if (length (s_main s) <? p)%nat then UB
                 else Val tt (with_main (firstn p (s_main s) ++ [x] ++ skipn p (s_main s)) s) in
    match s_lim s with
    | Count msize melem =>
        if (msize <? len x) || (combined_size s =? melem) then Exc (X_script E_STACK_SIZE) s else put s
    | Memory max => (increase_memory_usage max (len x + ELEMENT_OVERHEAD) ;;; put) s
    end.

(* stack.hpp 273-285 *)
Definition from_alt : SO unit := fun s =>
  match s_alt s with
  | [] => Exc X_range s
  | x :: r => Val tt {| s_main := x :: s_main s; s_alt := r; s_lim := s_lim s; s_mem := s_mem s |}
  end.
Definition to_alt : SO unit := fun s =>
  match s_main s with
  | [] => Exc X_range s
  | x :: r => Val tt {| s_main := r; s_alt := x :: s_alt s; s_lim := s_lim s; s_mem := s_mem s |}
  end.

Fixpoint set_nth {A} (k : nat) (v : A) (l : list A) : list A :=
  match l, k with
  | [], _ => []
  | _ :: l', O => v :: l'
  | x :: l', S k' => x :: set_nth k' v l'
  end.

(* stack.hpp 265-267, indices counted from the bottom; [d1], [d2] are the same indices as distances
   below the size, as in swap (size - d1, size - d2) *)
Definition swap (d1 d2 : N) : SO unit := fun s =>
  let p1 := N.to_nat (d1 - 1) in let p2 := N.to_nat (d2 - 1) in
  match nth_error (s_main s) p1, nth_error (s_main s) p2 with
  | Some x, Some y => Val tt (with_main (set_nth p1 y (set_nth p2 x (s_main s))) s)
  | _, _ => Exc X_range s
  end.

(* in-place change of the element at top (i), without any accounting (machine.cpp 449-488 writes
   through the reference returned by top) *)
Definition update_top (i : Z) (y : bytes) : SO unit := fun s =>
  Val tt (with_main (set_nth (Z.to_nat (- i - 1)) y (s_main s)) s).
