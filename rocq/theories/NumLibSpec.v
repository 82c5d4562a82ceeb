(* What the functions on byte strings are expected to do, in terms of the number a string spells (low byte first). *)
From Verif Require Import Base.
Local Open Scope N_scope.

(* the top bit of a string is its sign, the other bits its magnitude *)
Definition minus (x : bytes) : bool := pow256 (length x) <=? 2 * le_val x.
Definition magnitude (x : bytes) : N := if minus x then le_val x - pow256 (length x) / 2 else le_val x.

(* w is x written with n bytes *)
Definition widened (n : N) (x w : bytes) : Prop :=
  len w = n /\ minus w = minus x /\ magnitude w = magnitude x.

(* both strings written with as many bytes as the longer has, and the results combined as bit strings by f *)
Definition combined (f : N -> N -> N) (x y r : bytes) : Prop :=
  exists x' y', widened (N.max (len x) (len y)) x x' /\ widened (N.max (len x) (len y)) y y' /\
    len r = N.max (len x) (len y) /\ le_val r = f (le_val x') (le_val y').

(* the same with zero bytes added instead *)
Definition zero_combined (f : N -> N -> N) (x y r : bytes) : Prop :=
  len r = N.max (len x) (len y) /\ le_val r = f (le_val x) (le_val y).

(* the shorter of the two strings is not negative *)
Definition plain (x y : bytes) : Prop :=
  (len x < len y -> minus x = false) /\ (len y < len x -> minus y = false).
