(* The functions on byte strings and numbers that the library offers besides the script machine.
   Source: numbers.cpp 5-74, include/gigamonkey/numbers.hpp 172-217.
   External: bytewise and, or, exclusive or and complement.  x.range (n) with one argument is used nowhere else and is
   external too: [rest] says that it gives what is left from n on, not the first n bytes. *)
From Verif Require Import Base ScriptModel NumModel.
Local Open Scope N_scope.

(* numbers.cpp 5-31: the shorter operand is extended as a number, then combined bytewise *)
Definition num_bitwise (f : byte -> byte -> byte) (a b : bytes) : bytes :=
  if len a <? len b then zip_bytes f (extend_number a (len b)) b
  else zip_bytes f (extend_number b (len a)) a.
Definition bit_and := num_bitwise byte_and.
Definition bit_xor := num_bitwise byte_xor.
Definition bit_or := num_bitwise byte_or.
(* numbers.cpp 33-37 *)
Definition bit_not (x : bytes) : bytes := map byte_not x.
(* numbers.cpp 40-74, on bytes and on strings *)
Definition num_cat (x y : bytes) : bytes := x ++ y.

(* the exception of numbers.hpp 174-205 *)
Inductive range_exn : Type := InvalidRange.
(* numbers.hpp 174-184 *)
Definition num_left (rest : bool) (x : bytes) (n : N) : range_exn + bytes :=
  if len x <? n then inl InvalidRange else inr (if rest then skipn (N.to_nat n) x else firstn (N.to_nat n) x).
Definition num_right (x : bytes) (n : N) : range_exn + bytes :=
  if len x <? n then inl InvalidRange else inr (skipn (N.to_nat (len x - n)) x).
(* numbers.hpp 186-194: the versions on strings; [right] calls x.substr (size - n, size - n) *)
Definition str_left (x : bytes) (n : N) : range_exn + bytes :=
  if len x <? n then inl InvalidRange else inr (firstn (N.to_nat n) x).
Definition str_right (x : bytes) (n : N) : range_exn + bytes :=
  if len x <? n then inl InvalidRange
  else inr (firstn (N.to_nat (len x - n)) (skipn (N.to_nat (len x - n)) x)).
(* numbers.hpp 196-205, on bytes and on strings *)
Definition num_split (x : bytes) (n : N) : range_exn + (bytes * bytes) :=
  if len x <? n then inl InvalidRange else inr (firstn (N.to_nat n) x, skipn (N.to_nat n) x).

(* numbers.hpp 207-217 *)
Definition bool_not (x : bytes) : bool := is_zero x.
Definition bool_and (x y : bytes) : bool := nonzero x && nonzero y.
Definition bool_or (x y : bytes) : bool := nonzero x || nonzero y.
