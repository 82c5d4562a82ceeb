(* Bytes, fixed-width integers and readers: the part of the external library [data] (not in /repo)
   that the Gigamonkey sources rely on.  The contract written here is recorded in DESIGN.md. *)
From Coq Require Export List NArith ZArith Lia Bool.
From Coq Require Export Strings.Byte.
Export ListNotations.

Notation byte := Byte.byte.
Notation bytes := (list Byte.byte).

(* numeric value of a byte, 0..255 *)
Definition b2n (b : byte) : N := Byte.to_N b.

(* static_cast<byte> of an unsigned integer: reduction modulo 256 *)
Definition n2b (n : N) : byte :=
  match Byte.of_N (n mod 256) with Some b => b | None => x00 end.

(* signed view of a byte sequence of given width comes later; unsigned little endian first.
   [le k n]: the k bytes of uintK_little holding n mod 256^k (types.hpp 44-61 aliases
   data:: little-endian arithmetic types). *)
Fixpoint le (k : nat) (n : N) : bytes :=
  match k with
  | O => []
  | S k' => n2b n :: le k' (n / 256)
  end.

Fixpoint le_val (l : bytes) : N :=
  match l with
  | [] => 0
  | b :: r => b2n b + 256 * le_val r
  end.

Definition be (k : nat) (n : N) : bytes := rev (le k n).
Definition be_val (l : bytes) : N := le_val (rev l).

(* two's complement: intN_little *)
Definition pow256 (k : nat) : N := 256 ^ N.of_nat k.

Definition sle (k : nat) (z : Z) : bytes := le k (Z.to_N (z mod Z.of_N (pow256 k))).

Definition sle_val (l : bytes) : Z :=
  let n := Z.of_N (le_val l) in
  let m := Z.of_N (pow256 (length l)) in
  if (2 * n <? m)%Z then n else (n - m)%Z.

(* A reader consumes bytes from the front; [None] is the exception data::end_of_stream. *)
Definition reader (A : Type) := bytes -> option (A * bytes).

Definition rd_ret {A} (a : A) : reader A := fun b => Some (a, b).

Definition rd_bind {A B} (m : reader A) (f : A -> reader B) : reader B :=
  fun b => match m b with
           | None => None
           | Some (a, r) => f a r
           end.

Notation "'do' x <- m ; k" := (rd_bind m (fun x => k)) (at level 200, x name, m at level 100, k at level 200).

(* r >> b for one byte *)
Definition rd_byte : reader byte :=
  fun b => match b with [] => None | x :: r => Some (x, r) end.

(* read exactly n bytes *)
Definition rd_bytes (n : N) : reader bytes :=
  fun b => if (N.of_nat (length b) <? n)%N then None
           else Some (firstn (N.to_nat n) b, skipn (N.to_nat n) b).

(* r >> uintK_little *)
Definition rd_le (k : nat) : reader N :=
  do b <- rd_bytes (N.of_nat k); rd_ret (le_val b).

(* r >> intK_little *)
Definition rd_sle (k : nat) : reader Z :=
  do b <- rd_bytes (N.of_nat k); rd_ret (sle_val b).

(* uintK_big *)
Definition rd_be (k : nat) : reader N :=
  do b <- rd_bytes (N.of_nat k); rd_ret (be_val b).

Definition byte_eqb (a b : byte) : bool := Byte.eqb a b.

Fixpoint bytes_eqb (a b : bytes) : bool :=
  match a, b with
  | [], [] => true
  | x :: a', y :: b' => byte_eqb x y && bytes_eqb a' b'
  | _, _ => false
  end.

Definition len (b : bytes) : N := N.of_nat (length b).

(* bytes b (n); it_wtr w {b.begin (), b.end ()}; w << content; return b;  (types.hpp 123-131)
   The buffer of n zero bytes is overwritten from the front; [None] if the content does not fit
   (the iterator writer runs past the end of the buffer). *)
Definition buffer_write (n : N) (content : bytes) : option bytes :=
  if (n <? len content)%N then None
  else Some (content ++ repeat x00 (N.to_nat n - length content)).

(* A C++ computation that may be undefined behaviour, may throw, or may return a value. *)
Inductive outcome (E A : Type) : Type :=
| Ret (a : A)
| Throw (e : E)
| Undef.
Arguments Ret {E A}. Arguments Throw {E A}. Arguments Undef {E A}.
