(* Independent statements about script numbers. *)
From Verif Require Import Base.
Local Open Scope N_scope.

(* sign and magnitude read off the bytes: everything but the top bit of the last byte is the magnitude *)
Inductive number_of : bytes -> Z -> Prop :=
| num_empty : number_of [] 0
| num_pos r (l : byte) : b2n l < 128 ->
    number_of (r ++ [l]) (Z.of_N (le_val r + b2n l * 256 ^ len r))
| num_neg r (l : byte) : 128 <= b2n l ->
    number_of (r ++ [l]) (- Z.of_N (le_val r + (b2n l - 128) * 256 ^ len r)).

(* bit k of a big-endian bit string, counted from its end *)
Definition bit_from_end (b : bytes) (k : N) : bool := N.testbit (be_val b) k.

(* the shift of a bit string within its length *)
Definition shl_bits (b : bytes) (n : N) : bytes := be (length b) (be_val b * 2 ^ n).
Definition shr_bits (b : bytes) (n : N) : bytes := be (length b) (be_val b / 2 ^ n).
