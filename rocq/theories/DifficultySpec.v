(* What doubles and difficulties should be. *)
From Verif Require Import Base ExtModel WorkModel WorkSpec DifficultyModel.
Local Open Scope N_scope.

(* p / q is a number of 53 bits times a power of two *)
Definition representable (p q : N) : Prop := 0 < q /\ exists m a b, m < 2 ^ 53 /\ p * 2 ^ a = m * 2 ^ b * q.
(* x is no farther from n / d than p / q is *)
Definition nearer (x : N * N) (n d p q : N) : Prop :=
  (Z.abs (Z.of_N (fst x * d) - Z.of_N (n * snd x)) * Z.of_N q <= Z.abs (Z.of_N (p * d) - Z.of_N (n * q)) * Z.of_N (snd x))%Z.
(* the number a double is, when it is one *)
Definition is_number (x : N * N) (v : N) : Prop := fst x = v * snd x.
(* a divided by the greatest power of two that is not above it, a number from 1 to 2, is at most the root of
   0xffff / 2^15, the same fraction of the unit *)
Definition low_fraction (a : N) : Prop := a * a * 2 ^ 15 <= 0xffff * 2 ^ (2 * N.log2 a).
