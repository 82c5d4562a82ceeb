(* RIPEMD-160 (Dobbertin, Bosselaers, Preneel).  The library calls it from Crypto++ (hash.hpp 50-60);
   it is made concrete only to run the model on known values. *)
From Verif Require Import Base Sha256Spec.
Local Open Scope N_scope.

Definition rmd_rol (k x : N) : N := N.lor (sha_word (N.shiftl x k)) (N.shiftr x (32 - k)).
Definition rmd_f (j : nat) (x y z : N) : N :=
  match Nat.div j 16 with
  | 0%nat => N.lxor (N.lxor x y) z
  | 1%nat => N.lor (N.land x y) (N.land (sha_not x) z)
  | 2%nat => N.lxor (N.lor x (sha_not y)) z
  | 3%nat => N.lor (N.land x z) (N.land y (sha_not z))
  | _ => N.lxor x (N.lor y (sha_not z))
  end.
Definition rmd_K1 : list N := [0; 0x5a827999; 0x6ed9eba1; 0x8f1bbcdc; 0xa953fd4e].
Definition rmd_K2 : list N := [0x50a28be6; 0x5c4dd124; 0x6d703ef3; 0x7a6d76e9; 0].
Definition rmd_r1 : list nat :=
  ([0; 1; 2; 3; 4; 5; 6; 7; 8; 9; 10; 11; 12; 13; 14; 15;
   7; 4; 13; 1; 10; 6; 15; 3; 12; 0; 9; 5; 2; 14; 11; 8;
   3; 10; 14; 4; 9; 15; 8; 1; 2; 7; 0; 6; 13; 11; 5; 12;
   1; 9; 11; 10; 0; 8; 12; 4; 13; 3; 7; 15; 14; 5; 6; 2;
   4; 0; 5; 9; 7; 12; 2; 10; 14; 1; 3; 8; 11; 6; 15; 13])%nat.
Definition rmd_r2 : list nat :=
  ([5; 14; 7; 0; 9; 2; 11; 4; 13; 6; 15; 8; 1; 10; 3; 12;
   6; 11; 3; 7; 0; 13; 5; 10; 14; 15; 8; 12; 4; 9; 1; 2;
   15; 5; 1; 3; 7; 14; 6; 9; 11; 8; 12; 2; 10; 0; 4; 13;
   8; 6; 4; 1; 3; 11; 15; 0; 5; 12; 2; 13; 9; 7; 10; 14;
   12; 15; 10; 4; 1; 5; 8; 7; 6; 2; 13; 14; 0; 3; 9; 11])%nat.
Definition rmd_s1 : list N :=
  [11; 14; 15; 12; 5; 8; 7; 9; 11; 13; 14; 15; 6; 7; 9; 8;
   7; 6; 8; 13; 11; 9; 7; 15; 7; 12; 15; 9; 11; 7; 13; 12;
   11; 13; 6; 7; 14; 9; 13; 15; 14; 8; 13; 6; 5; 12; 7; 5;
   11; 12; 14; 15; 14; 15; 9; 8; 9; 14; 5; 6; 8; 6; 5; 12;
   9; 15; 5; 11; 6; 8; 13; 12; 5; 12; 13; 14; 11; 8; 5; 6].
Definition rmd_s2 : list N :=
  [8; 9; 9; 11; 13; 15; 15; 5; 7; 7; 8; 11; 14; 14; 12; 6;
   9; 13; 15; 7; 12; 8; 9; 11; 7; 7; 12; 7; 6; 15; 13; 11;
   9; 7; 15; 11; 8; 6; 6; 14; 12; 13; 5; 14; 13; 13; 7; 5;
   15; 5; 8; 11; 14; 14; 6; 14; 6; 9; 12; 9; 12; 5; 15; 8;
   8; 5; 12; 9; 12; 5; 14; 6; 8; 13; 6; 5; 15; 13; 11; 11].
Definition rmd_init : list N := [0x67452301; 0xefcdab89; 0x98badcfe; 0x10325476; 0xc3d2e1f0].

Fixpoint rmd_words (n : nat) (b : bytes) : list N :=
  match n with O => [] | S n' => le_val (firstn 4 b) :: rmd_words n' (skipn 4 b) end.
Definition rmd_round (f : nat -> nat) (K : list N) (r : list nat) (s : list N) (w : list N) (h : list N) (j : nat) : list N :=
  match h with
  | [a; b; c; d; e] =>
      let t := sha_add (rmd_rol (nth j s 0)
        (sha_add (sha_add a (rmd_f (f j) b c d)) (sha_add (nth (nth j r 0%nat) w 0) (nth (Nat.div j 16) K 0)))) e in
      [e; t; b; rmd_rol 10 c; d]
  | _ => h
  end.
Definition rmd_block (h : list N) (block : bytes) : list N :=
  let w := rmd_words 16 block in
  let steps := List.seq 0 80 in
  match h, fold_left (rmd_round (fun j => j) rmd_K1 rmd_r1 rmd_s1 w) steps h,
        fold_left (rmd_round (fun j => (79 - j)%nat) rmd_K2 rmd_r2 rmd_s2 w) steps h with
  | [h0; h1; h2; h3; h4], [a; b; c; d; e], [a'; b'; c'; d'; e'] =>
      [sha_add (sha_add h1 c) d'; sha_add (sha_add h2 d) e'; sha_add (sha_add h3 e) a';
       sha_add (sha_add h4 a) b'; sha_add (sha_add h0 b) c']
  | _, _, _ => h
  end.
Fixpoint rmd_blocks (n : nat) (h : list N) (b : bytes) : list N :=
  match n with O => h | S n' => rmd_blocks n' (rmd_block h (firstn 64 b)) (skipn 64 b) end.
Definition rmd_pad (b : bytes) : bytes :=
  b ++ x80 :: repeat x00 (N.to_nat ((55 + 64 - len b mod 64) mod 64)) ++ le 8 (8 * len b).
Definition ripemd160 (b : bytes) : bytes :=
  let p := rmd_pad b in concat (map (le 4) (rmd_blocks (Nat.div (length p) 64) rmd_init p)).

(* hash.hpp 59-61: Hash160 *)
Definition sha_hash160 (b : bytes) : bytes := ripemd160 (sha256 b).
