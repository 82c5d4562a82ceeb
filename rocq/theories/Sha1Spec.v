(* SHA-1 (FIPS 180-4).  The library calls it from Crypto++; it is made concrete only to run the model on
   known values. *)
From Verif Require Import Base Sha256Spec.
Local Open Scope N_scope.

Definition s1_rol (k x : N) : N := N.lor (sha_word (N.shiftl x k)) (N.shiftr x (32 - k)).
Fixpoint s1_words (n : nat) (b : bytes) : list N :=
  match n with O => [] | S n' => be_val (firstn 4 b) :: s1_words n' (skipn 4 b) end.
(* the words in reverse *)
Fixpoint s1_extend (n : nat) (w : list N) : list N :=
  match n with
  | O => w
  | S n' => s1_extend n' (s1_rol 1 (N.lxor (N.lxor (nth 2 w 0) (nth 7 w 0)) (N.lxor (nth 13 w 0) (nth 15 w 0))) :: w)
  end.
Definition s1_f (t : nat) (x y z : N) : N :=
  match Nat.div t 20 with
  | 0%nat => N.lxor (N.land x y) (N.land (sha_not x) z)
  | 2%nat => N.lxor (N.lxor (N.land x y) (N.land x z)) (N.land y z)
  | _ => N.lxor (N.lxor x y) z
  end.
Definition s1_K : list N := [0x5a827999; 0x6ed9eba1; 0x8f1bbcdc; 0xca62c1d6].
Definition s1_round (h : list N) (tw : nat * N) : list N :=
  match h with
  | [a; b; c; d; e] =>
      [sha_add (sha_add (s1_rol 5 a) (s1_f (fst tw) b c d)) (sha_add e (sha_add (nth (Nat.div (fst tw) 20) s1_K 0) (snd tw)));
       a; s1_rol 30 b; c; d]
  | _ => h
  end.
Definition s1_block (h : list N) (block : bytes) : list N :=
  let w := rev (s1_extend 64 (rev (s1_words 16 block))) in
  map (fun p => sha_add (fst p) (snd p)) (combine h (fold_left s1_round (combine (List.seq 0 80) w) h)).
Fixpoint s1_blocks (n : nat) (h : list N) (b : bytes) : list N :=
  match n with O => h | S n' => s1_blocks n' (s1_block h (firstn 64 b)) (skipn 64 b) end.
Definition s1_pad (b : bytes) : bytes :=
  b ++ x80 :: repeat x00 (N.to_nat ((55 + 64 - len b mod 64) mod 64)) ++ be 8 (8 * len b).
Definition sha1 (b : bytes) : bytes :=
  let p := s1_pad b in
  concat (map (be 4) (s1_blocks (Nat.div (length p) 64) [0x67452301; 0xefcdab89; 0x98badcfe; 0x10325476; 0xc3d2e1f0] p)).
