(* SHA-256 as in FIPS 180-4, on byte strings of any length.  The library calls this function from
   Crypto++ (hash.hpp 44-140); everywhere else in this development it is an arbitrary function, and
   it is made concrete only to look at the genesis block. *)
From Verif Require Import Base.
Local Open Scope N_scope.

Definition sha_word (n : N) : N := n mod 0x100000000.
Definition sha_add (a b : N) : N := sha_word (a + b).
Definition sha_rotr (k x : N) : N := N.lor (N.shiftr x k) (sha_word (N.shiftl x (32 - k))).
Definition sha_not (x : N) : N := N.lxor x 0xffffffff.

(* 4.1.2 *)
Definition sha_ch (x y z : N) : N := N.lxor (N.land x y) (N.land (sha_not x) z).
Definition sha_maj (x y z : N) : N := N.lxor (N.lxor (N.land x y) (N.land x z)) (N.land y z).
Definition sha_S0 (x : N) : N := N.lxor (N.lxor (sha_rotr 2 x) (sha_rotr 13 x)) (sha_rotr 22 x).
Definition sha_S1 (x : N) : N := N.lxor (N.lxor (sha_rotr 6 x) (sha_rotr 11 x)) (sha_rotr 25 x).
Definition sha_s0 (x : N) : N := N.lxor (N.lxor (sha_rotr 7 x) (sha_rotr 18 x)) (N.shiftr x 3).
Definition sha_s1 (x : N) : N := N.lxor (N.lxor (sha_rotr 17 x) (sha_rotr 19 x)) (N.shiftr x 10).

(* 4.2.2 *)
Definition sha_K : list N :=
  [0x428a2f98; 0x71374491; 0xb5c0fbcf; 0xe9b5dba5; 0x3956c25b; 0x59f111f1; 0x923f82a4; 0xab1c5ed5;
   0xd807aa98; 0x12835b01; 0x243185be; 0x550c7dc3; 0x72be5d74; 0x80deb1fe; 0x9bdc06a7; 0xc19bf174;
   0xe49b69c1; 0xefbe4786; 0x0fc19dc6; 0x240ca1cc; 0x2de92c6f; 0x4a7484aa; 0x5cb0a9dc; 0x76f988da;
   0x983e5152; 0xa831c66d; 0xb00327c8; 0xbf597fc7; 0xc6e00bf3; 0xd5a79147; 0x06ca6351; 0x14292967;
   0x27b70a85; 0x2e1b2138; 0x4d2c6dfc; 0x53380d13; 0x650a7354; 0x766a0abb; 0x81c2c92e; 0x92722c85;
   0xa2bfe8a1; 0xa81a664b; 0xc24b8b70; 0xc76c51a3; 0xd192e819; 0xd6990624; 0xf40e3585; 0x106aa070;
   0x19a4c116; 0x1e376c08; 0x2748774c; 0x34b0bcb5; 0x391c0cb3; 0x4ed8aa4a; 0x5b9cca4f; 0x682e6ff3;
   0x748f82ee; 0x78a5636f; 0x84c87814; 0x8cc70208; 0x90befffa; 0xa4506ceb; 0xbef9a3f7; 0xc67178f2].

(* 5.3.3 *)
Definition sha_init : list N :=
  [0x6a09e667; 0xbb67ae85; 0x3c6ef372; 0xa54ff53a; 0x510e527f; 0x9b05688c; 0x1f83d9ab; 0x5be0cd19].

(* 5.1.1: a one bit, zeros, and the length in bits in 8 bytes, up to a multiple of 64 bytes *)
Definition sha_pad (b : bytes) : bytes :=
  b ++ x80 :: repeat x00 (N.to_nat ((55 + 64 - len b mod 64) mod 64)) ++ be 8 (8 * len b).

(* a big-endian number for each four bytes *)
Fixpoint sha_words (n : nat) (b : bytes) : list N :=
  match n with O => [] | S n' => be_val (firstn 4 b) :: sha_words n' (skipn 4 b) end.

(* 6.2.2, step 1: the message schedule; the words so far are kept latest first *)
Fixpoint sha_extend (n : nat) (w : list N) : list N :=
  match n with
  | O => w
  | S n' => sha_extend n'
      (sha_add (sha_add (sha_s1 (nth 1 w 0)) (nth 6 w 0)) (sha_add (sha_s0 (nth 14 w 0)) (nth 15 w 0)) :: w)
  end.
Definition sha_schedule (block : bytes) : list N := rev (sha_extend 48 (rev (sha_words 16 block))).

(* step 3 *)
Definition sha_round (s : list N) (kw : N * N) : list N :=
  match s with
  | [a; b; c; d; e; f; g; h] =>
      let t1 := sha_add (sha_add (sha_add h (sha_S1 e)) (sha_add (sha_ch e f g) (fst kw))) (snd kw) in
      let t2 := sha_add (sha_S0 a) (sha_maj a b c) in
      [sha_add t1 t2; a; b; c; sha_add d t1; e; f; g]
  | _ => s
  end.

(* step 4 *)
Definition sha_block (s : list N) (block : bytes) : list N :=
  map (fun p => sha_add (fst p) (snd p)) (combine s (fold_left sha_round (combine sha_K (sha_schedule block)) s)).

Fixpoint sha_blocks (n : nat) (s : list N) (b : bytes) : list N :=
  match n with O => s | S n' => sha_blocks n' (sha_block s (firstn 64 b)) (skipn 64 b) end.

Definition sha256 (b : bytes) : bytes :=
  let p := sha_pad b in concat (map (be 4) (sha_blocks (Nat.div (length p) 64) sha_init p)).

(* hash.hpp 63-65, 104-106: Hash256 *)
Definition sha256d (b : bytes) : bytes := sha256 (sha256 b).
