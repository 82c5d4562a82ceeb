(* SHA-512 (FIPS 180-4) and HMAC with it (RFC 2104).  The library calls them from Crypto++; they are
   made concrete only to run the model on known values. *)
From Verif Require Import Base.
Local Open Scope N_scope.

Definition s5_word (n : N) : N := n mod 0x10000000000000000.
Definition s5_add (a b : N) : N := s5_word (a + b).
Definition s5_rotr (k x : N) : N := N.lor (N.shiftr x k) (s5_word (N.shiftl x (64 - k))).
Definition s5_not (x : N) : N := N.lxor x 0xffffffffffffffff.
Definition s5_ch (x y z : N) : N := N.lxor (N.land x y) (N.land (s5_not x) z).
Definition s5_maj (x y z : N) : N := N.lxor (N.lxor (N.land x y) (N.land x z)) (N.land y z).
Definition s5_S0 (x : N) : N := N.lxor (N.lxor (s5_rotr 28 x) (s5_rotr 34 x)) (s5_rotr 39 x).
Definition s5_S1 (x : N) : N := N.lxor (N.lxor (s5_rotr 14 x) (s5_rotr 18 x)) (s5_rotr 41 x).
Definition s5_s0 (x : N) : N := N.lxor (N.lxor (s5_rotr 1 x) (s5_rotr 8 x)) (N.shiftr x 7).
Definition s5_s1 (x : N) : N := N.lxor (N.lxor (s5_rotr 19 x) (s5_rotr 61 x)) (N.shiftr x 6).
Definition s5_K : list N :=
  [0x428a2f98d728ae22; 0x7137449123ef65cd; 0xb5c0fbcfec4d3b2f; 0xe9b5dba58189dbbc;
   0x3956c25bf348b538; 0x59f111f1b605d019; 0x923f82a4af194f9b; 0xab1c5ed5da6d8118;
   0xd807aa98a3030242; 0x12835b0145706fbe; 0x243185be4ee4b28c; 0x550c7dc3d5ffb4e2;
   0x72be5d74f27b896f; 0x80deb1fe3b1696b1; 0x9bdc06a725c71235; 0xc19bf174cf692694;
   0xe49b69c19ef14ad2; 0xefbe4786384f25e3; 0x0fc19dc68b8cd5b5; 0x240ca1cc77ac9c65;
   0x2de92c6f592b0275; 0x4a7484aa6ea6e483; 0x5cb0a9dcbd41fbd4; 0x76f988da831153b5;
   0x983e5152ee66dfab; 0xa831c66d2db43210; 0xb00327c898fb213f; 0xbf597fc7beef0ee4;
   0xc6e00bf33da88fc2; 0xd5a79147930aa725; 0x06ca6351e003826f; 0x142929670a0e6e70;
   0x27b70a8546d22ffc; 0x2e1b21385c26c926; 0x4d2c6dfc5ac42aed; 0x53380d139d95b3df;
   0x650a73548baf63de; 0x766a0abb3c77b2a8; 0x81c2c92e47edaee6; 0x92722c851482353b;
   0xa2bfe8a14cf10364; 0xa81a664bbc423001; 0xc24b8b70d0f89791; 0xc76c51a30654be30;
   0xd192e819d6ef5218; 0xd69906245565a910; 0xf40e35855771202a; 0x106aa07032bbd1b8;
   0x19a4c116b8d2d0c8; 0x1e376c085141ab53; 0x2748774cdf8eeb99; 0x34b0bcb5e19b48a8;
   0x391c0cb3c5c95a63; 0x4ed8aa4ae3418acb; 0x5b9cca4f7763e373; 0x682e6ff3d6b2b8a3;
   0x748f82ee5defb2fc; 0x78a5636f43172f60; 0x84c87814a1f0ab72; 0x8cc702081a6439ec;
   0x90befffa23631e28; 0xa4506cebde82bde9; 0xbef9a3f7b2c67915; 0xc67178f2e372532b;
   0xca273eceea26619c; 0xd186b8c721c0c207; 0xeada7dd6cde0eb1e; 0xf57d4f7fee6ed178;
   0x06f067aa72176fba; 0x0a637dc5a2c898a6; 0x113f9804bef90dae; 0x1b710b35131c471b;
   0x28db77f523047d84; 0x32caab7b40c72493; 0x3c9ebe0a15c9bebc; 0x431d67c49c100d4c;
   0x4cc5d4becb3e42b6; 0x597f299cfc657e2a; 0x5fcb6fab3ad6faec; 0x6c44198c4a475817].
Definition s5_init : list N :=
  [0x6a09e667f3bcc908; 0xbb67ae8584caa73b; 0x3c6ef372fe94f82b; 0xa54ff53a5f1d36f1;
   0x510e527fade682d1; 0x9b05688c2b3e6c1f; 0x1f83d9abfb41bd6b; 0x5be0cd19137e2179].
Definition s5_pad (b : bytes) : bytes :=
  b ++ x80 :: repeat x00 (N.to_nat ((111 + 128 - len b mod 128) mod 128)) ++ be 16 (8 * len b).
Fixpoint s5_words (n : nat) (b : bytes) : list N :=
  match n with O => [] | S n' => be_val (firstn 8 b) :: s5_words n' (skipn 8 b) end.
Fixpoint s5_extend (n : nat) (w : list N) : list N :=
  match n with
  | O => w
  | S n' => s5_extend n'
      (s5_add (s5_add (s5_s1 (nth 1 w 0)) (nth 6 w 0)) (s5_add (s5_s0 (nth 14 w 0)) (nth 15 w 0)) :: w)
  end.
Definition s5_schedule (block : bytes) : list N := rev (s5_extend 64 (rev (s5_words 16 block))).
Definition s5_round (s : list N) (kw : N * N) : list N :=
  match s with
  | [a; b; c; d; e; f; g; h] =>
      let t1 := s5_add (s5_add (s5_add h (s5_S1 e)) (s5_add (s5_ch e f g) (fst kw))) (snd kw) in
      let t2 := s5_add (s5_S0 a) (s5_maj a b c) in
      [s5_add t1 t2; a; b; c; s5_add d t1; e; f; g]
  | _ => s
  end.
Definition s5_block (s : list N) (block : bytes) : list N :=
  map (fun p => s5_add (fst p) (snd p)) (combine s (fold_left s5_round (combine s5_K (s5_schedule block)) s)).
Fixpoint s5_blocks (n : nat) (s : list N) (b : bytes) : list N :=
  match n with O => s | S n' => s5_blocks n' (s5_block s (firstn 128 b)) (skipn 128 b) end.
Definition sha512 (b : bytes) : bytes :=
  let p := s5_pad b in concat (map (be 8) (s5_blocks (Nat.div (length p) 128) s5_init p)).

Definition xor_all (c : N) (b : bytes) : bytes := map (fun x => n2b (N.lxor (b2n x) c)) b.
Definition hmac512 (key m : bytes) : bytes :=
  let k0 := if 128 <? len key then sha512 key else key in
  let k := k0 ++ repeat x00 (128 - length k0) in
  sha512 (xor_all 0x5c k ++ sha512 (xor_all 0x36 k ++ m)).
