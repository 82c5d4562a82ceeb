(* What compact targets, version rolling and work proofs should be, without the code's loops. *)
From Verif Require Import Base WireModel WireSpec MerkleModel WorkModel.
Local Open Scope N_scope.

(* the number a compact value stands for: mantissa * 256^(exponent - 3), rounded down *)
Definition exponent_of (c : N) : N := c / 2 ^ 24.
Definition mantissa_of (c : N) : N := c mod 2 ^ 23.
Definition negative (c : N) : bool := N.odd (c / 2 ^ 23).
Definition magnitude (c : N) : N := mantissa_of c * 256 ^ exponent_of c / 256 ^ 3.

(* k is the number of base-256 digits of n *)
Definition digit_count (n k : N) : Prop := 256 ^ (k - 1) <= n < 256 ^ k.
(* the number of low digits a compact form leaves out: three digits are kept, or two when the first is
   128 or more *)
Definition dropped (n k : N) : N := if 128 * 256 ^ (k - 1) <=? n then k - 2 else k - 3.
Definition truncated (n d : N) : N := n / 256 ^ d * 256 ^ d.

(* the compact values that encoding produces *)
Definition normal (c : N) : Prop :=
  negative c = false /\ 2 ^ 15 <= mantissa_of c /\ 2 ^ 24 <= magnitude c < 2 ^ 256.

(* least e with p / 2^s <= 256^e *)
Definition scale_of (p s e : N) : Prop := p <= 2 ^ s * 256 ^ e /\ (e = 0 \/ 2 ^ s * 256 ^ (e - 1) < p).

(* the bits 13 to 28 of a version, and the others *)
Definition in_general (i : Z) : bool := ((13 <=? i) && (i <=? 28))%Z.

(* the eighty bytes *)
Definition work_bytes (H : bytes -> bytes) (p : wproof) : bytes :=
  let c := pz_candidate (wp_puzzle p) in
  let m := pz_mask (wp_puzzle p) in
  let s := so_share (wp_solution p) in
  sle 4 (Z.lor (Z.land (ca_category c) m) (match sh_bits s with Some b => Z.land b (Z.lnot m) | None => 0%Z end))
  ++ ca_digest c
  ++ l_digest (climb H (mkleaf (H (pz_header (wp_puzzle p) ++ be 4 (so_extra1 (wp_solution p)) ++ sh_extra2 s ++ pz_body (wp_puzzle p)))
                          (p_index (ca_path c))) (p_digests (ca_path c)))
  ++ le 4 (sh_timestamp s) ++ le 4 (ca_target c) ++ le 4 (sh_nonce s).

(* the k-th pair of nonces tried after the given one: the last byte of the extra nonce and the nonce
   form one number *)
Definition counter_of (last : byte) (nonce : N) : N := b2n last * 2 ^ 32 + nonce.
Definition attempt (p : puzzle) (x1 t : N) (bits : option Z) (front : bytes) (c : N) : wproof :=
  {| wp_puzzle := p;
     wp_solution := {| so_share := {| sh_timestamp := t; sh_nonce := c mod 2 ^ 32;
                                      sh_extra2 := front ++ [n2b (c / 2 ^ 32)]; sh_bits := bits |};
                       so_extra1 := x1 |} |}.

Definition puzzle_wf (p : puzzle) : Prop :=
  i32 (ca_category (pz_candidate p)) /\ length (ca_digest (pz_candidate p)) = 32%nat /\ u32 (ca_target (pz_candidate p)) /\ i32 (pz_mask p).
Definition share_wf (s : share) : Prop :=
  u32 (sh_timestamp s) /\ u32 (sh_nonce s) /\ match sh_bits s with Some b => i32 b | None => True end.
