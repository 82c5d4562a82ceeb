(* Proof of work: compact targets, version rolling, work strings, work proofs and the cpu solver.
   Source: work.cpp, include/gigamonkey/work/{target,ASICBoost,string,proof}.hpp, timechain.cpp 9-54.
   Not modelled here: difficulties as doubles (DifficultyModel.v), hashpower and the arithmetic of
   difficulties.  Hash256 is the parameter [H].
   int32 bit operations are those of Z on values in the int32 range. *)
From Verif Require Import Base WireModel MerkleModel.
Local Open Scope N_scope.

(* ---------------------------------------------------------------- compact *)
(* work.cpp 32-55.  uint256 <<= of the external library drops what does not fit *)
Definition expand (compact : N) : N :=
  let nSize := N.shiftr compact 24 in
  let nWord := N.land compact 0x007fffff in
  let '(nWord, expanded) :=
    if nSize <=? 3 then let w := N.shiftr nWord (8 * (3 - nSize)) in (w, w)
    else (nWord, N.shiftl nWord (8 * (nSize - 3)) mod 2 ^ 256) in
  if negb (nWord =? 0) && negb (N.land compact 0x00800000 =? 0) then 0
  else if negb (nWord =? 0) && ((34 <? nSize) || ((0xff <? nWord) && (33 <? nSize)) || ((0xffff <? nWord) && (32 <? nSize))) then 0
  else expanded.

(* target.hpp 292-297: three bytes of digits, then the exponent *)
Definition encode (e : byte) (digits : bytes) : N := le_val (digits ++ [e]).
(* target.hpp 41-47 *)
Definition compact_min : N := encode (n2b 3) (le 3 0x0001).
Definition compact_max : N := encode (n2b 33) (le 3 0xffff).
(* target.hpp 51-54 *)
Definition success_half : N := encode (n2b 33) (le 3 0x8000).
Definition success_quarter : N := encode (n2b 32) (le 3 0x400000).
Definition success_eighth : N := encode (n2b 32) (le 3 0x200000).
Definition success_sixteenth : N := encode (n2b 32) (le 3 0x100000).
(* target.hpp 265-268 *)
Definition compact_valid (c : N) : bool := negb (expand c =? 0).

(* the loop of work.cpp 68-72: k iterations are left and digit_index is k + 2 *)
Fixpoint find_digit (k : nat) (data : bytes) : option nat :=
  match k with
  | O => None
  | S k' => if b2n (nth (k + 2) data x00) =? 0 then find_digit k' data else Some (k + 2)%nat
  end.
(* compact (uint256), work.cpp 57-87.  When the loop finds nothing, exponent is not initialised:
   [junk] is what it happens to hold *)
Definition compact_of (junk : byte) (n : N) : N :=
  let data := le 32 n in
  let '(first, exponent) := match find_digit 29 data with
                            | Some i => (i, n2b (N.of_nat i + 1))
                            | None => (29%nat, junk)
                            end in
  let d i := nth (first - i) data x00 in
  if negb (N.land (b2n (d 0%nat)) 0x80 =? 0) then encode (n2b (b2n exponent + 1)) [d 1%nat; d 0%nat; x00]
  else encode exponent [d 2%nat; d 1%nat; d 0%nat].

(* compact (difficulty), work.cpp 89-141.  [absolute] = unit / difficulty, the result of a floating
   division, is given as p / 2^s; all later operations (scaling by 256, modf) are exact on doubles.
   A negative quotient or NaN takes the same way as p = 0. *)
Fixpoint scale_loop (fuel : nat) (p s e : N) : option (N * N) :=
  if 2 ^ s <? p then match fuel with O => None | S f => scale_loop f p (s + 8) (e + 1) end
  else Some (s, e).
Definition compact_of_quotient (p s : N) : option N :=
  match scale_loop (N.to_nat (N.size p)) p s 0 with
  | None => None
  | Some (s, e) =>
    Some (if e <? 3 then compact_min
          else if 32 <? e then compact_max
          else
            let d0 := p * 256 / 2 ^ s in let r0 := (p * 256) mod 2 ^ s in
            let d1 := r0 * 256 / 2 ^ s in let r1 := (r0 * 256) mod 2 ^ s in
            let d2 := r1 * 256 / 2 ^ s in
            if 0x80 <=? d0 then encode (n2b (e + 1)) [n2b d1; n2b d0; x00]
            else encode (n2b e) [n2b d2; n2b d1; n2b d0])
  end.
(* the same loop when the quotient is infinite (difficulty 0): inf / 256 is inf *)
Inductive quotient := Finite (p s : N) | Infinite.
Definition q_above_one (q : quotient) : bool := match q with Finite p s => 2 ^ s <? p | Infinite => true end.
Definition q_div256 (q : quotient) : quotient := match q with Finite p s => Finite p (s + 8) | Infinite => Infinite end.
Fixpoint quotient_loop (fuel : nat) (q : quotient) (e : N) : run (quotient * N) :=
  if q_above_one q then match fuel with O => More | S f => quotient_loop f (q_div256 q) (e + 1) end
  else Done (q, e).

(* ---------------------------------------------------------------- version rolling *)
(* conversion to int32 *)
Definition i32_of (z : Z) : Z := ((z + 2147483648) mod 4294967296 - 2147483648)%Z.
(* conversion to uint16 *)
Definition u16_of (z : Z) : N := Z.to_N (z mod 65536).
(* ASICBoost.hpp 27-28 *)
Definition boost_mask : Z := i32_of 0xE0001FFF.
Definition boost_bits : Z := Z.lnot boost_mask.
(* ASICBoost.hpp 30-32 *)
Definition boost_version (v : Z) : Z := Z.land boost_mask v.
(* ASICBoost.hpp 34-36 *)
Definition general_bits (v : Z) : N := u16_of (Z.shiftr (Z.land boost_bits v) 13).
(* ASICBoost.hpp 38-42: whether the mixed operation is done in int32 or uint32 makes no difference
   after the conversion to uint16; int32 here *)
Definition magic_number (v : Z) : N :=
  u16_of (Z.lor (Z.shiftr (Z.land (i32_of 0xe0000000) v) 16) (Z.land 0x1fff v)).
(* ASICBoost.hpp 44-49 *)
Definition category (magic bits : N) : Z :=
  i32_of (i32_of (Z.shiftl (Z.of_N bits) 13) + Z.land (Z.of_N magic) 0x1fff + i32_of (Z.shiftl (Z.land (Z.of_N magic) 0xe000) 16)).

(* ---------------------------------------------------------------- work strings *)
(* work::string has the six fields of a header; string (header) and operator header (string.hpp
   103-112) copy them, so the model uses [header] for both *)
Section Work.
Variable H : bytes -> bytes.

(* string.hpp 90-97: the hash read as a little-endian number *)
Definition string_hash (w : header) : N := le_val (H (header_write w)).
Definition string_valid_slice (x : bytes) : bool := le_val (H x) <? expand (h_target (header_of_slice x)).
Definition string_valid (w : header) : bool := string_hash w <? expand (h_target w).
(* timechain.cpp 11-17, 48-54 *)
Definition header_fields_valid (h : header) : bool :=
  (1 <=? h_version h)%Z && digest_valid (h_merkle_root h) && negb (h_timestamp h =? 0).
Definition header_valid_slice (x : bytes) : bool := header_fields_valid (header_of_slice x) && string_valid_slice x.
Definition header_valid (h : header) : bool := string_valid_slice (header_write h) && header_fields_valid h.

(* ---------------------------------------------------------------- proofs *)
(* proof.hpp 29-42 *)
Record candidate := { ca_category : Z; ca_digest : bytes; ca_target : N; ca_path : path }.
(* proof.hpp 45-71 *)
Record puzzle := { pz_candidate : candidate; pz_header : bytes; pz_body : bytes; pz_mask : Z }.
(* proof.hpp 86-107 *)
Record share := { sh_timestamp : N; sh_nonce : N; sh_extra2 : bytes; sh_bits : option Z }.
(* proof.hpp 109-121 *)
Record solution := { so_share : share; so_extra1 : N }.
(* proof.hpp 123-149 *)
Record wproof := { wp_puzzle : puzzle; wp_solution : solution }.
(* proof.hpp 75-84, 130, 146-148 *)
Record job := { jb_puzzle : puzzle; jb_extra1 : N }.
Definition proof_of_job (j : job) (s : share) : wproof :=
  {| wp_puzzle := jb_puzzle j; wp_solution := {| so_share := s; so_extra1 := jb_extra1 j |} |}.
Definition job_of_proof (p : wproof) : job := {| jb_puzzle := wp_puzzle p; jb_extra1 := so_extra1 (wp_solution p) |}.

Definition empty_candidate : candidate := {| ca_category := 0; ca_digest := repeat x00 32; ca_target := 0; ca_path := mkpath 0 [] |}.
Definition empty_puzzle : puzzle := {| pz_candidate := empty_candidate; pz_header := []; pz_body := []; pz_mask := -1 |}.
Definition empty_share : share := {| sh_timestamp := 0; sh_nonce := 0; sh_extra2 := []; sh_bits := None |}.
Definition empty_wproof : wproof :=
  {| wp_puzzle := empty_puzzle; wp_solution := {| so_share := empty_share; so_extra1 := 0 |} |}.

(* proof.hpp 104-106 *)
Definition share_bits (s : share) (mask : Z) : Z := match sh_bits s with Some b => Z.land b mask | None => 0%Z end.

(* proof.hpp 252-255: the coinbase transaction *)
Definition meta (p : wproof) : bytes :=
  pz_header (wp_puzzle p) ++ be 4 (so_extra1 (wp_solution p)) ++ sh_extra2 (so_share (wp_solution p)) ++ pz_body (wp_puzzle p).
(* proof.hpp 257-259 *)
Definition wproof_root (p : wproof) : bytes := derive_root H (ca_path (pz_candidate (wp_puzzle p))) (H (meta p)).
(* proof.hpp 261-270 *)
Definition wproof_string (p : wproof) : header :=
  let c := pz_candidate (wp_puzzle p) in
  let m := pz_mask (wp_puzzle p) in
  let s := so_share (wp_solution p) in
  {| h_version := Z.lor (Z.land (ca_category c) m) (share_bits s (Z.lnot m));
     h_previous := ca_digest c;
     h_merkle_root := wproof_root p;
     h_timestamp := sh_timestamp s;
     h_target := ca_target c;
     h_nonce := sh_nonce s |}.
(* proof.hpp 272-274 *)
Definition wproof_valid (p : wproof) : bool := string_valid (wproof_string p).

(* proof.hpp 238-250: the path given is not used *)
Definition wproof_of_string (w : header) (mp : path) (h : bytes) (n1 : N) (n2 b : bytes) : wproof :=
  let p := {| wp_puzzle := {| pz_candidate := {| ca_category := h_version w; ca_digest := h_previous w; ca_target := h_target w; ca_path := mkpath 0 [] |};
                              pz_header := h; pz_body := b; pz_mask := -1 |};
              wp_solution := {| so_share := {| sh_timestamp := h_timestamp w; sh_nonce := h_nonce w; sh_extra2 := n2; sh_bits := None |};
                                so_extra1 := n1 |} |} in
  if bytes_eqb (h_merkle_root w) (wproof_root p) then p else empty_wproof.

(* ---------------------------------------------------------------- cpu_solve *)
(* ++ExtraNonce2[-1] (work.cpp 22-24): the last byte, as for the other containers of the external
   library that are indexed with -1.  [Throw]: logic_error, [Undef]: there is no last byte *)
Definition bump_extra2 (x : bytes) : outcome unit bytes :=
  match rev x with
  | [] => Undef
  | l :: r => if b2n l =? 0xff then Throw tt else Ret (rev (n2b (b2n l + 1) :: r))
  end.
Definition with_share (p : wproof) (s : share) : wproof :=
  {| wp_puzzle := wp_puzzle p; wp_solution := {| so_share := s; so_extra1 := so_extra1 (wp_solution p) |} |}.
(* one turn of the loop, work.cpp 20-25 *)
Definition next_attempt (p : wproof) : outcome unit wproof :=
  let s := so_share (wp_solution p) in
  let nonce := w32 (sh_nonce s + 1) in
  let set x := with_share p {| sh_timestamp := sh_timestamp s; sh_nonce := nonce; sh_extra2 := x; sh_bits := sh_bits s |} in
  if nonce =? 0 then
    match bump_extra2 (sh_extra2 s) with
    | Ret x => Ret (set x)
    | Throw e => Throw e
    | Undef => Undef
    end
  else Ret (set (sh_extra2 s)).
(* work.cpp 19-28; [More]: not finished within [fuel] turns *)
Fixpoint solve_loop (fuel : nat) (p : wproof) : run (outcome unit wproof) :=
  if wproof_valid p then Done (Ret p)
  else match fuel with
  | O => More
  | S f => match next_attempt p with
           | Ret q => solve_loop f q
           | x => Done x
           end
  end.
(* work.cpp 13-29 *)
Definition cpu_solve (fuel : nat) (p : puzzle) (initial : solution) : run (outcome unit wproof) :=
  if expand (ca_target (pz_candidate p)) =? 0 then Done (Ret empty_wproof)
  else solve_loop fuel {| wp_puzzle := p; wp_solution := initial |}.
End Work.
