(* Signatures as bytes: src/gigamonkey/secp256k1.cpp 13-211, include/gigamonkey/secp256k1.hpp 17-59, 166-169, signature.hpp 64-79.
   Positions and sizes are size_t. A read outside of the given bytes is undefined. *)
From Verif Require Import Base WireModel NumModel TextModel.
Local Open Scope N_scope.

Definition obind {A B} (m : outcome unit A) (f : A -> outcome unit B) : outcome unit B :=
  match m with Ret a => f a | Throw e => Throw e | Undef => Undef end.
(* x[p] *)
Definition byte_at (x : bytes) (p : N) : outcome unit N :=
  if p <? len x then match nth_error x (N.to_nat p) with Some b => Ret (b2n b) | None => Undef end else Undef.
(* the difference of two size_t *)
Definition size_sub (a b : N) : N := (2 ^ 64 + a - b) mod 2 ^ 64.

(* ---- secp256k1.cpp 28-35. Conditions are tested from left to right, until one decides. *)
Definition sig_valid (x : bytes) : outcome unit bool :=
  let size := len x in
  if size <? 6 then Ret false else
  obind (byte_at x 0) (fun a => if negb (a =? 0x30) then Ret false else
  obind (byte_at x 1) (fun b => if negb (b =? size_sub size 2) then Ret false else
  obind (byte_at x 2) (fun c => if negb (c =? 0x02) then Ret false else
  obind (byte_at x 3) (fun r_size =>
  if size <? r_size + 6 then Ret false else
  obind (byte_at x (4 + r_size)) (fun d => if negb (d =? 0x02) then Ret false else
  obind (byte_at x (5 + r_size)) (fun s_size =>
  Ret (r_size + s_size + 6 <=? size))))))).
(* secp256k1.cpp 42-44: x[p] != 0 || (n > 1 && x[p + 1] & 0x80) *)
Definition no_padding (x : bytes) (p n : N) : outcome unit bool :=
  obind (byte_at x p) (fun a => if negb (a =? 0) then Ret true else
  if 1 <? n then obind (byte_at x (p + 1)) (fun b => Ret (N.testbit b 7)) else Ret false).
(* secp256k1.cpp 37-45 *)
Definition sig_minimal (x : bytes) : outcome unit bool :=
  obind (sig_valid x) (fun v => if negb v then Ret false else
  let size := len x in
  obind (byte_at x 3) (fun r_size =>
  obind (byte_at x (5 + r_size)) (fun s_size =>
  if negb (size =? 6 + r_size + s_size) then Ret false else
  if r_size =? 0 then Ret false else
  if s_size =? 0 then Ret false else
  obind (no_padding x 4 r_size) (fun a => if negb a then Ret false else no_padding x (6 + r_size) s_size)))).

(* ---- secp256k1.cpp 58-188. None is the result 0. *)
(* while (n > 0 && input[pos] == 0) { pos++; n--; } *)
Fixpoint skip_zeros (x : bytes) (n : nat) (pos : N) : outcome unit (nat * N) :=
  match n with
  | O => Ret (O, pos)
  | S k => obind (byte_at x pos) (fun c => if c =? 0 then skip_zeros x k (pos + 1) else Ret (n, pos))
  end.
(* while (lenbyte > 0) { rlen = (rlen << 8) + input[pos]; pos++; lenbyte--; } *)
Fixpoint long_length (x : bytes) (n : nat) (v pos : N) : outcome unit (N * N) :=
  match n with
  | O => Ret (v, pos)
  | S k => obind (byte_at x pos) (fun c => long_length x k ((v * 256 + c) mod 2 ^ 64) (pos + 1))
  end.
(* 89-115 and 122-146: the length of an integer and the position after it. lenbyte & 0x80 is set from 128 on. *)
Definition lax_length (x : bytes) (pos : N) : outcome unit (option (N * N)) :=
  if pos =? len x then Ret None else
  obind (byte_at x pos) (fun l =>
  if l <? 128 then Ret (Some (l, pos + 1)) else
  if len x <? pos + 1 + (l - 128) then Ret None else
  obind (skip_zeros x (N.to_nat (l - 128)) (pos + 1)) (fun r => let '(n, p) := r in
  if (8 <=? n)%nat then Ret None else
  obind (long_length x n 0 p) (fun q => Ret (Some q)))).
(* 84-118 and 117-151: the beginning and the length of an integer, and the position after it *)
Definition lax_integer (x : bytes) (pos : N) : outcome unit (option (N * N * N)) :=
  if pos =? len x then Ret None else
  obind (byte_at x pos) (fun t => if negb (t =? 0x02) then Ret None else
  obind (lax_length x (pos + 1)) (fun r =>
  match r with
  | None => Ret None
  | Some (n, p) => if size_sub (len x) p <? n then Ret None else Ret (Some (p, n, p + n))
  end)).
(* 71-82: the length of the sequence is skipped *)
Definition lax_sequence (x : bytes) : outcome unit (option N) :=
  if 0 =? len x then Ret None else
  obind (byte_at x 0) (fun t => if negb (t =? 0x30) then Ret None else
  if 1 =? len x then Ret None else
  obind (byte_at x 1) (fun l =>
  if l <? 128 then Ret (Some 2) else
  if len x <? 2 + (l - 128) then Ret None else Ret (Some (2 + (l - 128))))).
(* 153-176: leading zeros are ignored; what is left is copied to the end of 32 bytes, if it fits *)
Definition lax_value (x : bytes) (pos n : N) : outcome unit (option N) :=
  obind (skip_zeros x (N.to_nat n) pos) (fun r => let '(k, p) := r in
  if (32 <? k)%nat then Ret None else
  if p + N.of_nat k <=? len x then Ret (Some (be_val (firstn k (skipn (N.to_nat p) x)))) else Undef).
(* secp256k1_ecdsa_signature_parse_compact: both numbers have to be below the order *)
Definition parse_compact (r s : N) : option (N * N) := if (r <? secp_order) && (s <? secp_order) then Some (r, s) else None.
Definition lax_parse (x : bytes) : outcome unit (option (N * N)) :=
  obind (lax_sequence x) (fun a => match a with None => Ret None | Some pos =>
  obind (lax_integer x pos) (fun b => match b with None => Ret None | Some (rpos, rlen, pos) =>
  obind (lax_integer x pos) (fun c => match c with None => Ret None | Some (spos, slen, _) =>
  obind (lax_value x rpos rlen) (fun r =>
  obind (lax_value x spos slen) (fun s =>
  Ret (Some (match r, s with
             | Some r, Some s => match parse_compact r s with Some y => y | None => (0, 0) end
             | _, _ => (0, 0)
             end)))) end) end) end).
(* secp256k1.cpp 207-211: the address of the first byte is taken, which an empty slice does not have. secp256k1_ecdsa_signature_normalize says
   whether the second number is above half of the order. *)
Definition sig_normalized (x : bytes) : outcome unit bool :=
  match x with
  | [] => Undef
  | _ => obind (lax_parse x) (fun r => match r with None => Ret false | Some (_, s) => Ret (negb (secp_order / 2 <? s)) end)
  end.

(* ---- points. R and S are uint256, written as 32 bytes in little endian order. *)
(* secp256k1.hpp 166-169: the size is that of script numbers, numbers.hpp 138-142 *)
Definition point_write (r s : N) : bytes :=
  [x30] ++ var_int_write (uint_serialized_size (le 32 r) + uint_serialized_size (le 32 s) + 4) ++ le 32 r ++ le 32 s.
(* secp256k1.cpp 13-26. None is an exception. *)
Definition point_read : reader (N * N) :=
  do v <- rd_byte;
  if negb (b2n v =? 0x30) then (fun _ => None) else
  do size <- rd_byte;
  if b2n size <? 4 then (fun _ => None) else
  do rest <- rd_bytes (b2n size);
  match rd_le 32 rest with
  | Some (r, q) => match rd_le 32 q with Some (s, _) => rd_ret (r, s) | None => fun _ => None end
  | None => fun _ => None
  end.
(* signature.hpp 69-73, secp256k1.hpp 55-57: R and S have 32 bytes each *)
Definition signature_of_point (r s : N) (d : byte) : option bytes := buffer_write (32 + 32 + 6 + 1) (point_write r s ++ [d]).
