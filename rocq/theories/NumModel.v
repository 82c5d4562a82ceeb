(* Script numbers and byte-string operations.
   /repo/src/gigamonkey/include/gigamonkey/numbers.hpp, src/gigamonkey/numbers.cpp.
   [integer] is data::Z_bytes_BC_little, a class of the external library [data]: a byte string,
   little endian, sign bit in the most significant bit of the last byte.  Its arithmetic is external;
   the contract used here is: arithmetic is on the value [sn_val] and results are minimal ([sn_enc]);
   test/testNumber.cpp and test/testScript.cpp 684-910 record the same behaviour on samples. *)
From Verif Require Import Base ScriptModel.
Local Open Scope N_scope.

(* value of a script number (contract of Z_bytes_BC_little) *)
Definition sn_val (b : bytes) : Z :=
  let n := le_val b in
  let h := pow256 (length b) / 2 in
  if h <=? n then (- Z.of_N (n - h))%Z else Z.of_N n.

(* number of bytes of the minimal encoding *)
Definition sn_size (z : Z) : nat :=
  match z with
  | Z0 => O
  | _ => N.to_nat (N.size (Z.abs_N z) / 8 + 1)
  end.

(* minimal encoding of an integer: integer {z}, and the result of every arithmetic operation *)
Definition sn_enc (z : Z) : bytes :=
  let k := sn_size z in
  le k (Z.abs_N z + if (z <? 0)%Z then pow256 k / 2 else 0).

(* integer {bool} *)
Definition sn_bool (b : bool) : bytes := sn_enc (if b then 1 else 0).

(* data::arithmetic::is_minimal<little, BC> (external), numbers.hpp 152-154 *)
Definition is_minimal_number (b : bytes) : bool :=
  match rev b with
  | [] => true
  | last :: r =>
      negb (b2n last mod 128 =? 0) || match r with prev :: _ => 128 <=? b2n prev | [] => false end
  end.

(* numbers.hpp 107-111.  The int loop variable is taken not to overflow (strings below 2^31 bytes). *)
Definition nonzero (b : bytes) : bool :=
  match rev b with
  | [] => false
  | last :: r => existsb (fun x => negb (b2n x =? 0)) r || negb (b2n last =? 0) && negb (b2n last =? 0x80)
  end.

(* numbers.hpp 113-117 *)
Definition is_zero (b : bytes) : bool :=
  match rev b with
  | [] => true
  | last :: r => negb (existsb (fun x => negb (b2n x =? 0)) r) && ((b2n last =? 0) || (b2n last =? 0x80))
  end.

(* numbers.hpp 119-125 *)
Definition is_negative (b : bytes) : bool := nonzero b && (0x80 <=? b2n (last b x00)).
Definition is_positive (b : bytes) : bool := nonzero b && negb (0x80 <=? b2n (last b x00)).

(* numbers.hpp 146-150 *)
Definition read_integer (b : bytes) (require_minimal : bool) (max : N) : serror + bytes :=
  if max <? len b then inl E_SCRIPTNUM_OVERFLOW
  else if require_minimal && negb (is_minimal_number b) then inl E_SCRIPTNUM_MINENCODE
  else inr b.

(* data::arithmetic::extend<little, BC> (external), numbers.hpp 156-159, called with [len b <= n] only *)
Definition extend_number (b : bytes) (n : N) : bytes :=
  match rev b with
  | [] => repeat x00 (N.to_nat n)
  | last :: r =>
      if len b =? n then b
      else rev r ++ [n2b (b2n last mod 128)] ++ repeat x00 (N.to_nat n - length b - 1)
                 ++ [n2b (128 * (b2n last / 128))]
  end.

(* data::arithmetic::trim<little, BC> (external), numbers.hpp 161-164: the minimal string of the same value *)
Definition trim_number (b : bytes) : bytes := sn_enc (sn_val b).

(* bitwise operations on bytes *)
Definition byte_and (a b : byte) : byte := n2b (N.land (b2n a) (b2n b)).
Definition byte_or (a b : byte) : byte := n2b (N.lor (b2n a) (b2n b)).
Definition byte_xor (a b : byte) : byte := n2b (N.lxor (b2n a) (b2n b)).
Definition byte_not (a : byte) : byte := n2b (255 - b2n a).

Fixpoint zip_bytes (f : byte -> byte -> byte) (a b : bytes) : bytes :=
  match a, b with
  | x :: a', y :: b' => f x y :: zip_bytes f a' b'
  | _, _ => []
  end.

(* result[k] |= v *)
Fixpoint or_at (k : nat) (v : N) (r : bytes) : bytes :=
  match r, k with
  | [], _ => []
  | x :: r', O => byte_or x (n2b v) :: r'
  | x :: r', S k' => x :: or_at k' v r'
  end.

(* numbers.cpp 76-84: the masks, index 0..7 *)
Definition rshift_mask (n : N) : N := (0xff * 2 ^ n) mod 256.
Definition lshift_mask (n : N) : N := 0xff / 2 ^ n.

(* n % 8 and n / 8 for an int32, converted to size_t: truncation toward zero, then modulo 2^64 *)
Definition size_t_of (z : Z) : N := Z.to_N (z mod 2 ^ 64).

(* numbers.cpp 87-110.  A negative n with n % 8 <> 0 indexes the mask table out of range: [None]. *)
Definition right_shift (x : bytes) (n : Z) : option bytes :=
  let bit_shift := size_t_of (Z.rem n 8) in
  let byte_shift := size_t_of (Z.quot n 8) in
  if 8 <=? bit_shift then None
  else
    let mask := rshift_mask bit_shift in
    let overflow_mask := 255 - mask in
    Some (fold_left (fun res i =>
            let k := (N.of_nat i + byte_shift) mod 2 ^ 64 in
            let xi := b2n (nth i x x00) in
            let res := if k <? len x
                       then or_at (N.to_nat k) (N.land xi mask / 2 ^ bit_shift) res else res in
            if (k + 1) mod 2 ^ 64 <? len x
            then or_at (N.to_nat ((k + 1) mod 2 ^ 64)) ((N.land xi overflow_mask * 2 ^ (8 - bit_shift)) mod 256) res
            else res)
          (seq 0 (length x)) (repeat x00 (length x))).

(* numbers.cpp 113-136 *)
Definition left_shift (x : bytes) (n : Z) : option bytes :=
  let bit_shift := size_t_of (Z.rem n 8) in
  let byte_shift := size_t_of (Z.quot n 8) in
  if 8 <=? bit_shift then None
  else
    let mask := lshift_mask bit_shift in
    let overflow_mask := 255 - mask in
    Some (fold_left (fun res i =>
            if byte_shift <=? N.of_nat i then
              let k := N.of_nat i - byte_shift in
              let xi := b2n (nth i x x00) in
              let res := or_at (N.to_nat k) ((N.land xi mask * 2 ^ bit_shift) mod 256) res in
              if 1 <=? k then or_at (N.to_nat (k - 1)) (N.land xi overflow_mask / 2 ^ (8 - bit_shift)) res
              else res
            else res)
          (rev (seq 0 (length x))) (repeat x00 (length x))).

(* machine.cpp 57-63: the first four bytes *)
Definition read_as_uint32 (b : bytes) : N := le_val (firstn 4 b).

(* static_cast<int32> of a uint32 *)
Definition INT32_MAX : Z := 2147483647.

(* machine.cpp 493-503 and 514-524: the shift loop.  [fuel] = n / INT32_MAX is enough. *)
Fixpoint shift_loop (sh : bytes -> Z -> option bytes) (fuel : nat) (n : bytes) (v : bytes) : option bytes :=
  if (INT32_MAX <? sn_val n)%Z then
    match fuel with
    | O => None
    | S f => match sh v INT32_MAX with
             | Some v' => shift_loop sh f (sn_enc (sn_val n - INT32_MAX)) v'
             | None => None
             end
    end
  else sh v (int32_of (read_as_uint32 n)).

Definition shift_op (sh : bytes -> Z -> option bytes) (n v : bytes) : option bytes :=
  if (Z.of_N (len v * 8) <=? sn_val n)%Z then Some (repeat x00 (length v))
  else shift_loop sh (Z.to_nat (sn_val n / INT32_MAX)) n v.

(* numbers.hpp 138-142, for an unsigned integer held in the given bytes *)
Definition uint_serialized_size (u : bytes) : N :=
  let fix last_nonzero (i : N) (l : bytes) (acc : N) : N :=
    match l with
    | [] => acc
    | x :: l' => last_nonzero (i + 1) l' (if b2n x =? 0 then acc else i + 1)
    end in
  let last_0 := last_nonzero 0 u 0 in
  if last_0 =? 0 then 1
  else if 0x80 <=? b2n (nth (N.to_nat (last_0 - 1)) u x00) then last_0 + 2 else last_0 + 1.
