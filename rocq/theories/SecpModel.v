(* Keys: arithmetic of secrets and public keys, sources of keys and of entropy.
   Source: secp256k1.cpp 209-370, include/gigamonkey/secp256k1.hpp, include/gigamonkey/schema/keysource.hpp,
   schema/random.cpp, include/gigamonkey/schema/random.hpp.
   libsecp256k1 is external.  Its scalars are big-endian numbers below the order.  The group is cyclic, so
   a point is given by its discrete logarithm, a number from 1 to the order less 1; [parse] and [ser]
   (true: compressed) are the encodings of points.  [strict] tells whether the functions on secrets refuse
   a secret that is not valid, as newer versions do. *)
From Verif Require Import Base WireModel MerkleModel TextModel.
Local Open Scope N_scope.

(* ---------------------------------------------------------------- libsecp256k1: scalars *)
Definition sk_sum (strict : bool) (a t : bytes) : option bytes :=
  let r := (be_val a + be_val t) mod secp_order in
  if (strict && negb (seckey_verify a)) || (secp_order <=? be_val t) || (r =? 0) then None else Some (be 32 r).
Definition sk_product (strict : bool) (a t : bytes) : option bytes :=
  if (strict && negb (seckey_verify a)) || negb (seckey_verify t) then None else Some (be 32 ((be_val a * be_val t) mod secp_order)).
Definition sk_negate (strict : bool) (a : bytes) : option bytes :=
  if strict && negb (seckey_verify a) then None else Some (be 32 ((secp_order - be_val a mod secp_order) mod secp_order)).
Definition is_some {A} (x : option A) : bool := match x with Some _ => true | None => false end.

(* ---------------------------------------------------------------- secrets *)
(* a bool converted to uint256, which is little-endian *)
Definition uint256_of_bool (b : bool) : bytes := le 32 (if b then 1 else 0).
(* secp256k1.cpp 325-329: the result is that of a comparison *)
Definition secret_plus (strict : bool) (a b : bytes) : bytes := uint256_of_bool (is_some (sk_sum strict a b)).
(* secp256k1.cpp 331-335 *)
Definition secret_times (strict : bool) (a b : bytes) : bytes := uint256_of_bool (is_some (sk_product strict a b)).
(* secp256k1.cpp 310-313 *)
Definition secret_negate (strict : bool) (a : bytes) : bytes := match sk_negate strict a with Some r => r | None => repeat x00 32 end.

(* ---------------------------------------------------------------- public keys *)
Section Points.
Variable parse : bytes -> option N.
Variable ser : bool -> N -> bytes.

(* serialize, secp256k1.cpp 222-227, into a sequence of the given size.  None: the library stops the
   program when there are fewer bytes than it needs *)
Definition serialize (size : nat) (p : N) : option bytes :=
  if (size =? 33)%nat then Some (ser true p)
  else if (size <? 65)%nat then None
  else if (size =? 65)%nat then Some (ser false p)
  else Some [].
(* secp256k1.cpp 217-220 and secp256k1.hpp 259-261 *)
Definition pubkey_valid (k : bytes) : bool := ((length k =? 33)%nat || (length k =? 65)%nat) && is_some (parse k).
(* secp256k1.cpp 229-241 *)
Definition secret_to_public (compressed : bool) (s : bytes) : bytes := if seckey_verify s then ser compressed (be_val s) else [].
(* secp256k1.cpp 247-253 and 255-261 *)
Definition pubkey_compress (k : bytes) : bytes :=
  if (length k =? 33)%nat then k else match parse k with Some p => ser true p | None => [] end.
Definition pubkey_decompress (k : bytes) : bytes :=
  if (length k =? 65)%nat then k else match parse k with Some p => ser false p | None => [] end.
(* secp256k1.cpp 315-322 *)
Definition pubkey_negate (k : bytes) : option bytes :=
  match parse k with Some p => serialize (length k) (secp_order - p) | None => Some [] end.
(* secp256k1.cpp 337-347: the list of keys that are combined has one element, the second key *)
Definition pubkey_plus (a b : bytes) : option bytes :=
  match parse b with Some q => serialize (length a) q | None => Some [] end.
(* secp256k1.cpp 349-356 *)
Definition pubkey_tweak (k s : bytes) : option bytes :=
  match parse k with
  | Some p => let r := (p + be_val s) mod secp_order in
              if (secp_order <=? be_val s) || (r =? 0) then Some [] else serialize (length k) r
  | None => Some []
  end.
(* secp256k1.cpp 358-365 *)
Definition pubkey_times (k s : bytes) : option bytes :=
  match parse k with
  | Some p => if seckey_verify s then serialize (length k) ((p * be_val s) mod secp_order) else Some []
  | None => Some []
  end.
(* secp256k1.hpp 263-267 *)
Definition pubkey_eqb (a b : bytes) : bool :=
  if negb (pubkey_valid a) || negb (pubkey_valid b) || (length a =? length b)%nat then bytes_eqb a b
  else bytes_eqb (pubkey_decompress a) (pubkey_decompress b).

(* secp256k1.cpp 291-308: [der] reads a signature, or leaves it zero, and [ecdsa] is the verification of a
   signature whose second half is low *)
Variable der : bytes -> option (N * N).
Variable ecdsa : N -> bytes -> N * N -> bool.
Definition normal (rs : N * N) : N * N := if secp_order / 2 <? snd rs then (fst rs, secp_order - snd rs) else rs.
Definition pubkey_verify (k d s : bytes) : bool :=
  let rs := match der s with Some x => x | None => (0, 0) end in
  match parse k with Some p => ecdsa p d (normal rs) | None => false end.
End Points.

(* ---------------------------------------------------------------- increment_key_source *)
(* keysource.hpp 56-61: the key and the next state *)
Definition increment_next (strict : bool) (key : bytes) : bytes * bytes := (key, secret_plus strict key (le 32 1)).
(* the n-th key *)
Fixpoint increment_key (strict : bool) (n : nat) (key : bytes) : bytes :=
  match n with O => fst (increment_next strict key) | S m => increment_key strict m (snd (increment_next strict key)) end.

(* ---------------------------------------------------------------- random_key_source *)
(* random.hpp 28-36: x begins without a network, and the network is set after the loop.  [draw i] is what the
   i-th reading of 32 bytes gives *)
Fixpoint random_loop (fuel : nat) (draw : nat -> bytes) (i : nat) : run (nat * secret) :=
  let x := mksecret NetInvalid (draw i) false in
  if secret_valid x then Done (S i, x)
  else match fuel with O => More | S f => random_loop f draw (S i) end.
Definition random_next (fuel : nat) (n : net) (compressed : bool) (draw : nat -> bytes) (i : nat) : run (nat * secret) :=
  match random_loop fuel draw i with
  | Done (j, x) => Done (j, mksecret n (s_value x) compressed)
  | Bad => Bad
  | More => More
  end.

(* ---------------------------------------------------------------- bitcoind_entropy *)
(* random.hpp 11-16 *)
Record entropy := mkentropy { en_data : bytes; en_position : N }.
Definition entropy_new : entropy := mkentropy (repeat x00 32) 32.
(* random.cpp 7-29, for a buffer of [size] bytes; Position is a uint32.  In the body of the loop more bytes
   are copied than the buffer holds, or the range to be copied ends before it begins: Undef, and the
   generator that refills Data comes too late to matter *)
Definition entropy_read (e : entropy) (size : N) : outcome unit (bytes * entropy) :=
  if size <? w32 (32 + 4294967296 - en_position e) then Undef
  else if 32 <? size then Undef
  else Ret (firstn (N.to_nat size) (en_data e), mkentropy (en_data e) (w32 (en_position e + size))).
(* several readings, one after the other *)
Fixpoint entropy_reads (e : entropy) (sizes : list N) : outcome unit (list bytes) :=
  match sizes with
  | [] => Ret []
  | s :: r =>
    match entropy_read e s with
    | Ret (b, e') => match entropy_reads e' r with Ret l => Ret (b :: l) | Throw t => Throw t | Undef => Undef end
    | Throw t => Throw t
    | Undef => Undef
    end
  end.
