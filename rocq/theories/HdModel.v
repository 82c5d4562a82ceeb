(* BIP 32: derivation paths, child keys and extended keys.
   Source: schema/hd.cpp, include/gigamonkey/schema/hd.hpp.
   Parameters: [hmac] HMAC-SHA512 (key, message), 64 bytes; [h160] Hash160; [pub] the compressed public
   key of the 32 bytes of a secret (secp256k1.cpp 229-234); [tweak] secp256k1::tweak (secp256k1.cpp
   349-356), empty when libsecp256k1 refuses; [H] and [e58] as in TextModel.
   Not modelled: the exceptions of CryptoPP, pubkey::valid and operator ==. *)
From Verif Require Import Base WireModel MerkleModel TextModel.
From Coq Require Import String List.
Import ListNotations.
Local Open Scope list_scope.
Local Open Scope N_scope.

(* ---------------------------------------------------------------- paths *)
(* hd.hpp 33-43 *)
Definition hardened (child : N) : bool := 0x80000000 <=? child.
Definition harden (child : N) : N := N.lor child 0x80000000.
Definition soften (child : N) : N := N.land child 0x7fffffff.

Definition is_digit (c : byte) : bool := (48 <=? b2n c) && (b2n c <=? 57).
Definition char_quote : byte := "'"%byte.
Definition char_slash : byte := "/"%byte.
(* the loop of hd.cpp 342-365.  [p] is what begins at position i (a uint32 that is taken not to wrap
   around), [n] the number being read, [paths] the list so far; n is less than 2^31 before it is
   multiplied, so the uint64 does not wrap and fits the uint32 of the list.  [More]: not finished *)
Fixpoint read_path_loop (fuel : nat) (p : bytes) (n : N) (paths : list N) : run (list N) :=
  match p with
  | [] => Done paths
  | c :: r =>
    match fuel with
    | O => More
    | S f =>
      if is_digit c then
        let n := n * 10 + (b2n c - 48) in
        if 0x80000000 <=? n then Done []
        else read_path_loop f r n (match r with [] => paths ++ [n] | _ => paths end)
      else if byte_eqb c char_quote then
        read_path_loop f (skipn 1 r) 0 (paths ++ [N.lor n 0x80000000])
      else if byte_eqb c char_slash then
        match r with
        | d :: _ => if is_digit d then read_path_loop f r 0 (paths ++ [n]) else Done []
        | [] => Done []
        end
      else read_path_loop f p n paths
    end
  end.
(* hd.cpp 337-368 *)
Definition read_path (fuel : nat) (p : bytes) : run (list N) :=
  match p with [] => Done [] | _ => read_path_loop fuel p 0 [] end.

(* ---------------------------------------------------------------- extended keys *)
(* hd.hpp 97-102 and 52-57; the key is 32 bytes, or those of a public key *)
Record xkey := mkxkey { x_key : bytes; x_chain : bytes; x_net : net; x_depth : N; x_parent : N; x_sequence : N }.
Definition xsecret_none : xkey := mkxkey (repeat x00 32) (repeat x00 32) NetMain 0 0 0.
Definition xpubkey_none : xkey := mkxkey [] (repeat x00 32) NetMain 0 0 0.

Section Hd.
Variable hmac : bytes -> bytes -> bytes.
Variable h160 : bytes -> bytes.
Variable pub : bytes -> bytes.
Variable tweak : bytes -> bytes -> bytes.
Variable H : bytes -> bytes.
Variable e58 : bytes.

(* hd.cpp 26-29 *)
Definition fingerprint (d : bytes) : N := be_val (firstn 4 d).
(* Depth is a byte *)
Definition next_depth (d : N) : N := (d + 1) mod 256.

(* hd.cpp 31-99.  child + 1 is a uint32 operation *)
Definition secret_data (x : xkey) (child : N) : bytes :=
  (if hardened child then x00 :: x_key x else pub (x_key x)) ++ be 4 child.
Fixpoint derive_secret (fuel : nat) (x : xkey) (child : N) : run xkey :=
  let hm := hmac (x_chain x) (secret_data x child) in
  let again := match fuel with O => More | S f => derive_secret f x (w32 (child + 1)) end in
  let ll := be_val (firstn 32 hm) in
  if secp_order <? ll then again
  else let key := (ll + be_val (x_key x)) mod secp_order in
  if key =? 0 then again
  else Done (mkxkey (be 32 key) (firstn 32 (skipn 32 hm)) (x_net x) (next_depth (x_depth x)) (fingerprint (h160 (pub (x_key x)))) child).

(* hd.cpp 101-149.  Here the left half is not reversed before it is read as a little-endian uint256 *)
Fixpoint derive_pubkey (fuel : nat) (x : xkey) (child : N) : run xkey :=
  if hardened child then Done xpubkey_none
  else
    let hm := hmac (x_chain x) (x_key x ++ be 4 child) in
    if secp_order <? le_val (firstn 32 hm) then match fuel with O => More | S f => derive_pubkey f x (w32 (child + 1)) end
    else Done (mkxkey (tweak (x_key x) (firstn 32 hm)) (firstn 32 (skipn 32 hm)) (x_net x) (next_depth (x_depth x)) (fingerprint (h160 (x_key x))) child).

(* hd.hpp 143-151 *)
Fixpoint derive_path (step : xkey -> N -> run xkey) (x : xkey) (l : list N) : run xkey :=
  match l with
  | [] => Done x
  | c :: r => match step x c with
              | Done y => derive_path step y r
              | Bad => Bad
              | More => More
              end
  end.
Definition derive_secret_path (fuel : nat) : xkey -> list N -> run xkey := derive_path (derive_secret fuel).
Definition derive_pubkey_path (fuel : nat) : xkey -> list N -> run xkey := derive_path (derive_pubkey fuel).
(* hd.hpp 161-175: the path as text *)
Definition derive_secret_text (fuel : nat) (x : xkey) (p : bytes) : run xkey :=
  match read_path fuel p with Done l => derive_secret_path fuel x l | Bad => Bad | More => More end.

(* hd.cpp 251-260 *)
Definition to_public (x : xkey) : xkey :=
  mkxkey (pub (x_key x)) (x_chain x) (x_net x) (x_depth x) (x_parent x) (x_sequence x).
(* hd.cpp 228-249 *)
Definition secret_from_seed (seed : bytes) (n : net) : xkey :=
  let hm := hmac (text "Bitcoin seed") seed in
  mkxkey (firstn 32 hm) (firstn 32 (skipn 32 hm)) n 0 0 0.
(* hd.cpp 267-269 *)
Definition pubkey_from_seed (seed : bytes) (n : net) : xkey := to_public (secret_from_seed seed n).

(* ---- text form ---- *)
Definition xprv_main : bytes := [x88; xad; xe4].
Definition xprv_test : bytes := [x35; x83; x94].
Definition xpub_main : bytes := [x88; xb2; x1e].
Definition xpub_test : bytes := [x35; x87; xcf].
Definition x_version : byte := x04.
Definition is_main (n : net) : bool := match n with NetMain => true | _ => false end.
(* hd.cpp 151-180 *)
Definition xsecret_write (x : xkey) : bytes :=
  check_encode H e58 (x_version :: (if is_main (x_net x) then xprv_main else xprv_test) ++ [n2b (x_depth x)] ++ be 4 (x_parent x) ++ be 4 (x_sequence x) ++
                      x_chain x ++ [x00] ++ x_key x).
(* hd.cpp 271-294 *)
Definition xpubkey_write (x : xkey) : bytes :=
  check_encode H e58 (x_version :: (if is_main (x_net x) then xpub_main else xpub_test) ++ [n2b (x_depth x)] ++ be 4 (x_parent x) ++ be 4 (x_sequence x) ++
                      x_chain x ++ x_key x).
(* the part of read that is the same for both, hd.cpp 182-226 and 296-330: the key begins at [from].
   The range of the prefix, the reader and the slices are all inside the 77 bytes.  A check that is not
   valid has version 0 (checksum.hpp 66-74) *)
Definition x_read (main test : bytes) (from : nat) (none : xkey) (s : bytes) : xkey :=
  match check_decode H s with
  | [] => none
  | v :: view =>
    if negb (byte_eqb v x_version) then none
    else if negb (length view =? 77)%nat then none
    else
      let prefix := firstn 3 view in
      let net := if bytes_eqb main prefix then Some NetMain else if bytes_eqb test prefix then Some NetTest else None in
      match net with
      | None => none
      | Some n =>
        mkxkey (skipn from view) (firstn 32 (skipn 12 view)) n
               (b2n (nth 3 view x00)) (be_val (firstn 4 (skipn 4 view))) (be_val (firstn 4 (skipn 8 view)))
      end
  end.
Definition xsecret_read (s : bytes) : xkey := x_read xprv_main xprv_test 45 xsecret_none s.
Definition xpubkey_read (s : bytes) : xkey := x_read xpub_main xpub_test 44 xpubkey_none s.
(* hd.hpp 118-120 *)
Definition xsecret_valid (x : xkey) : bool :=
  secp_secret_valid (x_key x) && match x_net x with NetInvalid => false | _ => true end.

(* ---- sources of keys, hd.hpp 187-230 ---- *)
(* next: the key and the index afterwards *)
Definition hd_next (step : xkey -> N -> run xkey) (key : xkey) (index : N) : run xkey * N :=
  (derive_path step key [index], w32 (index + 1)).
End Hd.
