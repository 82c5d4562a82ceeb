(* Text forms: Base58Check, addresses, WIF and BIP 276.
   Source: p2p/checksum.cpp, include/gigamonkey/p2p/checksum.hpp, address.cpp, address.hpp, wif.cpp,
   wif.hpp, script/typed_data_bip_276.cpp and .hpp.
   Characters are bytes (ASCII).  Hash256 is the parameter [H].  From the external library:
   encoding::base58::write and read, which are called only on a sequence without leading zeros (or
   ones), are positional notation; what write gives for an empty sequence is the parameter [e58];
   encoding::hex::write and read are the usual two characters for each byte.  int indices are taken not
   to overflow. *)
From Verif Require Import Base WireModel MerkleModel.
From Coq Require Import String List.
Import ListNotations.
Local Open Scope list_scope.
Local Open Scope N_scope.

Definition text (s : string) : bytes := list_byte_of_string s.

(* ---------------------------------------------------------------- positional notation (external) *)
Definition b58_chars : bytes := text "123456789ABCDEFGHJKLMNPQRSTUVWXYZabcdefghijkmnopqrstuvwxyz".
Fixpoint index_of (c : byte) (l : bytes) : option nat :=
  match l with
  | [] => None
  | x :: r => if byte_eqb c x then Some O else match index_of c r with Some k => Some (S k) | None => None end
  end.
Definition b58_digit (c : byte) : option N := match index_of c b58_chars with Some k => Some (N.of_nat k) | None => None end.
Definition b58_char (d : N) : byte := nth (N.to_nat d) b58_chars x00.
(* the digits of n, the least first *)
Fixpoint digits_loop (fuel : nat) (base n : N) : list N :=
  match fuel with
  | O => []
  | S f => if n =? 0 then [] else n mod base :: digits_loop f base (n / base)
  end.
Definition digits (base n : N) : list N := digits_loop (N.to_nat (N.size n)) base n.
Definition b58_write (e58 : bytes) (x : bytes) : bytes :=
  match x with
  | [] => e58
  | _ => rev (map b58_char (digits 58 (be_val x)))
  end.
Fixpoint b58_value (acc : N) (s : bytes) : option N :=
  match s with
  | [] => Some acc
  | c :: r => match b58_digit c with Some d => b58_value (acc * 58 + d) r | None => None end
  end.
Definition b58_read (s : bytes) : option bytes :=
  match b58_value 0 s with
  | Some n => Some (rev (map n2b (digits 256 n)))
  | None => None
  end.

Section Text.
Variable H : bytes -> bytes.
Variable e58 : bytes.

(* ---------------------------------------------------------------- checksums *)
(* checksum.cpp 19-26 *)
Definition checksum (b : bytes) : bytes := firstn 4 (H b).
(* checksum.cpp 10-17 *)
Definition append_checksum (b : bytes) : bytes := b ++ checksum b.
(* checksum.cpp 28-37 *)
Definition remove_checksum (b : bytes) : bytes :=
  if (length b <? 4)%nat then []
  else let without := firstn (length b - 4) b in
       if bytes_eqb (skipn (length b - 4) b) (checksum without) then without else [].

(* ---------------------------------------------------------------- base58::check *)
(* the loops that count at checksum.cpp 46 and 58 *)
Fixpoint leading (c : byte) (l : bytes) : nat :=
  match l with
  | x :: r => if byte_eqb x c then S (leading c r) else O
  | [] => O
  end.
Definition char_one : byte := "1"%byte.
(* checksum.cpp 43-53.  A check is the version byte followed by the payload *)
Definition check_encode (v : bytes) : bytes :=
  let data := append_checksum v in
  let z := leading x00 data in
  repeat char_one z ++ b58_write e58 (skipn z data).
(* checksum.cpp 55-74; checksum.hpp 66-68: valid is not empty *)
Definition check_decode (s : bytes) : bytes :=
  let z := leading char_one s in
  match (if (z =? length s)%nat then Some [] else b58_read (skipn z s)) with
  | Some d => remove_checksum (repeat x00 z ++ d)
  | None => []
  end.
Definition check_valid (v : bytes) : bool := match v with [] => false | _ => true end.

(* recover, checksum.cpp 78-136: the candidates in the order in which they are tried.  In the loop over
   replacements the letter that is compared (line 96) is the one tried last *)
Fixpoint replace_tries (pre post : bytes) (cur : byte) (cs : bytes) : list bytes :=
  match cs with
  | [] => []
  | c :: r => if byte_eqb cur c then replace_tries pre post cur r else (pre ++ c :: post) :: replace_tries pre post c r
  end.
Definition replacements (s : bytes) : list bytes :=
  flat_map (fun i => match skipn i s with c :: post => replace_tries (firstn i s) post c b58_chars | [] => [] end) (seq 0 (length s)).
Definition insertions (s : bytes) : list bytes :=
  flat_map (fun i => map (fun c => firstn i s ++ c :: skipn i s) b58_chars) (seq 0 (S (length s))).
Definition deletions (s : bytes) : list bytes := map (fun i => firstn i s ++ skipn (S i) s) (seq 0 (length s)).
Fixpoint first_valid (l : list bytes) : bytes :=
  match l with
  | [] => []
  | s :: r => let x := check_decode s in if check_valid x then x else first_valid r
  end.
Definition check_recover (s : bytes) : bytes := first_valid (s :: replacements s ++ insertions s ++ deletions s).

(* ---------------------------------------------------------------- addresses *)
(* types.hpp 85 *)
Inductive net := NetInvalid | NetMain | NetTest.
(* address.hpp 25-28 *)
Definition address_main : byte := x00.
Definition address_test : byte := x6f.
(* address.cpp 9-17 *)
Definition address_encode (n : net) (d : bytes) : bytes :=
  check_encode ((match n with NetMain => address_main | _ => address_test end) :: d).
(* address.hpp 56-58, 119: the result of a failure *)
Definition address_none : net * bytes := (NetInvalid, repeat x00 20).
(* address.cpp 19-40 *)
Definition address_decode (s : bytes) : net * bytes :=
  if ((35 <? length s) || (length s <? 5))%nat then address_none
  else match check_decode s with
  | [] => address_none
  | v :: payload =>
    if negb (byte_eqb v address_main || byte_eqb v address_test) then address_none
    else if (20 <? length payload)%nat then address_none
    else (if byte_eqb v address_main then NetMain else NetTest, payload ++ repeat x00 (20 - length payload))
  end.
(* address.hpp 129-131 *)
Definition address_valid (d : net * bytes) : bool :=
  negb (bytes_eqb (snd d) (repeat x00 20)) && match fst d with NetInvalid => false | _ => true end.

(* ---------------------------------------------------------------- secrets and WIF *)
(* secp256k1.hpp 140-143; uint256 is little-endian (types.hpp 43-47) *)
Definition secp_order : N := 0xFFFFFFFFFFFFFFFFFFFFFFFFFFFFFFFEBAAEDCE6AF48A03BBFD25E8CD0364141.
(* secp256k1.hpp 257-259: the 32 bytes of the value *)
Definition secp_secret_valid (s : bytes) : bool := negb (le_val s =? 0) && (le_val s <? secp_order).
(* secp256k1.cpp 213-215: secp256k1_ec_seckey_verify reads the same bytes big-endian *)
Definition seckey_verify (s : bytes) : bool := negb (be_val s =? 0) && (be_val s <? secp_order).
(* wif.hpp 32-70 *)
Record secret := mksecret { s_net : net; s_value : bytes; s_compressed : bool }.
Definition secret_none : secret := mksecret NetInvalid (repeat x00 32) false.
(* wif.hpp 125-127 *)
Definition secret_valid (s : secret) : bool :=
  secp_secret_valid (s_value s) && match s_net s with NetInvalid => false | _ => true end.
(* wif.hpp 76-79, 88 *)
Definition wif_main : byte := x80.
Definition wif_test : byte := xef.
Definition wif_suffix : byte := x01.
(* wif.cpp 38-52 *)
Definition wif_encode (s : secret) : bytes :=
  if negb (secret_valid s) then []
  else check_encode ((match s_net s with NetMain => wif_main | _ => wif_test end) :: s_value s ++ (if s_compressed s then [wif_suffix] else [])).
(* wif.cpp 10-36 *)
Definition wif_decode (t : bytes) : secret :=
  match check_decode t with
  | [] => secret_none
  | p :: r =>
    let size := S (length r) in
    if negb ((size =? 33) || (size =? 34))%nat then secret_none
    else let compressed := (size =? 34)%nat in
    if negb (byte_eqb p wif_main || byte_eqb p wif_test) then secret_none
    else let w := mksecret (if byte_eqb p wif_main then NetMain else NetTest) (firstn 32 r) compressed in
    if compressed && negb (byte_eqb (nth 32 r x00) wif_suffix) then secret_none else w
  end.

(* ---------------------------------------------------------------- BIP 276 *)
Definition hex_lower : bytes := text "0123456789abcdef".
Definition hex_upper : bytes := text "0123456789ABCDEF".
Definition hex_write (b : bytes) : bytes :=
  flat_map (fun x => [nth (N.to_nat (b2n x / 16)) hex_lower x00; nth (N.to_nat (b2n x mod 16)) hex_lower x00]) b.
Definition hex_digit (c : byte) : option N :=
  match index_of c hex_lower with
  | Some k => Some (N.of_nat k)
  | None => match index_of c hex_upper with Some k => Some (N.of_nat k) | None => None end
  end.
Fixpoint hex_read (s : bytes) : option bytes :=
  match s with
  | [] => Some []
  | a :: b :: r =>
    match hex_digit a, hex_digit b, hex_read r with
    | Some x, Some y, Some t => Some (n2b (16 * x + y) :: t)
    | _, _, _ => None
    end
  | _ => None
  end.
Definition in_chars (l : bytes) (c : byte) : bool := match index_of c l with Some _ => true | None => false end.
(* (([..][..])* ) of typed_data_bip_276.hpp 31 *)
Definition hex_pairs (l : bytes) (s : bytes) : bool := Nat.even (length s) && forallb (in_chars l) s.
Fixpoint starts_with (p s : bytes) : option bytes :=
  match p, s with
  | [], _ => Some s
  | x :: p', y :: s' => if byte_eqb x y then starts_with p' s' else None
  | _, _ => None
  end.
Definition bip276_prefix : bytes := text "bitcoin-script:".
(* the pattern, typed_data_bip_276.hpp 31: the bar binds least, so the prefix belongs to the first
   alternative only *)
Definition bip276_match (z : bytes) : bool :=
  (match starts_with bip276_prefix z with Some r => hex_pairs hex_lower r | None => false end) || hex_pairs hex_upper z.
(* typed_data_bip_276.cpp 7-27; there is one type *)
Definition bip276_write (version network : byte) (b : bytes) : bytes :=
  let t := bip276_prefix ++ hex_write (version :: network :: b) in
  t ++ hex_write (checksum t).
(* typed_data_bip_276.cpp 29-52.  [Ret None]: not valid; [Undef]: hex::read has failed and its result is
   used; otherwise the network and the data, with version 1 *)
Definition bip276_read (z : bytes) : outcome unit (option (byte * bytes)) :=
  if (length z <=? 27)%nat then Ret None
  else if negb (bip276_match z) then Ret None
  else match hex_read (skipn (length z - 8) z) with
  | None => Undef
  | Some last =>
    if negb (bytes_eqb last (checksum (firstn (length z - 8) z))) then Ret None
    else match hex_read (firstn (length z - 23) (skipn 15 z)) with
    | None => Undef
    | Some (v :: n :: d) =>
      if negb (b2n v =? 1) || (2 <? b2n n) then Ret None else Ret (Some (n, d))
    | Some _ => Undef
    end
  end.
End Text.
