(* BIP 39: mnemonic sentences.
   Source: schema/bip_39.cpp 17-142, include/gigamonkey/schema/bip_39.hpp 16-32, schema/electrum_SV.cpp.
   Parameters: [sha] SHA-256; [pbkdf2] PBKDF2 with HMAC-SHA512 (password, salt, iterations, size).
   Texts are their UTF-8 bytes, as boost treats them.  Not modelled: the limits of int and of the stack. *)
From Verif Require Import Base WireModel MerkleModel TextModel Bip39Words.
From Coq Require Import String List.
Import ListNotations.
Local Open Scope list_scope.
Local Open Scope N_scope.

(* bip_39.hpp 19-22 *)
Inductive language := English | Japanese.
(* bip_39.cpp 26-35 *)
Definition word_list (l : language) : list bytes := match l with English => english_words | Japanese => japanese_words end.
(* bip_39.cpp 37-44: the ideographic space is three bytes of UTF-8 *)
Definition lang_split (l : language) : bytes := match l with English => [x20] | Japanese => [xe3; x80; x80] end.

(* x[i] = f (x[i]) *)
Fixpoint modify {A} (i : nat) (f : A -> A) (l : list A) : list A :=
  match l, i with
  | [], _ => []
  | x :: r, O => f x :: r
  | x :: r, S j => x :: modify j f r
  end.
(* bip_39.cpp 18-20 *)
Definition get_bit (i : nat) (b : bytes) : N := N.land (N.shiftr (b2n (nth (i / 8) b x00)) (N.of_nat (7 - i mod 8))) 1.
(* bip_39.cpp 22-24 *)
Definition set_bit (i : nat) (v : N) (b : bytes) : bytes :=
  modify (i / 8) (fun x => n2b (N.lor (b2n x) (N.shiftl v (N.of_nat (7 - i mod 8))))) b.

(* bip_39.cpp 76-78 and 133-135, conversions to byte included; it is undefined for more than 8 bits, where
   the second shift is by a negative number *)
Definition check_mask (len : nat) : N := N.shiftl ((N.shiftl 1 (N.of_nat len) - 1) mod 256) (N.of_nat (8 - len)) mod 256.

(* boost::trim_right; a white-space character is one of those of the C locale *)
Definition is_space (c : byte) : bool := (b2n c =? 32) || ((9 <=? b2n c) && (b2n c <=? 13)).
Fixpoint drop_spaces (s : bytes) : bytes :=
  match s with c :: r => if is_space c then drop_spaces r else s | [] => [] end.
Definition trim_right (s : bytes) : bytes := rev (drop_spaces (rev s)).

(* boost::split with is_any_of: separators next to each other have an empty word between them *)
Fixpoint split_any (seps : bytes) (cur : bytes) (s : bytes) : list bytes :=
  match s with
  | [] => [rev cur]
  | c :: r => if existsb (byte_eqb c) seps then rev cur :: split_any seps [] r else split_any seps (c :: cur) r
  end.

(* bip_39.cpp 111-116: the last position of the word *)
Fixpoint find_word (w : bytes) (j : nat) (found : option nat) (l : list bytes) : option nat :=
  match l with
  | [] => found
  | x :: r => find_word w (S j) (if bytes_eqb x w then Some j else found) r
  end.
(* bip_39.cpp 109-119 *)
Fixpoint find_words (ref : list bytes) (l : list bytes) : option (list nat) :=
  match l with
  | [] => Some []
  | w :: r => match find_word w 0 None ref with
              | None => None
              | Some j => match find_words ref r with Some js => Some (j :: js) | None => None end
              end
  end.

Inductive bip39_exn := Unimplemented.

Section Bip39.
Variable sha : bytes -> bytes.
Variable pbkdf2 : bytes -> bytes -> N -> N -> bytes.

(* bip_39.cpp 82-86: int16 holds the 11 bits *)
Definition word_indices (count : nat) (ent : bytes) : list N :=
  fold_left (fun idx i => modify (i / 11) (fun v => v + N.shiftl (get_bit i ent) (N.of_nat (10 - i mod 11))) idx)
    (seq 0 (count * 11)) (repeat 0 count).
(* bip_39.cpp 64-103.  Undef: an assertion fails *)
Definition generate (l : language) (ent : bytes) : outcome bip39_exn bytes :=
  match l with
  | Japanese => Throw Unimplemented
  | English =>
    let size := length ent in
    if (size mod 4 =? 0)%nat && (16 <=? size)%nat && (size <=? 32)%nat then
      let len := (size * 8 / 32)%nat in
      let check := N.land (b2n (nth 0 (sha ent) x00)) (check_mask len) in
      let idx := word_indices ((size * 8 + len) / 11) (ent ++ [n2b check]) in
      let words := map (fun i => nth (N.to_nat i) (word_list l) []) idx in
      Ret (trim_right (fold_left (fun out w => out ++ w ++ lang_split l) words []))
    else Undef
  end.

(* bip_39.cpp 121-128 *)
Definition index_bytes (idx : list nat) : bytes :=
  let bits := (length idx * 11)%nat in
  fold_left (fun b i => set_bit i (if N.testbit (N.of_nat (nth (i / 11) idx O)) (N.of_nat (10 - i mod 11)) then 1 else 0) b)
    (seq 0 bits) (repeat x00 ((bits + 7) / 8)).
(* bip_39.cpp 105-142 *)
Definition valid (l : language) (s : bytes) : outcome bip39_exn bool :=
  match find_words (word_list l) (split_any (lang_split l) [] s) with
  | None => Ret false
  | Some idx =>
    let b := index_bytes idx in
    let check := nth (length b - 1) b x00 in
    let digest := sha (firstn (length b - 1) b) in
    let len := ((length b - 1) * 8 / 32)%nat in
    if (8 <? len)%nat then Undef
    else Ret (N.land (b2n (nth 0 digest x00)) (check_mask len) =? b2n check)
  end.

(* bip_39.cpp 46-62 *)
Definition seed_read (l : language) (words passphrase : bytes) : outcome bip39_exn bytes :=
  match l with
  | Japanese => Throw Unimplemented
  | English => Ret (pbkdf2 words (text "mnemonic" ++ passphrase) 2048 64)
  end.

(* electrum_SV.cpp 10-24: everything is put into the password; the library's function takes no salt *)
Definition electrum_read (words passphrase : bytes) : bytes :=
  pbkdf2 (words ++ text "electrum" ++ passphrase) [] 2048 64.
End Bip39.
