(* Base 58 notation and the text forms, stated without the code's loops. *)
From Verif Require Import Base WireModel MerkleModel TextModel.
Local Open Scope N_scope.

(* the value of a sequence of digits, the first being the most significant *)
Fixpoint horner_from (acc base : N) (ds : list N) : N :=
  match ds with
  | [] => acc
  | d :: r => horner_from (acc * base + d) base r
  end.
Definition horner (base : N) (ds : list N) : N := horner_from 0 base ds.
(* s is the base 58 notation of data: a one for each leading zero, then the rest as a number *)
Definition b58_text (s data : bytes) : Prop :=
  exists (z : nat) (ds : list N) (rest : bytes),
    s = repeat char_one z ++ map b58_char ds /\ data = repeat x00 z ++ rest /\
    Forall (fun d => d < 58) ds /\ hd 1 ds <> 0 /\ hd x01 rest <> x00 /\
    horner 58 ds = horner 256 (map b2n rest).

(* some byte is not zero *)
Definition nonzero (b : bytes) : Prop := exists x, In x b /\ x <> x00.

(* one replacement, insertion or deletion away *)
Inductive one_edit : bytes -> bytes -> Prop :=
| edit_replace a x y b : In y b58_chars -> one_edit (a ++ x :: b) (a ++ y :: b)
| edit_insert a y b : In y b58_chars -> one_edit (a ++ b) (a ++ y :: b)
| edit_delete a x b : one_edit (a ++ x :: b) (a ++ b).

(* upper-case hexadecimal digits *)
Definition is_upper_hex (s : bytes) : Prop := Forall (fun c => In c hex_upper) s.

(* the two readings of the bytes of a secret: a key is usable when the number read is a nonzero residue
   of the order of the group *)
Definition usable (n : N) : Prop := 0 < n < secp_order.

(* the bytes behind an address and a WIF text *)
Definition prefix_of (n : net) : byte := match n with NetMain => address_main | _ => address_test end.
Definition wif_prefix (n : net) : byte := match n with NetMain => wif_main | _ => wif_test end.
Definition wif_payload (s : secret) : bytes := wif_prefix (s_net s) :: s_value s ++ (if s_compressed s then [wif_suffix] else []).
(* upper-case hexadecimal *)
Definition hex_write_upper (b : bytes) : bytes :=
  flat_map (fun x => [nth (N.to_nat (b2n x / 16)) hex_upper x00; nth (N.to_nat (b2n x mod 16)) hex_upper x00]) b.
