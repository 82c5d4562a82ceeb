(* Derivation paths and BIP 32, stated without the code's loops. *)
From Verif Require Import Base WireModel MerkleModel TextModel TextSpec HdModel.
Local Open Scope N_scope.

(* ---- paths ---- *)
Definition digit_value (c : byte) : N := b2n c - 48.
(* s is a decimal numeral, perhaps with leading zeros, of n *)
Definition numeral (s : bytes) (n : N) : Prop := s <> [] /\ Forall (fun c => is_digit c = true) s /\ horner 10 (map digit_value s) = n.
(* one step of a path: a numeral below 2^31, with a quote if it is hardened *)
Definition step_text (s : bytes) (c : N) : Prop :=
  (c < 0x80000000 /\ numeral s c) \/
  (exists t n, s = t ++ [char_quote] /\ numeral t n /\ n < 0x80000000 /\ c = n + 0x80000000).
(* steps separated by slashes *)
Inductive path_text : bytes -> list N -> Prop :=
| pt_nil : path_text [] []
| pt_one s c : step_text s c -> path_text s [c]
| pt_more s c t l : step_text s c -> path_text t l -> l <> [] -> path_text (s ++ char_slash :: t) (c :: l).
(* the canonical text *)
Definition decimal (n : N) : bytes := if n =? 0 then [n2b 48] else rev (map (fun d => n2b (d + 48)) (digits 10 n)).
Definition step_write (c : N) : bytes := if c <? 0x80000000 then decimal c else decimal (c - 0x80000000) ++ [char_quote].
Fixpoint path_write (l : list N) : bytes :=
  match l with
  | [] => []
  | [c] => step_write c
  | c :: r => step_write c ++ char_slash :: path_write r
  end.
Definition path_char (c : byte) : Prop := is_digit c = true \/ c = char_quote \/ c = char_slash.

(* ---- BIP 32 ---- *)
Section Bip32.
Variable hmac : bytes -> bytes -> bytes.
Variable h160 : bytes -> bytes.
Variable pub : bytes -> bytes.
Variable tweak : bytes -> bytes -> bytes.

(* the two halves of the HMAC for a child *)
Definition half_secret (x : xkey) (i : N) : bytes :=
  firstn 32 (hmac (x_chain x) ((if i <? 2 ^ 31 then pub (x_key x) else x00 :: x_key x) ++ be 4 i)).
Definition chain_secret (x : xkey) (i : N) : bytes :=
  firstn 32 (skipn 32 (hmac (x_chain x) ((if i <? 2 ^ 31 then pub (x_key x) else x00 :: x_key x) ++ be 4 i))).
Definition half_public (x : xkey) (i : N) : bytes := firstn 32 (hmac (x_chain x) (x_key x ++ be 4 i)).
Definition chain_public (x : xkey) (i : N) : bytes := firstn 32 (skipn 32 (hmac (x_chain x) (x_key x ++ be 4 i))).
Definition sum_key (x : xkey) (i : N) : N := (be_val (half_secret x i) + be_val (x_key x)) mod secp_order.

(* CKDpriv: no child when the left half is not below the order or the sum is zero *)
Definition ckd_priv (x : xkey) (i : N) : option xkey :=
  if (secp_order <=? be_val (half_secret x i)) || (sum_key x i =? 0) then None
  else Some (mkxkey (be 32 (sum_key x i)) (chain_secret x i) (x_net x) ((x_depth x + 1) mod 256) (be_val (firstn 4 (h160 (pub (x_key x))))) i).
(* CKDpub; tweak gives no bytes when the left half is not below the order or the sum is the point at infinity *)
Definition ckd_pub (x : xkey) (i : N) : option xkey :=
  if 2 ^ 31 <=? i then None
  else match tweak (x_key x) (half_public x i) with
  | [] => None
  | k => Some (mkxkey k (chain_public x i) (x_net x) ((x_depth x + 1) mod 256) (be_val (firstn 4 (h160 (x_key x)))) i)
  end.

(* the keys this code makes *)
Definition secret_child (x : xkey) (i : N) : xkey :=
  mkxkey (be 32 (sum_key x i)) (chain_secret x i) (x_net x) ((x_depth x + 1) mod 256) (be_val (firstn 4 (h160 (pub (x_key x))))) i.
Definition public_child (x : xkey) (i : N) : xkey :=
  mkxkey (tweak (x_key x) (half_public x i)) (chain_public x i) (x_net x) ((x_depth x + 1) mod 256) (be_val (firstn 4 (h160 (x_key x)))) i.
(* and the indices it does not skip *)
Definition takes_secret (x : xkey) (i : N) : Prop := be_val (half_secret x i) <= secp_order /\ sum_key x i <> 0.
Definition takes_public (x : xkey) (i : N) : Prop := le_val (half_public x i) <= secp_order.

(* adding a multiple of the generator to a public key is adding to the secret; what is not a residue is refused *)
Definition tweak_adds : Prop :=
  (forall s t, length s = 32%nat -> length t = 32%nat -> usable (be_val s) -> be_val t < secp_order ->
     (be_val t + be_val s) mod secp_order <> 0 -> tweak (pub s) t = pub (be 32 ((be_val t + be_val s) mod secp_order))) /\
  (forall k t, secp_order <= be_val t -> tweak k t = []) /\
  (forall s, length s = 32%nat -> usable (be_val s) -> length (pub s) = 33%nat).
Definition hmac_sized : Prop := forall k m, length (hmac k m) = 64%nat.

(* the left half for child i is taken by both and means the same to both *)
Definition plain_half (x : xkey) (i : N) : Prop :=
  i < 2 ^ 31 /\ be_val (half_secret x i) < secp_order /\ le_val (half_secret x i) <= secp_order /\ sum_key x i <> 0.
Fixpoint plain_path (x : xkey) (l : list N) : Prop :=
  match l with
  | [] => True
  | i :: r => plain_half x i /\ plain_path (secret_child x i) r
  end.
End Bip32.

Definition map_run {A B} (f : A -> B) (r : run A) : run B := match r with Done a => Done (f a) | Bad => Bad | More => More end.

(* ---- extended keys ---- *)
Definition xkey_wf (size : nat) (x : xkey) : Prop :=
  length (x_key x) = size /\ length (x_chain x) = 32%nat /\ x_net x <> NetInvalid /\ x_depth x < 256 /\ x_parent x < 2 ^ 32 /\ x_sequence x < 2 ^ 32.
Definition x_prefix (main test : bytes) (x : xkey) : bytes := match x_net x with NetMain => main | _ => test end.
(* the bytes behind the text: what comes between the chain code and the key is [sep] *)
Definition x_payload (main test sep : bytes) (x : xkey) : bytes :=
  x_version :: x_prefix main test x ++ [n2b (x_depth x)] ++ be 4 (x_parent x) ++ be 4 (x_sequence x) ++ x_chain x ++ sep ++ x_key x.

(* ---- masters and sources ---- *)
(* BIP 32: I = HMAC-SHA512(Key = "Bitcoin seed", Data = S); the master key is the left half, the chain code the right *)
Definition bip32_label : bytes := [x42; x69; x74; x63; x6f; x69; x6e; x20; x73; x65; x65; x64].
Definition is_master (hmac : bytes -> bytes -> bytes) (seed : bytes) (n : net) (x : xkey) : Prop :=
  x_key x ++ x_chain x = hmac bip32_label seed /\ length (x_key x) = 32%nat /\ length (x_chain x) = 32%nat /\
  x_net x = n /\ x_depth x = 0 /\ x_parent x = 0 /\ x_sequence x = 0.
(* BIP 32: the master is invalid if its key is zero or not below the order *)
Definition bip32_master (hmac : bytes -> bytes -> bytes) (seed : bytes) (n : net) (x : xkey) : Prop :=
  is_master hmac seed n x /\ usable (be_val (x_key x)).
(* what a source gives when it is asked k times *)
Fixpoint source_keys (next : N -> run xkey * N) (index : N) (k : nat) : list (run xkey) :=
  match k with O => [] | S k => fst (next index) :: source_keys next (snd (next index)) k end.
