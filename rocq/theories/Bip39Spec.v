(* Mnemonic sentences as BIP 39 has them, in terms of bits. *)
From Verif Require Import Base WireModel MerkleModel TextModel Bip39Words Bip39Model.
Local Open Scope N_scope.

(* the k last bits of n, the most significant first *)
Fixpoint to_bits (k : nat) (n : N) : list bool := match k with O => [] | S j => N.testbit n (N.of_nat j) :: to_bits j n end.
Definition bits (b : bytes) : list bool := flat_map (fun x => to_bits 8 (b2n x)) b.

(* words with one space between them *)
Fixpoint join (l : list bytes) : bytes :=
  match l with
  | [] => []
  | [w] => w
  | w :: r => w ++ x20 :: join r
  end.
Definition sentence (ws : list bytes) (idx : list nat) : bytes := join (map (fun i => nth i ws []) idx).
(* each word stands for 11 bits *)
Definition index_bits (idx : list nat) : list bool := flat_map (fun i => to_bits 11 (N.of_nat i)) idx.

(* a list of words that can be told apart: 2^11 different words of small letters *)
Definition letter (c : byte) : bool := (97 <=? b2n c) && (b2n c <=? 122).
Definition word (w : bytes) : bool := match w with [] => false | _ => forallb letter w end.
Definition good_words (ws : list bytes) : Prop := length ws = 2048%nat /\ NoDup ws /\ Forall (fun w => word w = true) ws.

Section Spec.
Variable sha : bytes -> bytes.
(* BIP 39: entropy of 128 to 256 bits, a multiple of 32, is followed by one bit of its SHA-256 for every 32 *)
Definition entropy_size (e : bytes) (k : nat) : Prop := (length e = 4 * k)%nat /\ (4 <= k <= 8)%nat.
Definition mnemonic (ws : list bytes) (e : bytes) (s : bytes) : Prop :=
  exists k idx, entropy_size e k /\ Forall (fun i => (i < 2048)%nat) idx /\
    index_bits idx = bits e ++ firstn k (bits (sha e)) /\ s = sentence ws idx.

(* what this code accepts: whole bytes, then 1 to 8 bits that agree with the beginning of the SHA-256 when both are
   filled up with zeros to a byte *)
Definition fill (l : list bool) : list bool := l ++ repeat false (8 - length l).
Definition accepted (e : bytes) (c : list bool) : Prop :=
  (1 <= length c <= 8)%nat /\ (length e / 4 <= 8)%nat /\ fill c = fill (firstn (length e / 4) (bits (sha e))).
End Spec.
