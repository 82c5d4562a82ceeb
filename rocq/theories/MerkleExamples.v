(* Sample data for the Merkle examples: a toy hash with 32-byte results. *)
From Verif Require Import Base BaseProofs MerkleModel MerkleSpec.
Local Open Scope N_scope.

Definition ex_hash32 (m : bytes) : bytes :=
  repeat (n2b (fold_left (fun a b => (a * 33 + b2n b + 1) mod 251) m 7)) 32.
Definition ex_digest (n : N) : bytes := repeat (n2b n) 32.
Definition ex_leaves : list bytes := map ex_digest [1; 2; 3].

Lemma ex_hash32_sized : forall m, length (ex_hash32 m) = 32%nat.
Proof. intros. apply repeat_length. Qed.
Lemma ex_leaves_sized : sized_leaf_digests ex_leaves.
Proof. repeat constructor. Qed.
