(* Sample data for the text examples. *)
From Verif Require Import Base MerkleModel MerkleExamples TextModel TextSpec.
Local Open Scope N_scope.

Definition ex_payload : bytes := [x00; x00; x12; x34; x56; x00].
Definition ex_hash160 : bytes := map n2b [1;2;3;4;5;6;7;8;9;10;11;12;13;14;15;16;17;18;19;0].
(* a key that secret::valid accepts and the library does not, and one the other way round *)
Definition ex_only_little : bytes := repeat xff 31 ++ [x01].
Definition ex_only_big : bytes := x01 :: repeat xff 31.
Definition ex_secret : secret := mksecret NetMain ex_only_little true.
(* a hash that is zero *)
Definition ex_zero_hash (m : bytes) : bytes := repeat x00 32.
Lemma ex_keys_disagree : (secp_secret_valid ex_only_little = true /\ seckey_verify ex_only_little = false) /\
  (secp_secret_valid ex_only_big = false /\ seckey_verify ex_only_big = true).
Proof. repeat split; vm_compute; reflexivity. Qed.
