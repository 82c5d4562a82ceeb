(* Sample data for the BIP 32 examples: residues in place of points of the curve. *)
From Verif Require Import Base BaseProofs WireModel MerkleModel TextModel TextSpec TextExamples HdModel HdSpec HdPathProofs.
From Coq Require Import String List.
Import ListNotations.
From Coq Require Import Lia.
Local Open Scope list_scope.
Local Open Scope N_scope.

Definition ex_pub (s : bytes) : bytes := be 33 (be_val s).
Definition ex_tweak (k t : bytes) : bytes := if secp_order <=? be_val t then [] else match k with [] => [] | _ => be 33 ((be_val t + be_val k) mod secp_order) end.
Lemma ex_tweak_adds : tweak_adds ex_pub ex_tweak.
Proof.
  split; [|split].
  - intros s t Ls Lt U B Z. unfold ex_tweak. destruct (N.leb_spec secp_order (be_val t)) as [C|_]; [exfalso; apply (N.lt_irrefl secp_order); eapply N.le_lt_trans; eassumption|].
    assert (P : secp_order < pow256 32) by reflexivity. assert (P2 : pow256 32 < pow256 33) by reflexivity.
    assert (E : be_val (ex_pub s) = be_val s).
    { unfold ex_pub. rewrite be_val_be. apply N.mod_small. destruct U as [_ U]. eapply N.lt_trans; [exact U|]. eapply N.lt_trans; eassumption. }
    rewrite E. assert (Ne : ex_pub s <> []) by (intros C; assert (L : length (ex_pub s) = 33%nat) by apply be_length; rewrite C in L; discriminate L).
    destruct (ex_pub s); [congruence|]. unfold ex_pub. rewrite be_val_be. rewrite (N.mod_small _ (pow256 32)); [reflexivity|].
    eapply N.lt_trans; [apply N.mod_lt; discriminate|exact P].
  - intros k t B. unfold ex_tweak. replace (secp_order <=? be_val t) with true by (symmetry; apply N.leb_le; exact B). reflexivity.
  - intros s _ _. apply be_length.
Qed.
Lemma ex_tweak_empty t : ex_tweak [] t = [].
Proof. unfold ex_tweak. destruct (secp_order <=? be_val t); reflexivity. Qed.
(* an HMAC with a given left half *)
Definition ex_hmac (left : bytes) (k m : bytes) : bytes := left ++ repeat x07 32.
Lemma ex_hmac_sized left : length left = 32%nat -> hmac_sized (ex_hmac left).
Proof. intros L k m. unfold ex_hmac. rewrite app_length, repeat_length, L. reflexivity. Qed.
Definition ex_half_plain : bytes := be 32 5.
Definition ex_half_order : bytes := be 32 secp_order.
Definition ex_h160 (b : bytes) : bytes := repeat x09 20.
Definition ex_xsecret : xkey := mkxkey (be 32 7) (repeat x03 32) NetTest 255 1 2.
Definition ex_path : list N := [44 + 2147483648; 2147483648; 0; 5; 2147483647].
Lemma ex_path_written : path_write ex_path = text "44'/0'/0/5/2147483647".
Proof. vm_compute. reflexivity. Qed.
Lemma ex_xsecret_wf : xkey_wf 32 ex_xsecret.
Proof. unfold xkey_wf. repeat split; try discriminate. Qed.
