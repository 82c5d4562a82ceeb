(* Hardening, masters, sources of keys, validity and prefixes. *)
From Coq Require Import Lia ZifyBool ZifyNat ZifyN.
From Verif Require Import Base BaseProofs WireModel MerkleModel TextModel TextSpec TextFormProofs HdModel HdSpec HdPathProofs HdKeyProofs.
Local Open Scope N_scope.

Lemma land_low c : N.land c 0x7fffffff = c mod 2 ^ 31.
Proof. change 0x7fffffff with (N.ones 31). apply N.land_ones. Qed.
Lemma lor_high c : c < 2 ^ 32 -> N.lor c 0x80000000 = if c <? 2 ^ 31 then c + 2 ^ 31 else c.
Proof.
  intros L. destruct (N.ltb_spec c (2 ^ 31)) as [C|C].
  - apply lor_harden. exact C.
  - assert (E : c = (c - 2 ^ 31) + 0x80000000) by (change (2 ^ 31) with 0x80000000 in *; lia).
    assert (B : c - 2 ^ 31 < 0x80000000) by (change (2 ^ 31) with 0x80000000 in *; change (2 ^ 32) with 0x100000000 in *; lia).
    rewrite E at 1. rewrite <- (lor_harden _ B), <- N.lor_assoc, N.lor_diag, (lor_harden _ B). symmetry. exact E.
Qed.
Lemma harden_exact c : c < 2 ^ 32 ->
  harden c = (if c <? 2 ^ 31 then c + 2 ^ 31 else c) /\ soften c = c mod 2 ^ 31 /\ (hardened c = true <-> 2 ^ 31 <= c) /\
  hardened (harden c) = true /\ hardened (soften c) = false /\ harden c < 2 ^ 32.
Proof.
  intros L. unfold harden, soften, hardened. rewrite (lor_high _ L), land_low.
  pose proof (N.mod_upper_bound c (2 ^ 31) ltac:(discriminate)) as M.
  change (2 ^ 31) with 0x80000000 in *. change (2 ^ 32) with 0x100000000 in *. set (m := c mod 0x80000000) in *.
  split; [reflexivity|]. split; [reflexivity|]. split; [lia|]. split; [|split]; destruct (N.ltb_spec c 0x80000000); lia.
Qed.
Lemma soften_harden c : c < 2 ^ 31 -> soften (harden c) = c.
Proof.
  intros L. unfold harden, soften. rewrite land_low, lor_high by (change (2 ^ 31) with 0x80000000 in *; change (2 ^ 32) with 0x100000000 in *; lia).
  destruct (N.ltb_spec c (2 ^ 31)); [|lia]. rewrite <- (N.mul_1_l (2 ^ 31)) at 1. rewrite N.mod_add by discriminate. apply N.mod_small. exact L.
Qed.

Lemma text_derive hmac h160 pub fuel x t l : path_text t l -> (length t <= fuel)%nat ->
  derive_secret_text hmac h160 pub fuel x t = derive_secret_path hmac h160 pub fuel x l.
Proof. intros T L. unfold derive_secret_text. rewrite (read_path_text t l fuel T L). reflexivity. Qed.

Lemma seed_master hmac : hmac_sized hmac -> forall seed n x, secret_from_seed hmac seed n = x <-> is_master hmac seed n x.
Proof.
  intros Hs seed n x. unfold secret_from_seed, is_master. change (text _) with bip32_label.
  pose proof (Hs bip32_label seed) as L. set (hm := hmac bip32_label seed) in *.
  assert (F : length (firstn 32 hm) = 32%nat) by (rewrite firstn_length, L; reflexivity).
  assert (K : length (skipn 32 hm) = 32%nat) by (rewrite skipn_length, L; reflexivity).
  assert (R : firstn 32 (skipn 32 hm) = skipn 32 hm) by (apply firstn_all2; rewrite K; apply le_n).
  rewrite R. split.
  - intros <-. cbn [x_key x_chain x_net x_depth x_parent x_sequence]. rewrite firstn_skipn. repeat (split; [first [reflexivity | assumption]|]). reflexivity.
  - intros (E & Lk & Lc & En & Ed & Ep & Es). destruct x as [k c nn d p s]. cbn [x_key x_chain x_net x_depth x_parent x_sequence] in *. subst nn d p s.
    rewrite <- E, firstn_app, skipn_app, Lk, Nat.sub_diag. rewrite <- Lk, firstn_all, skipn_all. cbn [firstn skipn app]. rewrite app_nil_r. reflexivity.
Qed.

Lemma derive_one step x i : derive_path step x [i] = step x i.
Proof. cbn [derive_path]. destruct (step x i); reflexivity. Qed.
Lemma source_exact step key : forall k i, i < 2 ^ 32 ->
  source_keys (hd_next step key) i k = map (fun j => step key (w32 (i + N.of_nat j))) (seq 0 k).
Proof.
  assert (G : forall k i s, i < 2 ^ 32 -> source_keys (hd_next step key) (w32 (i + N.of_nat s)) k = map (fun j => step key (w32 (i + N.of_nat j))) (seq s k)).
  { induction k as [|k IH]; intros i s L; [reflexivity|]. cbn [source_keys seq map]. change (snd (hd_next step key (w32 (i + N.of_nat s)))) with (w32 (w32 (i + N.of_nat s) + 1)). change (fst (hd_next step key (w32 (i + N.of_nat s)))) with (derive_path step key [w32 (i + N.of_nat s)]).
    rewrite derive_one, w32_add. f_equal. replace (i + N.of_nat s + 1) with (i + N.of_nat (Datatypes.S s)) by lia. apply IH. exact L. }
  intros k i L. specialize (G k i 0%nat L). rewrite N.add_0_r in G. rewrite w32_small in G by exact L. exact G.
Qed.

Lemma xvalid_exact x : xsecret_valid x = true <-> usable (le_val (x_key x)) /\ x_net x <> NetInvalid.
Proof.
  unfold xsecret_valid. rewrite andb_true_iff, secp_valid_exact. destruct (x_net x); split; intros [A B]; (split; [exact A|]); congruence.
Qed.
Lemma prefixes : be_val (x_version :: xprv_main) = 0x0488ADE4 /\ be_val (x_version :: xprv_test) = 0x04358394 /\
  be_val (x_version :: xpub_main) = 0x0488B21E /\ be_val (x_version :: xpub_test) = 0x043587CF.
Proof. repeat (split; [vm_compute; reflexivity|]). vm_compute; reflexivity. Qed.
Lemma xvalid_wrong : exists x y, xkey_wf 32 x /\ usable (be_val (x_key x)) /\ xsecret_valid x = false /\
  xkey_wf 32 y /\ ~ usable (be_val (x_key y)) /\ xsecret_valid y = true.
Proof.
  exists (mkxkey (x01 :: repeat xff 31) (repeat x00 32) NetMain 0 0 0), (mkxkey (repeat xff 31 ++ [x01]) (repeat x00 32) NetMain 0 0 0).
  assert (W : forall k, length k = 32%nat -> xkey_wf 32 (mkxkey k (repeat x00 32) NetMain 0 0 0)).
  { intros k L. unfold xkey_wf. cbn [x_key x_chain x_net x_depth x_parent x_sequence]. split; [exact L|]. split; [reflexivity|]. split; [discriminate|].
    split; [reflexivity|]. split; reflexivity. }
  split; [apply W; reflexivity|]. split; [split; vm_compute; reflexivity|]. split; [vm_compute; reflexivity|].
  split; [apply W; reflexivity|]. split; [intros [_ C]; vm_compute in C; discriminate C|]. vm_compute; reflexivity.
Qed.
Lemma seed_unusable hmac : hmac_sized hmac -> forall seed n, ~ usable (be_val (firstn 32 (hmac bip32_label seed))) ->
  is_master hmac seed n (secret_from_seed hmac seed n) /\ forall x, ~ bip32_master hmac seed n x.
Proof.
  intros Hs seed n U. split; [apply seed_master; [exact Hs|reflexivity]|]. intros x [M V]. apply seed_master in M; [|exact Hs]. subst x. exact (U V).
Qed.
