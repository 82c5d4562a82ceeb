(* Proofs about what TSC proofs say and when a database confirms them. *)
From Coq Require Import Lia ZifyBool ZifyNat ZifyN.
From Verif Require Import Base BaseProofs WireModel WireSpec WireProofs MerkleModel MerkleSpec MerkleFacts MerkleProofs WorkModel SpvModel SpvSpec SpvFacts SpvProofs SpvChain TscModel TscSpec TscBinaryProofs.
Local Open Scope list_scope.
Local Open Scope N_scope.

Lemma header_eqb_exact a b : header_eqb a b = true <-> a = b.
Proof.
  unfold header_eqb. rewrite !andb_true_iff, Z.eqb_eq, !N.eqb_eq, !bytes_eqb_eq. destruct a as [a1 a2 a3 a4 a5 a6], b as [b1 b2 b3 b4 b5 b6].
  cbn [h_version h_previous h_merkle_root h_timestamp h_target h_nonce]. split; [intros (((((-> & ->) & ->) & ->) & ->) & ->); reflexivity|].
  intros E. injection E as -> -> -> -> -> ->. auto 8.
Qed.

Section Tsc.
Variable H : bytes -> bytes.

Lemma txid_same p : tsc_valid p = true ->
  tsc_txid H p = match ts_tx p, ts_id p with Some t, _ => Some (H t) | None, Some d => Some d | None, None => None end /\ exists d, tsc_txid H p = Some d.
Proof.
  intros V. apply valid_exact in V. destruct V as [[(t & E1 & E2)|(d & E1 & E2)] _]; unfold tsc_txid; rewrite E1, E2; eauto.
Qed.
Lemma validate_exact m p : tsc_validate H m p = true <->
  tsc_valid p = true /\ exists id n h, tsc_txid H p = Some id /\ header_by m (derive_root H (ts_path p) id) = Some (n, h) /\
  h_merkle_root h = derive_root H (ts_path p) id /\
  (forall r, ts_root p = Some r -> r = h_merkle_root h) /\ (forall d, ts_hash p = Some d -> d = header_hash H h) /\ (forall b, ts_header p = Some b -> b = h).
Proof.
  unfold tsc_validate. destruct (tsc_valid p) eqn:V; cbn [negb]; [|split; [discriminate|intros [X _]; discriminate]].
  destruct (txid_same p V) as [E [id I]]. rewrite <- E, I. cbv zeta. split.
  - destruct (header_by m (derive_root H (ts_path p) id)) as [[n h]|] eqn:B; [|discriminate]. intros X. split; [reflexivity|]. exists id, n, h.
    apply andb_true_iff in X. destruct X as [X X4]. apply andb_true_iff in X. destruct X as [X X3]. apply andb_true_iff in X. destruct X as [X1 X2]. apply bytes_eqb_eq in X4.
    split; [reflexivity|]. split; [exact B|]. split; [symmetry; exact X4|]. split; [|split].
    + intros r R. rewrite R in X1. apply bytes_eqb_eq in X1. congruence.
    + intros d D. rewrite D in X2. apply bytes_eqb_eq in X2. congruence.
    + intros b K. rewrite K in X3. apply header_eqb_exact in X3. congruence.
  - intros (_ & id' & n & h & I' & B & R & R1 & R2 & R3). assert (id' = id) as -> by congruence. rewrite B. rewrite !andb_true_iff, !bytes_eqb_eq. split; [split; [split|]|].
    + destruct (ts_root p) as [r|]; [|reflexivity]. apply bytes_eqb_eq. rewrite (R1 r eq_refl). congruence.
    + destruct (ts_hash p) as [d|]; [|reflexivity]. apply bytes_eqb_eq. rewrite (R2 d eq_refl). reflexivity.
    + destruct (ts_header p) as [b|]; [|reflexivity]. apply header_eqb_exact. rewrite (R3 b eq_refl). reflexivity.
    + congruence.
Qed.
(* in a database kept as a chain the header is there, and if the tree of the block has the height of the
   path the transaction is in the block *)
Lemma validate_sound ins ord dup fuel h0 l m p : (forall x, length (H x) = 32%nat) -> header_valid H h0 = true ->
  throughout H ins ord dup fuel (keeps_chain H) (new_db H h0) l -> history H ins ord dup fuel (new_db H h0) l = Done m -> tsc_wf p ->
  tsc_validate H m p = true ->
  exists id n h, tsc_txid H p = Some id /\ header_at m n = Some (n, h) /\ header_valid H h = true /\
  (forall r, ts_root p = Some r -> r = h_merkle_root h) /\ (forall d, ts_hash p = Some d -> d = header_hash H h) /\ (forall b, ts_header p = Some b -> b = h) /\
  forall leaves, leaves <> [] -> sized_leaf_digests leaves -> merkle_root H leaves = h_merkle_root h -> length (p_digests (ts_path p)) = depth (count leaves) ->
    In id leaves \/ collision H (branch_preimages H (mkleaf id (p_index (ts_path p))) (p_digests (ts_path p))) (tree_preimages H leaves).
Proof.
  intros H32 V0 K Hi W V. apply validate_exact in V. destruct V as (V & id & n & h & I & B & R & R1 & R2 & R3).
  destruct (header_by_sound H ins ord dup fuel h0 l m _ n h V0 K Hi B) as (A & Vh & _). exists id, n, h. split; [exact I|]. split; [exact A|]. split; [exact Vh|].
  split; [exact R1|]. split; [exact R2|]. split; [exact R3|]. intros leaves Ne Sz Rt Dp.
  assert (Sid : sized id).
  { destruct W as (_ & W2 & _). unfold tsc_txid in I. destruct (ts_id p) as [d|]; [cbn [opt_wf] in W2; assert (d = id) as <- by congruence; exact W2|].
    destruct (ts_tx p) as [t|]; [|discriminate]. assert (H t = id) as <- by congruence. apply H32. }
  assert (Sd : Forall sized_opt (p_digests (ts_path p))).
  { destruct W as (_ & _ & _ & _ & _ & _ & _ & Wd). revert Wd. apply Forall_impl. intros [d|] X; [exact X|exact Logic.I]. }
  apply (list_sound_inside H H32 leaves (mkleaf id (p_index (ts_path p))) (p_digests (ts_path p)) Ne Sz Sid Sd Dp). rewrite Rt, R. reflexivity.
Qed.

(* ---------------------------------------------------------------- constructors *)
Lemma constructors b t q pr h d : 
  tsc_valid (tsc_of_branch b) = false /\ tsc_valid (tsc_of_tx t q) = false /\ tsc_valid (tsc_of_proof pr) = true /\ tsc_valid (tsc_of_branch_header b h) = true /\
  tsc_valid (tsc_of_branch_hash b d) = true /\ tsc_valid (tsc_of_tx_header t q h) = true /\
  (forall k, tsc_valid (tsc_of_tx_digest t q d k) = true <-> k = KHash \/ k = KRoot).
Proof.
  split; [reflexivity|]. split; [reflexivity|]. split; [reflexivity|]. split; [reflexivity|]. split; [reflexivity|]. split; [reflexivity|].
  intros k. destruct k; cbn; split; try discriminate; auto; intros [X|X]; discriminate.
Qed.
Lemma constructors_root b pr : tsc_root H (tsc_of_branch b) = Some (branch_root H b) /\
  tsc_root H (tsc_of_proof pr) = Some (branch_root H (pr_branch pr)) /\
  (proof_valid H pr = true -> tsc_root H (tsc_of_proof pr) = tsc_merkle_root (tsc_of_proof pr)).
Proof.
  destruct b as [[bd bi] ds], pr as [[[pd pi] es] r]. split; [reflexivity|]. split; [reflexivity|]. unfold proof_valid. rewrite !andb_true_iff. intros (_ & E). apply bytes_eqb_eq in E.
  cbn [pr_root pr_branch] in E. cbn. rewrite E. reflexivity.
Qed.
Lemma constructors_undef b t q d : write_binary (tsc_of_branch b) = Undef /\ write_binary (tsc_of_tx t q) = Undef /\
  write_binary (tsc_of_tx_digest t q d KHeader) = Undef.
Proof. split; [reflexivity|]. split; reflexivity. Qed.
End Tsc.
