(* Sample data and counterexamples for the SPV database. *)
From Coq Require Import Lia ZifyBool ZifyNat ZifyN Sorting.Permutation.
From Verif Require Import Base BaseProofs WireModel MerkleModel MerkleSpec MerkleExamples WorkModel BeefModel BeefExamples SpvModel SpvSpec.
Local Open Scope N_scope.

Definition ex_header (root : bytes) (nonce : N) : header :=
  {| h_version := 1; h_previous := zero_digest; h_merkle_root := root; h_timestamp := 1; h_target := compact_max; h_nonce := nonce |}.
Definition ex_genesis : header := ex_header (ex_digest 9) 0.
Definition ex_id_b : bytes := tx_id ex_hash32 ex_tx_b.
(* a block with the two transactions *)
Definition ex_root_ab : bytes := ex_hash32 (ex_id_a ++ ex_id_b).
Definition ex_path_a : path := mkpath 0 [Some ex_id_b].
Definition ex_path_b : path := mkpath 1 [Some ex_id_a].
Definition ex_block : header := ex_header ex_root_ab 1.
Definition ex_block' : header := ex_header ex_root_ab 2.
Definition ex_proofs : dual := mkdual [(ex_id_a, ex_path_a); (ex_id_b, ex_path_b)] ex_root_ab.
Definition ex_proof_a : dual := mkdual [(ex_id_a, ex_path_a)] ex_root_ab.
Definition ex_universe (r : bytes) : list (bytes * path) := if bytes_eqb r ex_root_ab then d_paths ex_proofs else [].
Definition ex_levels (r : bytes) : nat := 1.
(* a block with one transaction *)
Definition ex_root_aa : bytes := ex_hash32 (ex_id_a ++ ex_id_a).
Definition ex_single : header := ex_header ex_root_aa 3.

Notation ex_run := (history ex_hash32 cons (fun l => l) None 40).
Notation ex_db := (new_db ex_hash32 ex_genesis).

Definition ex_history : list op :=
  [InsertHeader 1 ex_block; InsertTx ex_tx_a; InsertDual ex_proof_a; InsertTx ex_tx_b; InsertHeader 2 (ex_header (ex_digest 8) 7); InsertDual ex_proofs].

Lemma ex_cons_inserts : inserts (@cons branch).
Proof. intros x l. apply Permutation_refl. Qed.
Lemma ex_id_order (l : list branch) : Permutation ((fun l => l) l) l.
Proof. apply Permutation_refl. Qed.
Lemma ex_universe_ok : universe ex_hash32 ex_universe ex_levels.
Proof.
  intros r. split; [unfold ex_levels; lia|]. unfold ex_universe. destruct (bytes_eqb r ex_root_ab) eqn:E.
  - apply bytes_eqb_eq in E. subst r. split; [|split].
    + intros e [<-|[<-|[]]]; (split; [split; [reflexivity|split; [reflexivity|split; [reflexivity|]]]|split; [vm_compute; reflexivity|split; vm_compute; reflexivity]]);
        (constructor; [eexists; split; reflexivity|constructor]).
    + intros e f [<-|[<-|[]]] [<-|[<-|[]]] Q; try reflexivity; vm_compute in Q; discriminate Q.
    + intros e f [<-|[<-|[]]] [<-|[<-|[]]] (p & q & [P|[]] & [Q|[]] & NE & _); apply NE; rewrite <- P, <- Q; vm_compute; reflexivity.
  - split; [intros e []|]. split; [intros e f []|intros e f []].
Qed.
Lemma ex_proof_a_from : from_universe ex_hash32 ex_universe (InsertDual ex_proof_a).
Proof.
  split; [constructor; [intros []|constructor]|]. intros e [<-|[]]. unfold ex_universe. cbn [ex_proof_a d_root]. rewrite (proj2 (bytes_eqb_eq _ _) eq_refl). left. reflexivity.
Qed.
Lemma ex_proofs_from : from_universe ex_hash32 ex_universe (InsertDual ex_proofs).
Proof.
  split.
  - constructor; [intros [Q|[]]; vm_compute in Q; discriminate Q|constructor; [intros []|constructor]].
  - intros e I0. unfold ex_universe. cbn [ex_proofs d_root]. rewrite (proj2 (bytes_eqb_eq _ _) eq_refl). exact I0.
Qed.
Lemma ex_through : throughout ex_hash32 cons (fun l => l) None 40
  (fun m o => from_universe ex_hash32 ex_universe o /\ no_removal o /\ no_tx_path o /\ keeps_chain ex_hash32 m o /\ known_first m o) ex_db ex_history.
Proof.
  assert (NR : forall m o, no_removal o -> keeps_chain ex_hash32 m o). { intros m o N1 (n & h & _ & F). destruct o; contradiction. }
  unfold ex_history.
  repeat (cbn [throughout]; split; [split; [first [exact I|exact ex_proof_a_from|exact ex_proofs_from]|split; [exact I|split; [exact I|split; [apply NR; exact I|]]]];
    first [exact I|intros k [<-|[<-|[]]]; vm_compute; reflexivity|intros k [<-|[]]; vm_compute; reflexivity]
    | match goal with |- match ?a with _ => _ end => let v := eval vm_compute in a in change a with v; cbv beta iota end]).
  exact I.
Qed.

Lemma no_clash_ok m n h : forallb (fun e => (fst e =? n) || (negb (bytes_eqb (header_hash ex_hash32 (e_header (deref m (snd e)))) (header_hash ex_hash32 h)) &&
    negb (bytes_eqb (h_merkle_root (e_header (deref m (snd e)))) (h_merkle_root h)))) (m_by_height m) = true -> no_clash ex_hash32 m (InsertHeader n h).
Proof.
  intros F k h' ST HA. unfold header_at in HA. destruct (get N.eqb (m_by_height m) k) as [i|] eqn:G; [|discriminate]. cbn in HA.
  assert (e_header (deref m i) = h') as <- by congruence.
  assert (I0 : In (k, i) (m_by_height m)).
  { clear - G. induction (m_by_height m) as [|[a b] r IH]; [discriminate|]. cbn in *. destruct (k =? a) eqn:E; [left; f_equal; [lia|congruence]|auto]. }
  rewrite forallb_forall in F. specialize (F _ I0). cbn [fst snd] in F. apply orb_prop in F as [F|F].
  - exfalso. destruct ST as [?|[? _]]; lia.
  - apply andb_prop in F as [A B]. rewrite negb_true_iff in A, B. split; intros Q; rewrite Q, bytes_eqb_refl in *; discriminate.
Qed.
Lemma ex_through_clash : throughout ex_hash32 cons (fun l => l) None 40 (fun m o => keeps_chain ex_hash32 m o /\ no_clash ex_hash32 m o) ex_db ex_history.
Proof.
  assert (NR : forall m o, no_removal o -> keeps_chain ex_hash32 m o). { intros m o N1 (n & h & _ & F). destruct o; contradiction. }
  unfold ex_history.
  repeat (cbn [throughout]; split; [split; [apply NR; exact I|first [exact I|apply no_clash_ok; vm_compute; reflexivity]]
    | match goal with |- match ?a with _ => _ end => let v := eval vm_compute in a in change a with v; cbv beta iota end]).
  exact I.
Qed.
Lemma ex_result : exists m, ex_run ex_db ex_history = Done m /\ latest m = Some (2, ex_header (ex_digest 8) 7) /\
  header_by m ex_root_ab = Some (1, ex_block) /\ unconfirmed m = [] /\
  transaction m ex_id_a = mkdbtx (Some ex_tx_a) (mkconf ex_path_a 1 ex_block) /\
  transaction m ex_id_b = mkdbtx (Some ex_tx_b) (mkconf ex_path_b 1 ex_block) /\ dbtx_validate ex_hash32 (transaction m ex_id_b) = true.
Proof. eexists. repeat (split; [vm_compute; reflexivity|]); vm_compute; reflexivity. Qed.

(* ---------------------------------------------------------------- counterexamples *)
Lemma unlinked : forall ins ord dup fuel, header_valid ex_hash32 ex_block = true /\ h_previous ex_block <> header_hash ex_hash32 ex_genesis /\
  exists m, history ex_hash32 ins ord dup fuel ex_db [InsertHeader 1 ex_block] = Done m /\ latest m = Some (1, ex_block).
Proof. intros. split; [vm_compute; reflexivity|]. split; [vm_compute; discriminate|]. eexists. split; vm_compute; reflexivity. Qed.
Lemma latest_null : forall ins ord dup fuel, exists m, history ex_hash32 ins ord dup fuel ex_db [InsertHeader 5 ex_block; RemoveHeight 5] = Done m /\
  header_at m 0 = Some (0, ex_genesis) /\ latest m = None /\ apply ex_hash32 ins ord dup fuel m (RemoveHeight 0) = Bad.
Proof. intros. eexists. split; [vm_compute; reflexivity|]. repeat (split; [vm_compute; reflexivity|]); vm_compute; reflexivity. Qed.
Definition ex_stale : list op :=
  [InsertHeader 6 (ex_header (ex_digest 10) 0); InsertHeader 4 (ex_header (ex_digest 11) 0); RemoveHeight 6; InsertHeader 3 (ex_header (ex_digest 12) 0); RemoveHeight 3;
   InsertHeader 5 (ex_header (ex_digest 13) 0); RemoveHeight 5; RemoveHeight 4; InsertHeader 3 (ex_header (ex_digest 14) 0); RemoveHeight 3].
Lemma stale : forall ins ord dup fuel, exists m, history ex_hash32 ins ord dup fuel ex_db ex_stale = Done m /\
  header_by m (ex_digest 14) = Some (3, ex_header (ex_digest 14) 0) /\ header_at m 3 = None.
Proof. intros. eexists. split; [vm_compute; reflexivity|]. split; vm_compute; reflexivity. Qed.
Lemma same_root : forall ins ord dup fuel, exists m,
  history ex_hash32 ins ord dup fuel ex_db [InsertHeader 1 ex_block; InsertHeader 2 ex_block'; InsertHeader 2 (ex_header (ex_digest 8) 7)] = Done m /\
  header_at m 1 = Some (1, ex_block) /\ header_by m ex_root_ab = None.
Proof. intros. eexists. split; [vm_compute; reflexivity|]. split; vm_compute; reflexivity. Qed.
Lemma same_header : forall ins ord dup fuel, exists m,
  history ex_hash32 ins ord dup fuel ex_db [InsertHeader 1 ex_block; InsertHeader 2 ex_block; RemoveHeight 2] = Done m /\
  header_at m 1 = Some (1, ex_block) /\ header_by m (header_hash ex_hash32 ex_block) = None.
Proof. intros. eexists. split; [vm_compute; reflexivity|]. split; vm_compute; reflexivity. Qed.
(* the same proof in two ways *)
Lemma paths_lost : exists m m', ex_run ex_db [InsertHeader 1 ex_single; InsertTx ex_tx_a; InsertDual (one_path ex_id_a 0 [None] ex_root_aa)] = Done m /\
  dbtx_validate ex_hash32 (transaction m ex_id_a) = true /\
  insert_dual ex_hash32 cons (fun l => l) None 40 m (one_path ex_id_a 0 [Some ex_id_a] ex_root_aa) = Done (m', true) /\
  dbtx_confirmed (transaction m' ex_id_a) = true /\ dbtx_validate ex_hash32 (transaction m' ex_id_a) = false.
Proof. do 2 eexists. split; [vm_compute; reflexivity|]. repeat (split; [vm_compute; reflexivity|]); vm_compute; reflexivity. Qed.
(* a proof that outlives its header *)
Lemma header_gone : exists m m', ex_run ex_db [InsertHeader 1 ex_block; InsertTx ex_tx_a; InsertDual ex_proof_a; RemoveHeight 1] = Done m /\
  dbtx_confirmed (transaction m ex_id_a) = true /\ header_at m 1 = None /\ header_by m ex_root_ab = None /\ unconfirmed m = [ex_id_a] /\
  apply ex_hash32 cons (fun l => l) None 40 m (RemoveTx ex_id_a) = Done m' /\ dbtx_valid (transaction m' ex_id_a) = false.
Proof. do 2 eexists. split; [vm_compute; reflexivity|]. repeat (split; [vm_compute; reflexivity|]); vm_compute; reflexivity. Qed.
(* insert (tx, path) *)
Lemma lost_example : exists m m', ex_run ex_db [InsertHeader 1 ex_block] = Done m /\
  insert_tx_path ex_hash32 cons (fun l => l) None 40 m ex_tx_a ex_path_a = Done (m', true) /\
  transaction m' ex_id_a = mkdbtx (Some ex_tx_a) no_conf /\ unconfirmed m' = [].
Proof. do 2 eexists. split; [vm_compute; reflexivity|]. repeat (split; [vm_compute; reflexivity|]); vm_compute; reflexivity. Qed.
(* a proof for a transaction that is not known, a reorganisation, the proof again and then the transaction *)
Definition ex_early : list op :=
  [InsertHeader 1 ex_block; InsertDual ex_proof_a; InsertHeader 1 (ex_header (ex_digest 8) 7); InsertHeader 2 ex_block'; InsertDual ex_proof_a; InsertTx ex_tx_a].
Lemma early : exists m m', ex_run ex_db (firstn 3 ex_early) = Done m /\ unconfirmed m = [ex_id_a] /\ dbtx_valid (transaction m ex_id_a) = false /\
  ex_run ex_db ex_early = Done m' /\ unconfirmed m' = [ex_id_a] /\ dbtx_validate ex_hash32 (transaction m' ex_id_a) = true.
Proof. do 2 eexists. split; [vm_compute; reflexivity|]. repeat (split; [vm_compute; reflexivity|]); vm_compute; reflexivity. Qed.
(* a transaction in two blocks *)
Definition ex_twice : list op :=
  [InsertTx ex_tx_a; InsertHeader 1 ex_single; InsertDual (one_path ex_id_a 0 [None] ex_root_aa); InsertHeader 2 ex_block; InsertDual ex_proof_a; InsertHeader 2 (ex_header (ex_digest 8) 7)].
Lemma twice : exists m, ex_run ex_db ex_twice = Done m /\ dbtx_confirmed (transaction m ex_id_a) = false /\
  dual_tree m ex_root_aa = one_path ex_id_a 0 [None] ex_root_aa /\ header_by m ex_root_aa = Some (1, ex_single) /\ dual_valid ex_hash32 cons 40 (dual_tree m ex_root_aa) = Done true.
Proof. eexists. split; [vm_compute; reflexivity|]. repeat (split; [vm_compute; reflexivity|]); vm_compute; reflexivity. Qed.
