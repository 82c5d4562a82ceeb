(* C41, C83, C84: the in-memory SPV database. *)
From Coq Require Import Sorting.Permutation.
From Verif Require Import Base BaseProofs WireModel MerkleModel MerkleSpec MerkleExamples WorkModel BeefModel BeefExamples SpvModel SpvSpec SpvProofs SpvChain SpvPaths SpvFacts SpvExamples.
Local Open Scope N_scope.

(* C41 *)
Theorem C41_confirmed_validates : forall H ins ord dup fuel U L, (forall m, length (H m) = 32%nat) -> inserts ins -> (forall l, Permutation (ord l) l) ->
  universe H U L -> (32 <= fuel)%nat -> forall h0 l m t,
  throughout H ins ord dup fuel (fun _ => from_universe H U) (new_db H h0) l -> history H ins ord dup fuel (new_db H h0) l = Done m ->
  dbtx_confirmed (transaction m t) = true -> dbtx_validate H (transaction m t) = true.
Proof. exact confirmed_validates. Qed.
Print Assumptions C41_confirmed_validates.
(* without removals of headers the confirming header is the one the database has at that height *)
Theorem C41_confirmed_known : forall H ins ord dup fuel U L, (forall m, length (H m) = 32%nat) -> inserts ins -> (forall l, Permutation (ord l) l) ->
  universe H U L -> (32 <= fuel)%nat -> forall h0 l m t, header_valid H h0 = true ->
  throughout H ins ord dup fuel (fun _ o => from_universe H U o /\ no_removal o) (new_db H h0) l -> history H ins ord dup fuel (new_db H h0) l = Done m ->
  dbtx_confirmed (transaction m t) = true -> dbtx_validate H (transaction m t) = true /\
  header_at m (c_height (x_conf (transaction m t))) = Some (c_height (x_conf (transaction m t)), c_header (x_conf (transaction m t))).
Proof. exact confirmed_known. Qed.
Print Assumptions C41_confirmed_known.
Theorem C41_insert_proofs_exact : forall H ins ord dup fuel U L, (forall m, length (H m) = 32%nat) -> inserts ins -> (forall l, Permutation (ord l) l) ->
  universe H U L -> (32 <= fuel)%nat -> forall h0 l m d m' b,
  throughout H ins ord dup fuel (fun _ => from_universe H U) (new_db H h0) l -> history H ins ord dup fuel (new_db H h0) l = Done m ->
  from_universe H U (InsertDual d) -> insert_dual H ins ord dup fuel m d = Done (m', b) ->
  if b then
    exists n h, h_merkle_root h = d_root d /\
      (forall t p, In (t, p) (d_paths d) -> transaction m' t = mkdbtx (x_tx (transaction m t)) (mkconf p n h)) /\
      (forall t, ~ In t (map fst (d_paths d)) -> transaction m' t = transaction m t)
  else m' = m /\ (dual_valid H ins fuel d = Done false \/ get bytes_eqb (m_by_root m) (d_root d) = None).
Proof. exact insert_dual_exact. Qed.
Print Assumptions C41_insert_proofs_exact.
(* nothing undefined happens and every operation ends *)
Theorem C41_total : forall H ins ord dup fuel U L, (forall m, length (H m) = 32%nat) -> inserts ins -> (forall l, Permutation (ord l) l) ->
  universe H U L -> (32 <= fuel)%nat -> forall h0 l, header_valid H h0 = true ->
  throughout H ins ord dup fuel (fun m o => from_universe H U o /\ keeps_chain H m o) (new_db H h0) l ->
  exists m, history H ins ord dup fuel (new_db H h0) l = Done m.
Proof. exact history_total. Qed.
Print Assumptions C41_total.
Example C41_example : inserts (@cons branch) /\ universe ex_hash32 ex_universe ex_levels /\ header_valid ex_hash32 ex_genesis = true /\
  throughout ex_hash32 cons (fun l => l) None 40
    (fun m o => from_universe ex_hash32 ex_universe o /\ no_removal o /\ no_tx_path o /\ keeps_chain ex_hash32 m o /\ known_first m o) ex_db ex_history /\
  exists m, ex_run ex_db ex_history = Done m /\ latest m = Some (2, ex_header (ex_digest 8) 7) /\
    header_by m ex_root_ab = Some (1, ex_block) /\ unconfirmed m = [] /\
    transaction m ex_id_a = mkdbtx (Some ex_tx_a) (mkconf ex_path_a 1 ex_block) /\
    transaction m ex_id_b = mkdbtx (Some ex_tx_b) (mkconf ex_path_b 1 ex_block) /\ dbtx_validate ex_hash32 (transaction m ex_id_b) = true.
Proof.
  split; [exact ex_cons_inserts|]. split; [exact ex_universe_ok|]. split; [vm_compute; reflexivity|]. split; [exact ex_through|exact ex_result].
Qed.
(* a single proof written with and without the sibling: the second insertion is accepted and empties the paths *)
Theorem C41_confirmed_validates_refuted : exists m m', ex_run ex_db [InsertHeader 1 ex_single; InsertTx ex_tx_a; InsertDual (one_path ex_id_a 0 [None] ex_root_aa)] = Done m /\
  dbtx_validate ex_hash32 (transaction m ex_id_a) = true /\
  insert_dual ex_hash32 cons (fun l => l) None 40 m (one_path ex_id_a 0 [Some ex_id_a] ex_root_aa) = Done (m', true) /\
  dbtx_confirmed (transaction m' ex_id_a) = true /\ dbtx_validate ex_hash32 (transaction m' ex_id_a) = false.
Proof. exact paths_lost. Qed.
Print Assumptions C41_confirmed_validates_refuted.
(* removing a header keeps the confirmations; the transaction is also pending and can be removed *)
Theorem C41_confirmed_known_refuted : exists m m', ex_run ex_db [InsertHeader 1 ex_block; InsertTx ex_tx_a; InsertDual ex_proof_a; RemoveHeight 1] = Done m /\
  dbtx_confirmed (transaction m ex_id_a) = true /\ header_at m 1 = None /\ header_by m ex_root_ab = None /\ unconfirmed m = [ex_id_a] /\
  apply ex_hash32 cons (fun l => l) None 40 m (RemoveTx ex_id_a) = Done m' /\ dbtx_valid (transaction m' ex_id_a) = false.
Proof. exact header_gone. Qed.
Print Assumptions C41_confirmed_known_refuted.
(* inserting a transaction together with its path never confirms it *)
Theorem C41_insert_with_path_refuted : forall H ins ord dup fuel m x p m',
  get bytes_eqb (m_by_txid m) (tx_id H x) = None -> ~ In (tx_id H x) (unconfirmed m) ->
  insert_tx_path H ins ord dup fuel m x p = Done (m', true) ->
  transaction m' (tx_id H x) = mkdbtx (Some x) no_conf /\ ~ In (tx_id H x) (unconfirmed m').
Proof. exact insert_tx_path_lost. Qed.
Print Assumptions C41_insert_with_path_refuted.
Example C41_insert_with_path_example : exists m m', ex_run ex_db [InsertHeader 1 ex_block] = Done m /\
  insert_tx_path ex_hash32 cons (fun l => l) None 40 m ex_tx_a ex_path_a = Done (m', true) /\
  transaction m' ex_id_a = mkdbtx (Some ex_tx_a) no_conf /\ unconfirmed m' = [].
Proof. exact lost_example. Qed.

(* C83: headers *)
Theorem C83_by_height : forall H ins ord dup fuel h0 l m n k h, history H ins ord dup fuel (new_db H h0) l = Done m ->
  header_at m n = Some (k, h) -> k = n /\ header_valid H h = true.
Proof. exact header_at_sound. Qed.
Print Assumptions C83_by_height.
Theorem C83_by_digest_sound : forall H ins ord dup fuel h0 l m d n h, header_valid H h0 = true ->
  throughout H ins ord dup fuel (keeps_chain H) (new_db H h0) l -> history H ins ord dup fuel (new_db H h0) l = Done m ->
  header_by m d = Some (n, h) ->
  header_at m n = Some (n, h) /\ header_valid H h = true /\ (header_hash H h = d \/ h_merkle_root h = d).
Proof. exact header_by_sound. Qed.
Print Assumptions C83_by_digest_sound.
Theorem C83_by_digest_complete : forall H ins ord dup fuel h0 l m n h, header_valid H h0 = true ->
  throughout H ins ord dup fuel (fun m o => keeps_chain H m o /\ no_clash H m o) (new_db H h0) l ->
  history H ins ord dup fuel (new_db H h0) l = Done m -> header_at m n = Some (n, h) ->
  header_by m (header_hash H h) = Some (n, h) /\
  (header_by m (h_merkle_root h) = Some (n, h) \/ exists k h', header_at m k = Some (k, h') /\ header_hash H h' = h_merkle_root h).
Proof. exact header_by_complete. Qed.
Print Assumptions C83_by_digest_complete.
Theorem C83_latest : forall H ins ord dup fuel h0 l m, header_valid H h0 = true ->
  throughout H ins ord dup fuel (keeps_chain H) (new_db H h0) l -> history H ins ord dup fuel (new_db H h0) l = Done m ->
  exists n h, latest m = Some (n, h) /\ header_at m n = Some (n, h) /\ forall k h', header_at m k = Some (k, h') -> k <= n.
Proof. exact latest_is_top. Qed.
Print Assumptions C83_latest.
Theorem C83_insert_exact : forall H ins ord dup fuel h0 l m n h m', history H ins ord dup fuel (new_db H h0) l = Done m ->
  header_at m n = None -> header_valid H h = true -> apply H ins ord dup fuel m (InsertHeader n h) = Done m' ->
  (forall k, header_at m' k = if k =? n then Some (n, h) else header_at m k) /\ (forall t, transaction m' t = transaction m t) /\ unconfirmed m' = unconfirmed m.
Proof. exact insert_free_exact. Qed.
Print Assumptions C83_insert_exact.
Theorem C83_insert_refused : forall H ins ord dup fuel m n h m', apply H ins ord dup fuel m (InsertHeader n h) = Done m' ->
  header_valid H h = false \/ (exists k h', header_at m n = Some (k, h') /\ header_eqb h' h = true) -> m' = m.
Proof. exact insert_refused. Qed.
Print Assumptions C83_insert_refused.
Theorem C83_remove_exact : forall H ins ord dup fuel h0 l m n m', history H ins ord dup fuel (new_db H h0) l = Done m ->
  apply H ins ord dup fuel m (RemoveHeight n) = Done m' ->
  (forall h, latest m <> Some (n, h)) /\ m' = m \/
  (exists h, latest m = Some (n, h)) /\ (forall k, header_at m' k = if k =? n then None else header_at m k) /\ (forall t, transaction m' t = transaction m t).
Proof. exact remove_header_exact. Qed.
Print Assumptions C83_remove_exact.
Example C83_example : throughout ex_hash32 cons (fun l => l) None 40 (fun m o => keeps_chain ex_hash32 m o /\ no_clash ex_hash32 m o) ex_db ex_history.
Proof. exact ex_through_clash. Qed.
(* headers need not be linked *)
Theorem C83_linked_refuted : forall ins ord dup fuel, header_valid ex_hash32 ex_block = true /\ h_previous ex_block <> header_hash ex_hash32 ex_genesis /\
  exists m, history ex_hash32 ins ord dup fuel ex_db [InsertHeader 1 ex_block] = Done m /\ latest m = Some (1, ex_block).
Proof. exact unlinked. Qed.
Print Assumptions C83_linked_refuted.
(* after a gap the latest header is a null pointer although there are headers *)
Theorem C83_latest_refuted : forall ins ord dup fuel, exists m, history ex_hash32 ins ord dup fuel ex_db [InsertHeader 5 ex_block; RemoveHeight 5] = Done m /\
  header_at m 0 = Some (0, ex_genesis) /\ latest m = None /\ apply ex_hash32 ins ord dup fuel m (RemoveHeight 0) = Bad.
Proof. exact latest_null. Qed.
Print Assumptions C83_latest_refuted.
Theorem C83_by_digest_sound_refuted : forall ins ord dup fuel, exists m, history ex_hash32 ins ord dup fuel ex_db ex_stale = Done m /\
  header_by m (ex_digest 14) = Some (3, ex_header (ex_digest 14) 0) /\ header_at m 3 = None.
Proof. exact stale. Qed.
Print Assumptions C83_by_digest_sound_refuted.
Theorem C83_same_root_refuted : forall ins ord dup fuel, exists m,
  history ex_hash32 ins ord dup fuel ex_db [InsertHeader 1 ex_block; InsertHeader 2 ex_block'; InsertHeader 2 (ex_header (ex_digest 8) 7)] = Done m /\
  header_at m 1 = Some (1, ex_block) /\ header_by m ex_root_ab = None.
Proof. exact same_root. Qed.
Print Assumptions C83_same_root_refuted.
Theorem C83_same_header_refuted : forall ins ord dup fuel, exists m,
  history ex_hash32 ins ord dup fuel ex_db [InsertHeader 1 ex_block; InsertHeader 2 ex_block; RemoveHeight 2] = Done m /\
  header_at m 1 = Some (1, ex_block) /\ header_by m (header_hash ex_hash32 ex_block) = None.
Proof. exact same_header. Qed.
Print Assumptions C83_same_header_refuted.

(* C84: pending transactions and reorganisations *)
Theorem C84_pending_exact : forall H ins ord dup fuel h0 l m t,
  throughout H ins ord dup fuel (fun m o => no_removal o /\ no_tx_path o /\ known_first m o) (new_db H h0) l ->
  history H ins ord dup fuel (new_db H h0) l = Done m -> dbtx_valid (transaction m t) = true ->
  (In t (unconfirmed m) <-> dbtx_confirmed (transaction m t) = false).
Proof. exact pending_exact. Qed.
Print Assumptions C84_pending_exact.
Theorem C84_reorganisation_exact : forall H ins ord dup fuel h0 l m n h h' m' t, history H ins ord dup fuel (new_db H h0) l = Done m ->
  header_at m n = Some (n, h) -> header_eqb h h' = false -> header_valid H h' = true -> apply H ins ord dup fuel m (InsertHeader n h') = Done m' ->
  (forall k, header_at m' k = if k <? n then header_at m k else if k =? n then Some (n, h') else None) /\
  ((exists k, n <= k /\ In t (map fst (block_paths m k))) ->
     transaction m' t = mkdbtx (x_tx (transaction m t)) no_conf /\ In t (unconfirmed m')) /\
  (~ (exists k, n <= k /\ In t (map fst (block_paths m k))) ->
     transaction m' t = transaction m t /\ (In t (unconfirmed m') <-> In t (unconfirmed m))).
Proof. exact reorg_exact. Qed.
Print Assumptions C84_reorganisation_exact.
Theorem C84_insert_tx_exact : forall H ins ord dup fuel m x m', apply H ins ord dup fuel m (InsertTx x) = Done m' ->
  forall t, transaction m' t = mkdbtx (if bytes_eqb t (tx_id H x) then (if dbtx_valid (transaction m t) then x_tx (transaction m t) else Some x) else x_tx (transaction m t)) (x_conf (transaction m t)).
Proof. exact insert_tx_exact. Qed.
Print Assumptions C84_insert_tx_exact.
Theorem C84_remove_tx_exact : forall H ins ord dup fuel m d m', apply H ins ord dup fuel m (RemoveTx d) = Done m' ->
  forall t, transaction m' t = mkdbtx (if bytes_eqb t d && digest_in d (unconfirmed m) then None else x_tx (transaction m t)) (x_conf (transaction m t)).
Proof. exact remove_tx_exact. Qed.
Print Assumptions C84_remove_tx_exact.
Example C84_example : throughout ex_hash32 cons (fun l => l) None 40
    (fun m o => from_universe ex_hash32 ex_universe o /\ no_removal o /\ no_tx_path o /\ keeps_chain ex_hash32 m o /\ known_first m o) ex_db ex_history.
Proof. exact ex_through. Qed.
(* a proof that comes before its transaction, and a reorganisation: pending without a transaction, then pending and confirmed *)
Theorem C84_pending_refuted : exists m m', ex_run ex_db (firstn 3 ex_early) = Done m /\ unconfirmed m = [ex_id_a] /\ dbtx_valid (transaction m ex_id_a) = false /\
  ex_run ex_db ex_early = Done m' /\ unconfirmed m' = [ex_id_a] /\ dbtx_validate ex_hash32 (transaction m' ex_id_a) = true.
Proof. exact early. Qed.
Print Assumptions C84_pending_refuted.
(* a reorganisation forgets a transaction that an earlier block confirms *)
Theorem C84_reorganisation_refuted : exists m, ex_run ex_db ex_twice = Done m /\ dbtx_confirmed (transaction m ex_id_a) = false /\
  dual_tree m ex_root_aa = one_path ex_id_a 0 [None] ex_root_aa /\ header_by m ex_root_aa = Some (1, ex_single) /\ dual_valid ex_hash32 cons 40 (dual_tree m ex_root_aa) = Done true.
Proof. exact twice. Qed.
Print Assumptions C84_reorganisation_refuted.
