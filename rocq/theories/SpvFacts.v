(* What the single operations of the SPV database do to the look-ups. *)
From Coq Require Import Lia ZifyBool ZifyNat ZifyN.
From Verif Require Import Base BaseProofs WireModel MerkleModel MerkleSpec WorkModel BeefModel BeefProofs SpvModel SpvSpec SpvProofs SpvChain SpvPaths.
Local Open Scope N_scope.

Section Facts.
Variable H : bytes -> bytes.
Variable ins : branch -> list branch -> list branch.
Variable ord : list branch -> list branch.
Variable dup : option (path -> path -> path).
Variable fuel : nat.
Notation apply := (apply H ins ord dup fuel).
Notation history := (history H ins ord dup fuel).

Lemma x_tx_transaction m t : x_tx (transaction m t) = dget (m_txs m) t.
Proof. unfold transaction. destruct (dget (m_by_txid m) t); reflexivity. Qed.

Theorem insert_free_exact h0 l m n h m' : history (new_db H h0) l = Done m -> header_at m n = None -> header_valid H h = true ->
  apply m (InsertHeader n h) = Done m' ->
  (forall k, header_at m' k = if k =? n then Some (n, h) else header_at m k) /\ (forall t, transaction m' t = transaction m t) /\ unconfirmed m' = unconfirmed m.
Proof.
  intros E HA V E2. pose proof (sane_history _ _ _ _ _ _ _ _ (sane_new H h0) E) as S0.
  assert (F : hget (m_by_height m) n = None). { unfold header_at in HA. destruct (hget (m_by_height m) n); [discriminate|reflexivity]. }
  cbn [SpvModel.apply] in E2. unfold insert_header in E2. rewrite V, F in E2. cbn [negb fst] in E2. assert (m' = add_header H m n h) as -> by congruence.
  pose proof (fun j => add_old H m n h j S0) as OLD. split; [|split; [|reflexivity]].
  - intros k. unfold header_at. change (m_by_height (add_header H m n h)) with (put N.eqb (m_by_height m) n (length (m_heap m))). rewrite hget_put.
    destruct (k =? n) eqn:K; [cbn [option_map]; rewrite add_new by exact S0; reflexivity|]. destruct (hget (m_by_height m) k) as [j|] eqn:J; [|reflexivity]. cbn [option_map].
    destruct (OLD j (proj1 (s_height H m S0 _ _ J))) as (A & B & _). rewrite A, B. reflexivity.
  - intros t. unfold transaction. change (m_by_txid (add_header H m n h)) with (m_by_txid m). change (m_txs (add_header H m n h)) with (m_txs m).
    destruct (dget (m_by_txid m) t) as [j|] eqn:J; [|reflexivity]. destruct (OLD j (s_txid H m S0 _ _ J)) as (A & B & C & _). unfold entry_dual. rewrite A, B, C. reflexivity.
Qed.
Theorem insert_refused m n h m' : apply m (InsertHeader n h) = Done m' -> header_valid H h = false \/ (exists k h', header_at m n = Some (k, h') /\ header_eqb h' h = true) -> m' = m.
Proof.
  cbn [SpvModel.apply]. unfold insert_header, header_at. intros E [V|(k & h' & A & B)].
  - rewrite V in E. cbn in E. congruence.
  - destruct (hget (m_by_height m) n) as [i|] eqn:G; [|discriminate]. cbn in A. assert (e_header (deref m i) = h') as F by congruence. rewrite F, B in E.
    destruct (negb (header_valid H h)); cbn in E; congruence.
Qed.
Theorem remove_header_exact h0 l m n m' : history (new_db H h0) l = Done m -> apply m (RemoveHeight n) = Done m' ->
  (forall h, latest m <> Some (n, h)) /\ m' = m \/
  (exists h, latest m = Some (n, h)) /\ (forall k, header_at m' k = if k =? n then None else header_at m k) /\ (forall t, transaction m' t = transaction m t).
Proof.
  intros E E2. cbn [SpvModel.apply] in E2. destruct (remove_height H m n) as [y|] eqn:Q; [|discriminate]. assert (m' = y) as -> by congruence. unfold remove_height, latest in *.
  destruct (m_latest m) as [l0|]; [|discriminate]. cbn [option_map]. destruct (e_height (deref m l0) =? n) eqn:EN.
  - right. assert (y = remove_latest H m l0) as -> by congruence. assert (e_height (deref m l0) = n) as HN by lia. split; [rewrite HN; eauto|]. split; [|reflexivity].
    intros k. unfold header_at. cbn [remove_latest m_by_height]. rewrite hget_del. rewrite HN. replace (n =? k) with (k =? n) by lia. destruct (k =? n); reflexivity.
  - left. split; [|congruence]. intros h X. assert (e_height (deref m l0) = n) by congruence. lia.
Qed.
Theorem insert_tx_exact m x m' : apply m (InsertTx x) = Done m' ->
  forall t, transaction m' t = mkdbtx (if bytes_eqb t (tx_id H x) then (if dbtx_valid (transaction m t) then x_tx (transaction m t) else Some x) else x_tx (transaction m t)) (x_conf (transaction m t)).
Proof.
  cbn [SpvModel.apply]. intros E t. assert (m' = insert_tx H m x) as -> by congruence. unfold dbtx_valid. rewrite !x_tx_transaction. unfold insert_tx.
  destruct (bytes_eqb t (tx_id H x)) eqn:B.
  - apply bytes_eqb_eq in B. subst t. destruct (dget (m_txs m) (tx_id H x)) as [y|] eqn:T.
    + rewrite <- T, <- x_tx_transaction. destruct (transaction m (tx_id H x)). reflexivity.
    + unfold transaction. cbn [with_txs m_by_txid m_txs]. rewrite dget_put, bytes_eqb_refl. destruct (dget (m_by_txid m) (tx_id H x)); reflexivity.
  - rewrite <- (x_tx_transaction m t). destruct (dget (m_txs m) (tx_id H x)) as [y|] eqn:T; [destruct (transaction m t); reflexivity|].
    unfold transaction. cbn [with_txs m_by_txid m_txs]. rewrite dget_put, B. destruct (dget (m_by_txid m) t); reflexivity.
Qed.
Theorem remove_tx_exact m d m' : apply m (RemoveTx d) = Done m' ->
  forall t, transaction m' t = mkdbtx (if bytes_eqb t d && digest_in d (unconfirmed m) then None else x_tx (transaction m t)) (x_conf (transaction m t)).
Proof.
  cbn [SpvModel.apply]. intros E t. assert (m' = remove_tx m d) as -> by congruence. unfold remove_tx, unconfirmed. destruct (digest_in d (m_pending m)).
  - rewrite andb_true_r. rewrite x_tx_transaction. unfold transaction. cbn [with_txs m_by_txid m_txs]. rewrite dget_del.
    replace (bytes_eqb d t) with (bytes_eqb t d) by (destruct (bytes_eqb t d) eqn:A, (bytes_eqb d t) eqn:B; try reflexivity;
      [apply bytes_eqb_eq in A; subst; rewrite bytes_eqb_refl in B|apply bytes_eqb_eq in B; subst; rewrite bytes_eqb_refl in A]; discriminate).
    destruct (dget (m_by_txid m) t), (bytes_eqb t d); reflexivity.
  - rewrite andb_false_r. destruct (transaction m t); reflexivity.
Qed.
(* insert (tx, path): accepted, and the transaction is neither confirmed nor pending *)
Theorem insert_tx_path_lost m x p m' : dget (m_by_txid m) (tx_id H x) = None -> ~ In (tx_id H x) (unconfirmed m) ->
  insert_tx_path H ins ord dup fuel m x p = Done (m', true) ->
  transaction m' (tx_id H x) = mkdbtx (Some x) no_conf /\ ~ In (tx_id H x) (unconfirmed m').
Proof.
  intros B P Q. destruct (insert_tx_path_inv _ _ _ _ _ _ _ _ _ Q) as [F|(i & q & A & B2 & C & F)]; [congruence|].
  assert (m' = with_txs (set_paths m i (d_paths q)) (put bytes_eqb (m_txs m) (tx_id H x) x) (m_pending m)) as -> by congruence. split; [|exact P].
  unfold transaction. cbn [with_txs m_by_txid m_txs]. change (m_by_txid (set_paths m i (d_paths q))) with (m_by_txid m). rewrite B, dget_put, bytes_eqb_refl. reflexivity.
Qed.
End Facts.
