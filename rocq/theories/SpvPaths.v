(* The Merkle proofs and the transactions of the SPV database. *)
From Coq Require Import Lia ZifyBool ZifyNat ZifyN Sorting.Permutation.
From Verif Require Import Base BaseProofs WireModel MerkleModel MerkleSpec MerkleFacts DualProofs WorkModel BeefModel BeefProofs SpvModel SpvSpec SpvProofs SpvChain.
Local Open Scope N_scope.

Definition pget_In := path_get_In (fun b => b).
Definition pget_none := path_get_none (fun b => b).
Lemma path_get_same m n k : NoDup (map fst m) -> NoDup (map fst n) -> (forall p, In (k, p) m <-> In (k, p) n) -> path_get m k = path_get n k.
Proof.
  intros M N1 E. destruct (path_get m k) as [p|] eqn:P.
  - apply pget_In in P; [|exact M]. symmetry. apply pget_In; [exact N1|]. apply E, P.
  - destruct (path_get n k) as [q|] eqn:Q; [|reflexivity]. apply pget_In in Q; [|exact N1]. apply E in Q. apply pget_In in Q; [|exact M]. congruence.
Qed.

Section Paths.
Variable H : bytes -> bytes.
Variable ins : branch -> list branch -> list branch.
Variable ord : list branch -> list branch.
Variable dup : option (path -> path -> path).
Variable fuel : nat.
Notation hash := (header_hash H).
Notation sane := (sane H).
Notation apply := (apply H ins ord dup fuel).
Notation history := (history H ins ord dup fuel).

Lemma header_valid_parts h : header_valid H h = true -> digest_valid (h_merkle_root h) = true /\ h_timestamp h <> 0.
Proof. unfold header_valid, header_fields_valid. rewrite !andb_true_iff, negb_true_iff. intros [_ [[_ A] B]]. split; [exact A|lia]. Qed.

(* a look-up of a transaction *)
Definition found (m : db) (t : bytes) (i : nat) (p : path) : dbtx :=
  mkdbtx (dget (m_txs m) t) (mkconf p (e_height (deref m i)) (e_header (deref m i))).
Lemma transaction_found m t i p : dget (m_by_txid m) t = Some i -> path_get (e_paths (deref m i)) t = Some p -> transaction m t = found m t i p.
Proof.
  intros A B. unfold transaction. rewrite A. unfold dual_at, entry_dual. cbn [d_paths d_root]. rewrite B. destruct p. reflexivity.
Qed.
Lemma transaction_lost m t : dget (m_by_txid m) t = None -> transaction m t = mkdbtx (dget (m_txs m) t) no_conf.
Proof. intros A. unfold transaction. rewrite A. reflexivity. Qed.
Lemma no_conf_not x : dbtx_confirmed (mkdbtx x no_conf) = false.
Proof. unfold dbtx_confirmed. apply andb_false_r. Qed.

Lemma confirmed_iff m t : sane m -> (dbtx_confirmed (transaction m t) = true <-> dget (m_txs m) t <> None /\ dget (m_by_txid m) t <> None).
Proof.
  intros S0. unfold transaction, dbtx_confirmed, dbtx_valid, conf_valid. destruct (dget (m_by_txid m) t) as [i|] eqn:B; cbn [x_tx x_conf c_header].
  - destruct (header_valid_parts _ (s_valid H m S0 i (s_txid H m S0 _ _ B))) as [_ TS]. replace (h_timestamp (e_header (deref m i)) =? 0) with false by lia.
    destruct (dget (m_txs m) t); split; intros A; try discriminate; try reflexivity; [split; discriminate|destruct A as [A _]; congruence].
  - rewrite andb_false_r. split; [discriminate|]. intros [_ A]. congruence.
Qed.

(* ---------------------------------------------------------------- pending *)
Definition settled (m : db) : Prop := forall t,
  (dget (m_txs m) t <> None -> (In t (m_pending m) <-> dget (m_by_txid m) t = None)) /\ (dget (m_txs m) t = None -> dget (m_by_txid m) t = None).
Lemma settled_reorg m n : settled m -> settled (reorg H m n).
Proof.
  intros P t. rewrite reorg_unfold. cbn [m_txs m_pending m_by_txid]. rewrite dropped_txid, dropped_pending. split; intros T.
  - destruct (existsb _ _) eqn:X.
    + split; [auto|]. intros _. right. apply existsb_exists in X as (i & A & B). exists i. split; [exact A|]. apply digest_in_iff, B.
    + rewrite <- (proj1 (P t) T). split; [|auto]. intros [A|(i & A & B)]; [exact A|]. exfalso. apply Bool.not_true_iff_false in X. apply X. apply existsb_exists.
      exists i. split; [exact A|]. apply digest_in_iff, B.
  - rewrite (proj2 (P t) T). destruct (existsb _ _); reflexivity.
Qed.
Lemma settled_apply m o x : sane m -> settled m -> no_removal o -> no_tx_path o -> known_first m o -> apply m o = Done x -> settled x.
Proof.
  intros S0 P NR NT KF. destruct o as [n h|t|d|t p|id|n|d]; try contradiction; cbn [SpvModel.apply]; intros E.
  - assert (x = fst (insert_header H m n h)) as -> by congruence. unfold insert_header. destruct (negb (header_valid H h)); [exact P|].
    destruct (hget (m_by_height m) n) as [i|]; [destruct (header_eqb _ _)|]; cbn [fst]; [exact P| |exact P]. exact (settled_reorg m n P).
  - assert (x = insert_tx H m t) as -> by congruence. unfold insert_tx. destruct (dget (m_txs m) (tx_id H t)) eqn:T; [exact P|].
    pose proof (proj2 (P _) T) as B. rewrite B. intros k. cbn [with_txs m_txs m_pending m_by_txid]. rewrite dget_put, set_add_In.
    destruct (bytes_eqb k (tx_id H t)) eqn:K.
    + apply bytes_eqb_eq in K. subst k. rewrite B. split; [|discriminate]. intros _. split; auto.
    + assert (k <> tx_id H t) as NE by (intros ->; rewrite bytes_eqb_refl in K; discriminate). split; intros Q.
      * rewrite <- (proj1 (P k) Q). tauto.
      * apply (proj2 (P k) Q).
  - destruct (insert_dual H ins ord dup fuel m d) as [[y b]| |] eqn:Q; try discriminate.
    assert (x = y) as -> by congruence. destruct (insert_dual_inv _ _ _ _ _ _ _ _ Q) as [F|(i & q & A & B & C & F)].
    + assert (y = m) as -> by congruence. exact P.
    + assert (y = confirmed_all i (set_paths m i (d_paths q)) (map fst (d_paths d))) as -> by congruence.
      intros k. rewrite (confirmed_all_pending H), confirmed_all_txid. destruct (confirmed_all_same i (map fst (d_paths d)) (set_paths m i (d_paths q))) as (_ & _ & _ & _ & _ & A6).
      rewrite A6. change (m_txs (set_paths m i (d_paths q))) with (m_txs m). change (m_pending (set_paths m i (d_paths q))) with (m_pending m).
      change (m_by_txid (set_paths m i (d_paths q))) with (m_by_txid m). destruct (digest_in k (map fst (d_paths d))) eqn:D.
      * apply digest_in_iff in D. pose proof (KF k D) as V. unfold dbtx_valid, transaction in V.
        assert (dget (m_txs m) k <> None) as T by (destruct (dget (m_by_txid m) k); cbn in V; destruct (dget (m_txs m) k); congruence).
        split; [|congruence]. intros _. split; [tauto|discriminate].
      * assert (~ In k (map fst (d_paths d))) as ND by (intros D2; apply digest_in_iff in D2; congruence). split; intros T.
        -- rewrite <- (proj1 (P k) T). tauto.
        -- apply (proj2 (P k) T).
  - assert (x = remove_tx m id) as -> by congruence. unfold remove_tx. destruct (digest_in id (m_pending m)) eqn:D; [|exact P]. apply digest_in_iff in D.
    intros k. cbn [with_txs m_txs m_pending m_by_txid]. rewrite dget_del, set_del_In. destruct (bytes_eqb id k) eqn:K.
    + apply bytes_eqb_eq in K. subst k. split; [congruence|]. intros _. destruct (dget (m_txs m) id) eqn:T.
      * apply (proj1 (P id)); [congruence|exact D].
      * apply (proj2 (P id) T).
    + assert (k <> id) as NE by (intros ->; rewrite bytes_eqb_refl in K; discriminate). split; intros Q.
      * rewrite <- (proj1 (P k) Q). tauto.
      * apply (proj2 (P k) Q).
Qed.
Theorem pending_exact h0 l m t : throughout H ins ord dup fuel (fun m o => no_removal o /\ no_tx_path o /\ known_first m o) (new_db H h0) l ->
  history (new_db H h0) l = Done m -> dbtx_valid (transaction m t) = true ->
  (In t (unconfirmed m) <-> dbtx_confirmed (transaction m t) = false).
Proof.
  intros T E V.
  assert (sane m /\ settled m) as (S0 & P).
  { refine (preserved H ins ord dup fuel (fun y => sane y /\ settled y) _ _ l _ _ _ T E).
    - intros a o y (A & B) (P1 & P2 & P3) E2. split; [eapply sane_apply; eassumption|eapply settled_apply; eassumption].
    - split; [apply sane_new|]. intros k. unfold new_db, insert_header. destruct (negb (header_valid H h0)); cbn; split; congruence. }
  assert (dget (m_txs m) t <> None) as K.
  { unfold dbtx_valid, transaction in V. destruct (dget (m_by_txid m) t); cbn in V; destruct (dget (m_txs m) t); congruence. }
  unfold unconfirmed. rewrite (proj1 (P t) K). rewrite <- Bool.not_true_iff_false, confirmed_iff by exact S0. destruct (dget (m_by_txid m) t).
  - split; [discriminate|]. intros A. exfalso. apply A. split; [exact K|discriminate].
  - split; [|reflexivity]. intros _ [_ A]. congruence.
Qed.

(* ---------------------------------------------------------------- a reorganisation *)
Theorem reorg_exact h0 l m n h h' m' t : history (new_db H h0) l = Done m ->
  header_at m n = Some (n, h) -> header_eqb h h' = false -> header_valid H h' = true -> apply m (InsertHeader n h') = Done m' ->
  (forall k, header_at m' k = if k <? n then header_at m k else if k =? n then Some (n, h') else None) /\
  ((exists k, n <= k /\ In t (map fst (block_paths m k))) ->
     transaction m' t = mkdbtx (x_tx (transaction m t)) no_conf /\ In t (unconfirmed m')) /\
  (~ (exists k, n <= k /\ In t (map fst (block_paths m k))) ->
     transaction m' t = transaction m t /\ (In t (unconfirmed m') <-> In t (unconfirmed m))).
Proof.
  intros E HA NE V E2. pose proof (sane_history _ _ _ _ _ _ _ _ (sane_new H h0) E) as S0. apply (header_at_iff H) in HA as [_ (i & G & <-)]; [|exact S0].
  cbn [SpvModel.apply] in E2. unfold insert_header in E2. rewrite V, G, NE in E2. cbn [negb fst] in E2.
  assert (m' = add_header H (reorg H m n) n h') as -> by congruence. clear E2.
  pose proof (sane_reorg H m n S0) as S1. pose proof (reorg_unfold H m n) as RU.
  assert (DE : forall j, deref (reorg H m n) j = deref m j) by (intros j; rewrite RU; reflexivity).
  assert (LE : length (m_heap (reorg H m n)) = length (m_heap m)) by (rewrite RU; reflexivity).
  assert (BT : dget (m_by_txid (add_header H (reorg H m n) n h')) t = if existsb (fun i => digest_in t (map fst (e_paths (deref m i)))) (doomed m n) then None else dget (m_by_txid m) t).
  { change (m_by_txid (add_header H (reorg H m n) n h')) with (m_by_txid (reorg H m n)). rewrite RU. cbn [m_by_txid]. apply dropped_txid. }
  assert (TX : m_txs (add_header H (reorg H m n) n h') = m_txs m) by (change (m_txs (add_header H (reorg H m n) n h')) with (m_txs (reorg H m n)); rewrite RU; reflexivity).
  assert (PE : In t (unconfirmed (add_header H (reorg H m n) n h')) <-> In t (m_pending m) \/ exists i, In i (doomed m n) /\ In t (map fst (e_paths (deref m i)))).
  { change (unconfirmed (add_header H (reorg H m n) n h')) with (m_pending (reorg H m n)). rewrite RU. cbn [m_pending]. apply dropped_pending. }
  assert (DO : (exists k, n <= k /\ In t (map fst (block_paths m k))) <-> exists i, In i (doomed m n) /\ In t (map fst (e_paths (deref m i)))).
  { unfold block_paths. split.
    - intros (k & L & I0). destruct (hget (m_by_height m) k) as [j|] eqn:J; [|destruct I0]. exists j. split; [|exact I0]. apply doomed_iff; [apply S0|]. eauto.
    - intros (j & A & B). apply doomed_iff in A as (k & L & J); [|apply S0]. exists k. split; [exact L|]. rewrite J. exact B. }
  assert (EX : existsb (fun i => digest_in t (map fst (e_paths (deref m i)))) (doomed m n) = true <-> exists i, In i (doomed m n) /\ In t (map fst (e_paths (deref m i)))).
  { rewrite existsb_exists. split; intros (j & A & B); exists j; (split; [exact A|]); apply digest_in_iff; exact B. }
  split; [|rewrite DO; split].
  - intros k. unfold header_at. change (m_by_height (add_header H (reorg H m n) n h')) with (put N.eqb (m_by_height (reorg H m n)) n (length (m_heap (reorg H m n)))).
    rewrite hget_put. assert (BR : hget (m_by_height (reorg H m n)) k = if k <? n then hget (m_by_height m) k else None) by (rewrite RU; apply hget_below).
    rewrite BR. destruct (k =? n) eqn:KN.
    + replace (k <? n) with false by lia. cbn [option_map]. rewrite add_new by exact S1. cbn. replace k with n by lia. reflexivity.
    + destruct (k <? n) eqn:LT; [|reflexivity]. destruct (hget (m_by_height m) k) as [j|] eqn:J; [|reflexivity]. cbn [option_map].
      pose proof (proj1 (s_height H m S0 _ _ J)) as LJ. destruct (add_old H (reorg H m n) n h' j S1 ltac:(rewrite LE; exact LJ)) as (A & B & _ & _).
      rewrite A, B, DE. reflexivity.
  - intros X. split; [|apply PE; auto]. rewrite transaction_lost; [|rewrite BT, (proj2 EX X); reflexivity]. rewrite TX. f_equal.
    unfold transaction. destruct (dget (m_by_txid m) t); reflexivity.
  - intros X. assert (existsb (fun i => digest_in t (map fst (e_paths (deref m i)))) (doomed m n) = false) as F.
    { apply Bool.not_true_iff_false. rewrite EX. exact X. }
    rewrite F in BT. split; [|rewrite PE; split; [intros [A|A]; [exact A|contradiction]|auto]].
    unfold transaction. rewrite BT, TX. destruct (dget (m_by_txid m) t) as [j|] eqn:J; [|reflexivity].
    pose proof (s_txid H m S0 _ _ J) as LJ. destruct (add_old H (reorg H m n) n h' j S1 ltac:(rewrite LE; exact LJ)) as (A & B & C & _).
    rewrite A, B, DE. unfold entry_dual. rewrite B, C, DE. reflexivity.
Qed.

(* ---------------------------------------------------------------- proofs *)
Variable U : bytes -> list (bytes * path).
Variable L : bytes -> nat.
Hypothesis H32 : forall m, length (H m) = 32%nat.
Hypothesis Ins : inserts ins.
Hypothesis Ord : forall l, Permutation (ord l) l.
Hypothesis Uni : universe H U L.
Hypothesis Fuel : (32 <= fuel)%nat.

Record good (m : db) : Prop := {
  g_in : forall i e, (i < length (m_heap m))%nat -> In e (e_paths (deref m i)) -> In e (U (h_merkle_root (e_header (deref m i))));
  g_nd : forall i, (i < length (m_heap m))%nat -> NoDup (map fst (e_paths (deref m i)));
  g_tx : forall t i, dget (m_by_txid m) t = Some i -> In t (map fst (e_paths (deref m i))) }.

Lemma paths_valid_iff ps : paths_valid ps = true <-> forall e, In e ps -> entry_ok e.
Proof.
  unfold paths_valid. rewrite forallb_forall. unfold entry_ok. split; intros A e I0; specialize (A e I0); apply andb_true_iff; exact A.
Qed.
Lemma longest_le ps n : (forall e, In e ps -> (length (p_digests (snd e)) <= n)%nat) -> (longest ps <= n)%nat.
Proof.
  induction ps as [|e r IH]; intros A; cbn [longest]; [lia|]. pose proof (A e (or_introl eq_refl)). specialize (IH (fun x I0 => A x (or_intror I0))). lia.
Qed.
Lemma dual_valid_total d : (forall e, In e (d_paths d) -> In e (U (d_root d))) -> exists b, dual_valid H ins fuel d = Done b.
Proof.
  intros A. destruct (Uni (d_root d)) as (LL & UE & _ & _).
  destruct (digest_valid (d_root d)) eqn:DV; [|exists false; apply dual_valid_ill_formed; intros (B & _ & _); congruence].
  destruct (d_paths d) as [|e r] eqn:DP; [exists false; apply dual_valid_ill_formed; intros (_ & _ & B); congruence|]. rewrite <- DP in A.
  eexists. apply (dual_valid_agrees H ins Ins d (d_root d) 0).
  - split; [exact DV|]. split; [|congruence]. apply paths_valid_iff. intros x I0. apply (UE x (A x I0)).
  - intros x I0. destruct (UE x (A x I0)) as ((_ & FL & FI & _) & DR & _). split; [exact DR|].
    unfold count. rewrite FL. apply N.div_small. exact FI.
  - assert (longest (d_paths d) <= 31)%nat; [|lia]. apply longest_le. intros x I0. destruct (UE x (A x I0)) as ((_ & FL & _) & _). lia.
Qed.
Lemma plus_good m i d : sane m -> good m -> (i < length (m_heap m))%nat -> h_merkle_root (e_header (deref m i)) = d_root d ->
  NoDup (map fst (d_paths d)) -> (forall e, In e (d_paths d) -> In e (U (d_root d))) ->
  exists q, dual_plus H ins ord dup fuel (entry_dual (deref m i)) d = Done q /\ NoDup (map fst (d_paths q)) /\
    forall e, In e (d_paths q) <-> In e (e_paths (deref m i)) \/ In e (d_paths d).
Proof.
  intros S0 G LI R ND A. destruct (Uni (d_root d)) as (LL & UE & SP & CF).
  destruct (e_paths (deref m i)) as [|e0 r0] eqn:EP.
  - exists d. split; [|split; [exact ND|intros e; cbn; tauto]]. apply plus_invalid. apply dual_valid_ill_formed. intros (_ & _ & B). apply B. cbn. exact EP.
  - rewrite <- EP in *. assert (ALL : forall e, In e (e_paths (deref m i) ++ d_paths d) -> In e (U (d_root d))).
    { intros e I0. apply in_app_iff in I0 as [I0|I0]; [|auto]. rewrite <- R. apply (g_in m G); assumption. }
    destruct (dual_plus_exact H ins ord dup (entry_dual (deref m i)) d (L (d_root d)) fuel H32 Ins Ord LL) as (q & Q1 & Q2 & Q3 & Q4).
    + split; [apply header_valid_parts; apply (s_valid H m S0 i LI)|]. split; [|cbn; congruence]. apply paths_valid_iff. intros e I0.
      apply (UE e). apply ALL. apply in_app_iff. left. exact I0.
    + exact R.
    + cbn [entry_dual d_paths d_root]. intros e I0. destruct (UE e (ALL e I0)) as (F & DR & _). split; [exact F|]. rewrite DR. symmetry. exact R.
    + cbn [entry_dual d_paths]. intros e f Ie If. apply SP; auto.
    + cbn [entry_dual d_paths]. intros e f Ie If. apply CF; auto.
    + lia.
    + exists q. auto.
Qed.

Lemma good_reorg m n : sane m -> good m -> good (reorg H m n).
Proof.
  intros S0 G. rewrite reorg_unfold. constructor; cbn [m_heap m_by_txid]; unfold deref; cbn [m_heap].
  - apply (g_in m G).
  - apply (g_nd m G).
  - intros t i. rewrite dropped_txid. destruct (existsb _ _); [discriminate|]. apply (g_tx m G).
Qed.
Lemma good_add m n h : sane m -> good m -> good (add_header H m n h).
Proof.
  intros S0 G. pose proof (add_new H m n h S0) as NEW. pose proof (fun j => add_old H m n h j S0) as OLD. pose proof (add_length H m n h) as LEN. constructor.
  - intros i e LI. rewrite LEN in LI. destruct (Nat.eq_dec i (length (m_heap m))) as [->|NE]; [rewrite NEW; intros []|].
    assert (A : (i < length (m_heap m))%nat) by lia. destruct (OLD i A) as (_ & B & C & _). rewrite B, C. apply (g_in m G), A.
  - intros i LI. rewrite LEN in LI. destruct (Nat.eq_dec i (length (m_heap m))) as [->|NE]; [rewrite NEW; constructor|].
    assert (A : (i < length (m_heap m))%nat) by lia. destruct (OLD i A) as (_ & _ & C & _). rewrite C. apply (g_nd m G), A.
  - intros t i Q. change (m_by_txid (add_header H m n h)) with (m_by_txid m) in Q. destruct (OLD i (s_txid H m S0 _ _ Q)) as (_ & _ & C & _). rewrite C. apply (g_tx m G), Q.
Qed.
Lemma good_set_paths m i q d : good m -> (i < length (m_heap m))%nat -> h_merkle_root (e_header (deref m i)) = d_root d ->
  (forall e, In e (d_paths d) -> In e (U (d_root d))) -> NoDup (map fst q) -> (forall e, In e q <-> In e (e_paths (deref m i)) \/ In e (d_paths d)) ->
  good (set_paths m i q).
Proof.
  intros G LI R A ND Q. constructor.
  - intros j e. rewrite set_paths_length. intros LJ. rewrite set_paths_deref by exact LI. destruct (i =? j)%nat eqn:IJ; cbn [e_paths e_header]; [|apply (g_in m G), LJ].
    assert (i = j) as <- by lia. rewrite Q. intros [I0|I0]; [apply (g_in m G); assumption|]. rewrite R. auto.
  - intros j. rewrite set_paths_length. intros LJ. rewrite set_paths_deref by exact LI. destruct (i =? j)%nat; cbn [e_paths]; [exact ND|apply (g_nd m G), LJ].
  - intros t j B. change (m_by_txid (set_paths m i q)) with (m_by_txid m) in B. pose proof (g_tx m G _ _ B) as T. rewrite set_paths_deref by exact LI.
    destruct (i =? j)%nat eqn:IJ; cbn [e_paths]; [|exact T]. assert (i = j) as <- by lia.
    apply in_map_iff in T as (e & E1 & E2). apply in_map_iff. exists e. split; [exact E1|]. apply Q. auto.
Qed.
Lemma good_same m x : m_heap x = m_heap m -> m_by_txid x = m_by_txid m -> good m -> good x.
Proof. intros A B [C D E]. constructor; unfold deref; rewrite ?A, ?B; assumption. Qed.
Lemma good_apply m o x : sane m -> good m -> from_universe H U o -> apply m o = Done x -> good x.
Proof.
  intros S0 G FU. destruct o as [n h|t|d|t p|id|n|d]; cbn [SpvModel.apply]; intros E.
  - assert (x = fst (insert_header H m n h)) as -> by congruence. unfold insert_header. destruct (negb (header_valid H h)); [exact G|].
    destruct (hget (m_by_height m) n) as [i|]; [destruct (header_eqb _ _)|]; cbn [fst]; [exact G| |]; apply good_add; auto using good_reorg, sane_reorg.
  - assert (x = insert_tx H m t) as -> by congruence. unfold insert_tx. destruct (dget (m_txs m) (tx_id H t)); [exact G|]. apply (good_same m); auto.
  - destruct (insert_dual H ins ord dup fuel m d) as [[y b]| |] eqn:Q; try discriminate.
    assert (x = y) as -> by congruence. destruct (insert_dual_inv _ _ _ _ _ _ _ _ Q) as [F|(i & q & A & B & C & F)].
    + assert (y = m) as -> by congruence. exact G.
    + assert (y = confirmed_all i (set_paths m i (d_paths q)) (map fst (d_paths d))) as -> by congruence. destruct FU as [ND FU].
      destruct (s_root H m S0 _ _ B) as [LI R]. destruct (plus_good m i d S0 G LI R ND FU) as (q' & Q1 & Q2 & Q3). assert (q' = q) as -> by congruence.
      pose proof (good_set_paths m i (d_paths q) d G LI R FU Q2 Q3) as G2.
      destruct (confirmed_all_same i (map fst (d_paths d)) (set_paths m i (d_paths q))) as (A1 & _).
      constructor; unfold deref; rewrite ?A1; [apply (g_in _ G2)|apply (g_nd _ G2)|]. intros t j. rewrite confirmed_all_txid.
      destruct (digest_in t (map fst (d_paths d))) eqn:D; [|apply (g_tx _ G2)]. intros IJ. assert (i = j) as <- by congruence.
      fold (deref (set_paths m i (d_paths q)) i). rewrite set_paths_deref by exact LI. rewrite Nat.eqb_refl. cbn [e_paths].
      apply digest_in_iff in D. apply in_map_iff in D as (e & E1 & E2). apply in_map_iff. exists e. split; [exact E1|]. apply Q3. auto.
  - destruct (insert_tx_path H ins ord dup fuel m t p) as [[y b]| |] eqn:Q; try discriminate.
    assert (x = y) as -> by congruence. destruct (insert_tx_path_inv _ _ _ _ _ _ _ _ _ Q) as [F|(i & q & A & B & C & F)].
    + assert (y = m) as -> by congruence. exact G.
    + assert (y = with_txs (set_paths m i (d_paths q)) (put bytes_eqb (m_txs m) (tx_id H t) t) (m_pending m)) as -> by congruence. cbn [from_universe] in FU.
      destruct (s_root H m S0 _ _ B) as [LI R].
      set (d := mkdual [(tx_id H t, p)] (derive_root H p (tx_id H t))) in *.
      assert (FU2 : forall e, In e (d_paths d) -> In e (U (d_root d))) by (intros e [<-|[]]; exact FU).
      assert (ND : NoDup (map fst (d_paths d))) by (constructor; [intros []|constructor]).
      destruct (plus_good m i d S0 G LI R ND FU2) as (q' & Q1 & Q2 & Q3). assert (q' = q) as -> by congruence.
      apply (good_same (set_paths m i (d_paths q))); try reflexivity. apply (good_set_paths m i (d_paths q) d); assumption.
  - assert (x = remove_tx m id) as -> by congruence. unfold remove_tx. destruct (digest_in id (m_pending m)); [|exact G]. apply (good_same m); auto.
  - destruct (remove_height H m n) as [y|] eqn:Q; [|discriminate]. assert (x = y) as -> by congruence.
    destruct (remove_height_inv _ _ _ _ Q) as (l & _ & [->|[_ ->]]); [exact G|]. apply (good_same m); auto.
  - destruct (remove_hash H m d) as [y|] eqn:Q; [|discriminate]. assert (x = y) as -> by congruence.
    destruct (remove_hash_inv _ _ _ _ Q) as (l & _ & [->|[_ ->]]); [exact G|]. apply (good_same m); auto.
Qed.
Lemma good_new h : good (new_db H h).
Proof.
  unfold new_db, insert_header. destruct (negb (header_valid H h)).
  - constructor; cbn; try discriminate; intros; lia.
  - change (hget (m_by_height empty_db) 0) with (@None nat). cbn [fst]. apply good_add; [apply sane_empty|]. constructor; cbn; try discriminate; intros; lia.
Qed.
Lemma good_history l h0 m : throughout H ins ord dup fuel (fun _ => from_universe H U) (new_db H h0) l -> history (new_db H h0) l = Done m -> sane m /\ good m.
Proof.
  intros T E. refine (preserved H ins ord dup fuel (fun y => sane y /\ good y) _ _ l _ _ _ T E).
  - intros a o y (A & B) P E2. split; [eapply sane_apply; eassumption|eapply good_apply; eassumption].
  - split; [apply sane_new|apply good_new].
Qed.

Lemma good_found m t i : sane m -> good m -> dget (m_by_txid m) t = Some i ->
  exists p, In (t, p) (e_paths (deref m i)) /\ transaction m t = found m t i p.
Proof.
  intros S0 G B. pose proof (g_tx m G _ _ B) as T. apply in_map_iff in T as ((k & p) & E1 & E2). cbn in E1. subst k. exists p. split; [exact E2|].
  apply transaction_found; [exact B|]. apply pget_In; [apply (g_nd m G), (s_txid H m S0 _ _ B)|exact E2].
Qed.
Theorem confirmed_validates h0 l m t : throughout H ins ord dup fuel (fun _ => from_universe H U) (new_db H h0) l -> history (new_db H h0) l = Done m ->
  dbtx_confirmed (transaction m t) = true -> dbtx_validate H (transaction m t) = true.
Proof.
  intros T E C. destruct (good_history l h0 m T E) as [S0 G]. unfold dbtx_validate. rewrite C. cbn [andb].
  apply confirmed_iff in C as [C1 C2]; [|exact S0]. destruct (dget (m_by_txid m) t) as [i|] eqn:B; [|congruence].
  destruct (good_found m t i S0 G B) as (p & P1 & P2). rewrite P2. unfold found. cbn [x_tx x_conf c_path c_header].
  destruct (dget (m_txs m) t) as [x|] eqn:X; [|congruence]. unfold path_valid. pose proof (s_txid H m S0 _ _ B) as LI.
  rewrite (s_valid H m S0 i LI). cbn [andb]. apply bytes_eqb_eq. rewrite (s_txs H m S0 _ _ X).
  destruct (Uni (h_merkle_root (e_header (deref m i)))) as (_ & UE & _). apply (UE (t, p)). apply (g_in m G); assumption.
Qed.
Definition rooted (m : db) : Prop := forall t i, dget (m_by_txid m) t = Some i -> hget (m_by_height m) (e_height (deref m i)) = Some i.
Lemma rooted_same m x : m_by_height x = m_by_height m -> m_by_txid x = m_by_txid m -> (forall i, e_height (deref x i) = e_height (deref m i)) -> rooted m -> rooted x.
Proof. intros A B C R t i. rewrite A, B, C. apply R. Qed.
Lemma rooted_add m n h : sane m -> rooted m -> hget (m_by_height m) n = None -> rooted (add_header H m n h).
Proof.
  intros S0 R F t i Q. change (m_by_txid (add_header H m n h)) with (m_by_txid m) in Q. destruct (add_old H m n h i S0 (s_txid H m S0 _ _ Q)) as (A & _). rewrite A.
  change (m_by_height (add_header H m n h)) with (put N.eqb (m_by_height m) n (length (m_heap m))). rewrite hget_put. specialize (R t i Q).
  destruct (_ =? n) eqn:E; [|exact R]. replace (e_height (deref m i)) with n in R by lia. congruence.
Qed.
Lemma rooted_reorg m n : sane m -> good m -> rooted m -> rooted (reorg H m n).
Proof.
  intros S0 G R t i. rewrite reorg_unfold. cbn [m_by_txid m_by_height]. unfold deref. cbn [m_heap]. fold (deref m i). rewrite dropped_txid, hget_below.
  destruct (existsb _ _) eqn:X; [discriminate|]. intros Q. pose proof (R t i Q) as A. destruct (_ <? n) eqn:LT; [exact A|]. exfalso.
  apply Bool.not_true_iff_false in X. apply X. apply existsb_exists. exists i. split.
  - apply doomed_iff; [apply S0|]. exists (e_height (deref m i)). split; [lia|exact A].
  - apply digest_in_iff. apply (g_tx m G _ _ Q).
Qed.
Lemma rooted_apply m o x : sane m -> linked m -> good m -> rooted m -> from_universe H U o -> no_removal o -> apply m o = Done x -> rooted x.
Proof.
  intros S0 K G R FU NR. destruct o as [n h|t|d|t p|id|n|d]; try contradiction; intros E.
  - cbn [SpvModel.apply] in E. assert (x = fst (insert_header H m n h)) as -> by congruence. unfold insert_header. destruct (negb (header_valid H h)); [exact R|].
    destruct (hget (m_by_height m) n) as [i|] eqn:F; [destruct (header_eqb _ _)|]; cbn [fst]; [exact R| |].
    + apply rooted_add; [apply sane_reorg, S0|apply rooted_reorg; assumption|]. rewrite reorg_unfold. cbn [m_by_height]. rewrite hget_below, N.ltb_irrefl. reflexivity.
    + apply rooted_add; assumption.
  - destruct (other_same H _ _ _ _ m _ x S0 E I) as (A1 & A2 & A3 & A4 & A5). cbn [SpvModel.apply] in E. assert (x = insert_tx H m t) as -> by congruence.
    apply (rooted_same m); auto; [|intros i; apply (A5 i)]. unfold insert_tx. destruct (dget (m_txs m) (tx_id H t)); reflexivity.
  - destruct (other_same H _ _ _ _ m _ x S0 E I) as (A1 & A2 & A3 & A4 & A5). cbn [SpvModel.apply] in E.
    destruct (insert_dual H ins ord dup fuel m d) as [[y b]| |] eqn:Q; try discriminate.
    assert (x = y) as -> by congruence. destruct (insert_dual_inv _ _ _ _ _ _ _ _ Q) as [F|(i & q & A & B & C & F)].
    + assert (y = m) as -> by congruence. exact R.
    + assert (y = confirmed_all i (set_paths m i (d_paths q)) (map fst (d_paths d))) as EQ by congruence. intros t j. rewrite A1, (proj1 (A5 j)), EQ, confirmed_all_txid.
      destruct (digest_in t (map fst (d_paths d))); [|apply R]. intros IJ. assert (i = j) as <- by congruence. apply (l_root m (k_semi m K) _ _ B).
  - destruct (other_same H _ _ _ _ m _ x S0 E I) as (A1 & A2 & A3 & A4 & A5). cbn [SpvModel.apply] in E.
    destruct (insert_tx_path H ins ord dup fuel m t p) as [[y b]| |] eqn:Q; try discriminate.
    assert (x = y) as -> by congruence. destruct (insert_tx_path_inv _ _ _ _ _ _ _ _ _ Q) as [F|(i & q & A & B & C & F)].
    + assert (y = m) as -> by congruence. exact R.
    + apply (rooted_same m); auto; [|intros j; apply (A5 j)].
      assert (y = with_txs (set_paths m i (d_paths q)) (put bytes_eqb (m_txs m) (tx_id H t) t) (m_pending m)) as -> by congruence. reflexivity.
  - destruct (other_same H _ _ _ _ m _ x S0 E I) as (A1 & A2 & A3 & A4 & A5). cbn [SpvModel.apply] in E. assert (x = remove_tx m id) as -> by congruence.
    apply (rooted_same m); auto; [|intros i; apply (A5 i)]. unfold remove_tx. destruct (digest_in id (m_pending m)); reflexivity.
Qed.
Lemma no_removal_keeps m o : no_removal o -> keeps_chain H m o.
Proof. intros NR (n & h & _ & F). destruct o; contradiction. Qed.
Theorem confirmed_known h0 l m t : header_valid H h0 = true -> throughout H ins ord dup fuel (fun _ o => from_universe H U o /\ no_removal o) (new_db H h0) l ->
  history (new_db H h0) l = Done m -> dbtx_confirmed (transaction m t) = true ->
  dbtx_validate H (transaction m t) = true /\
  header_at m (c_height (x_conf (transaction m t))) = Some (c_height (x_conf (transaction m t)), c_header (x_conf (transaction m t))).
Proof.
  intros V T E C.
  assert (sane m /\ linked m /\ good m /\ rooted m) as (S0 & K & G & R).
  { refine (preserved H ins ord dup fuel (fun y => sane y /\ linked y /\ good y /\ rooted y) _ _ l _ _ _ T E).
    - intros a o y (A & B & C2 & D) [P1 P2] E2. split; [eapply sane_apply; eassumption|]. split; [eapply linked_apply; try eassumption; apply no_removal_keeps, P2|].
      split; [eapply good_apply; eassumption|eapply rooted_apply; eassumption].
    - split; [apply sane_new|]. split; [apply linked_new, V|]. split; [apply good_new|]. intros k i. unfold new_db, insert_header. rewrite V. discriminate. }
  split.
  - apply (confirmed_validates h0 l); try assumption. revert T. generalize (new_db H h0). clear - l. induction l as [|o r IH]; intros m0; cbn; [auto|].
    intros [[A _] B]. split; [exact A|]. destruct (apply m0 o); auto.
  - apply confirmed_iff in C as [C1 C2]; [|exact S0]. destruct (dget (m_by_txid m) t) as [i|] eqn:B; [|congruence].
    destruct (good_found m t i S0 G B) as (p & P1 & P2). rewrite P2. unfold found. cbn [x_conf c_height c_header].
    apply (header_at_iff H); [exact S0|]. split; [reflexivity|]. exists i. split; [apply (R _ _ B)|reflexivity].
Qed.

(* ---------------------------------------------------------------- adding proofs *)
Theorem insert_dual_exact h0 l m d m' b : throughout H ins ord dup fuel (fun _ => from_universe H U) (new_db H h0) l -> history (new_db H h0) l = Done m ->
  from_universe H U (InsertDual d) -> insert_dual H ins ord dup fuel m d = Done (m', b) ->
  if b then
    exists n h, h_merkle_root h = d_root d /\
      (forall t p, In (t, p) (d_paths d) -> transaction m' t = mkdbtx (x_tx (transaction m t)) (mkconf p n h)) /\
      (forall t, ~ In t (map fst (d_paths d)) -> transaction m' t = transaction m t)
  else m' = m /\ (dual_valid H ins fuel d = Done false \/ dget (m_by_root m) (d_root d) = None).
Proof.
  intros T E FU Q. destruct (good_history l h0 m T E) as [S0 G]. destruct b.
  - destruct (insert_dual_inv _ _ _ _ _ _ _ _ Q) as [F|(i & q & A & B & C & F)]; [congruence|]. destruct FU as [ND FU].
    assert (m' = confirmed_all i (set_paths m i (d_paths q)) (map fst (d_paths d))) as -> by congruence.
    destruct (s_root H m S0 _ _ B) as [LI R]. destruct (plus_good m i d S0 G LI R ND FU) as (q' & Q1 & Q2 & Q3). assert (q' = q) as -> by congruence.
    destruct (confirmed_all_same i (map fst (d_paths d)) (set_paths m i (d_paths q))) as (A1 & _ & _ & _ & _ & A6).
    assert (DE : forall j, deref (confirmed_all i (set_paths m i (d_paths q)) (map fst (d_paths d))) j = deref (set_paths m i (d_paths q)) j) by (intros j; unfold deref; rewrite A1; reflexivity).
    exists (e_height (deref m i)), (e_header (deref m i)). split; [exact R|]. split.
    + intros t p I0. rewrite (transaction_found _ t i p).
      * unfold found. rewrite A6, DE, set_paths_deref by exact LI. rewrite Nat.eqb_refl. cbn [e_height e_header]. change (m_txs (set_paths m i (d_paths q))) with (m_txs m).
        f_equal. unfold transaction. destruct (dget (m_by_txid m) t); reflexivity.
      * rewrite confirmed_all_txid. replace (digest_in t (map fst (d_paths d))) with true; [reflexivity|]. symmetry. apply digest_in_iff. exact (in_map fst _ _ I0).
      * rewrite DE, set_paths_deref by exact LI. rewrite Nat.eqb_refl. cbn [e_paths]. apply pget_In; [exact Q2|]. apply Q3. auto.
    + intros t NI. unfold transaction. rewrite confirmed_all_txid, A6. change (m_txs (set_paths m i (d_paths q))) with (m_txs m).
      change (m_by_txid (set_paths m i (d_paths q))) with (m_by_txid m).
      replace (digest_in t (map fst (d_paths d))) with false by (symmetry; apply Bool.not_true_iff_false; rewrite digest_in_iff; exact NI).
      destruct (dget (m_by_txid m) t) as [j|] eqn:J; [|reflexivity]. rewrite DE. rewrite set_paths_deref by exact LI. destruct (i =? j)%nat eqn:IJ; [|reflexivity].
      assert (i = j) as <- by lia. cbn [e_height e_header]. unfold dual_at, entry_dual. cbn [d_paths d_root e_paths e_header].
      replace (path_get (d_paths q) t) with (path_get (e_paths (deref m i)) t); [reflexivity|].
      apply path_get_same; [apply (g_nd m G), LI|exact Q2|]. intros p. rewrite Q3. split; [auto|]. intros [X|X]; [exact X|]. exfalso. apply NI. exact (in_map fst _ _ X).
  - unfold insert_dual in Q. destruct (dual_valid H ins fuel d) as [[|]| |] eqn:V; try discriminate; [|split; [congruence|auto]].
    destruct (dget (m_by_root m) (d_root d)) as [i|] eqn:B; [|split; [congruence|auto]].
    destruct (dual_plus H ins ord dup fuel (entry_dual (deref m i)) d); congruence.
Qed.

(* nothing undefined happens, and everything ends *)
Lemma apply_total m o : sane m -> good m -> from_universe H U o -> m_latest m <> None -> exists x, apply m o = Done x.
Proof.
  intros S0 G FU LT. destruct o as [n h|t|d|t p|id|n|d]; cbn [SpvModel.apply]; try (eexists; reflexivity).
  - destruct FU as [ND FU]. unfold insert_dual. destruct (dual_valid_total d FU) as [[|] V]; rewrite V; [|eexists; reflexivity].
    destruct (dget (m_by_root m) (d_root d)) as [i|] eqn:B; [|eexists; reflexivity]. destruct (s_root H m S0 _ _ B) as [LI R].
    destruct (plus_good m i d S0 G LI R ND FU) as (q & Q1 & _). rewrite Q1. eexists; reflexivity.
  - unfold insert_tx_path. destruct (dget (m_txs m) (tx_id H t)); [eexists; reflexivity|].
    destruct (dget (m_by_root m) _) as [i|] eqn:B; [|eexists; reflexivity]. destruct (s_root H m S0 _ _ B) as [LI R].
    destruct (plus_good m i (mkdual [(tx_id H t, p)] (derive_root H p (tx_id H t))) S0 G LI R) as (q & Q1 & _).
    + constructor; [intros []|constructor].
    + intros e [<-|[]]. exact FU.
    + rewrite Q1. eexists; reflexivity.
  - unfold remove_height. destruct (m_latest m); [|contradiction]. eexists; reflexivity.
  - unfold remove_hash. destruct (m_latest m); [|contradiction]. eexists; reflexivity.
Qed.
Theorem history_total h0 l : header_valid H h0 = true ->
  throughout H ins ord dup fuel (fun m o => from_universe H U o /\ keeps_chain H m o) (new_db H h0) l ->
  exists m, history (new_db H h0) l = Done m.
Proof.
  intros V. assert (sane (new_db H h0) /\ linked (new_db H h0) /\ good (new_db H h0)) as J.
  { split; [apply sane_new|]. split; [apply linked_new, V|apply good_new]. }
  revert J. generalize (new_db H h0). induction l as [|o r IH]; intros m (S0 & K & G) T; cbn in *; [eauto|]. destruct T as [[T1 T2] T3].
  destruct (apply_total m o S0 G T1 (k_latest m K)) as [x X]. rewrite X in *. apply (IH x); [|exact T3].
  split; [eapply sane_apply; eassumption|]. split; [eapply linked_apply; eassumption|eapply good_apply; eassumption].
Qed.
End Paths.
