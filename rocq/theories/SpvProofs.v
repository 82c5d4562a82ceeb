(* Proofs about the SPV database. *)
From Coq Require Import Lia ZifyBool ZifyNat ZifyN.
From Verif Require Import Base BaseProofs WireModel MerkleModel MerkleSpec DualProofs WorkModel BeefModel BeefProofs SpvModel SpvSpec.
Local Open Scope N_scope.

(* ---------------------------------------------------------------- maps *)
Section Maps.
Context {K V : Type} (eqb : K -> K -> bool) (eqb_eq : forall a b, eqb a b = true <-> a = b).
Lemma get_del (m : list (K * V)) k x : get eqb (del eqb m k) x = if eqb k x then None else get eqb m x.
Proof.
  unfold del. induction m as [|[k' v] r IH]; cbn; [destruct (eqb k x); reflexivity|].
  destruct (eqb k k') eqn:E; cbn.
  - rewrite IH. destruct (eqb k x) eqn:E2; [reflexivity|]. destruct (eqb x k') eqn:E3; [|reflexivity].
    apply eqb_eq in E, E3. subst. rewrite (proj2 (eqb_eq k' k') eq_refl) in E2. discriminate.
  - destruct (eqb x k') eqn:E3.
    + apply eqb_eq in E3. subst. rewrite E. reflexivity.
    + exact IH.
Qed.
Lemma get_put (m : list (K * V)) k v x : get eqb (put eqb m k v) x = if eqb x k then Some v else get eqb m x.
Proof.
  cbn. destruct (eqb x k) eqn:E; [reflexivity|]. rewrite get_del. destruct (eqb k x) eqn:E2; [|reflexivity].
  apply eqb_eq in E2. subst. rewrite (proj2 (eqb_eq x x) eq_refl) in E. discriminate.
Qed.
Lemma get_filter (m : list (K * V)) (f : K -> bool) x : get eqb (filter (fun e => f (fst e)) m) x = if f x then get eqb m x else None.
Proof.
  induction m as [|[k v] r IH]; cbn; [destruct (f x); reflexivity|].
  destruct (eqb x k) eqn:E.
  - apply eqb_eq in E. subst k. destruct (f x) eqn:F; cbn; [rewrite (proj2 (eqb_eq x x) eq_refl); reflexivity|rewrite IH; reflexivity].
  - destruct (f k); cbn; [rewrite E|]; exact IH.
Qed.
Lemma get_In (m : list (K * V)) k v : get eqb m k = Some v -> In (k, v) m.
Proof.
  induction m as [|[k' v'] r IH]; cbn; [discriminate|]. destruct (eqb k k') eqn:E.
  - apply eqb_eq in E. intros Q. left. congruence.
  - auto.
Qed.
Lemma In_get (m : list (K * V)) k v : In (k, v) m -> exists w, get eqb m k = Some w.
Proof.
  induction m as [|[k' v'] r IH]; cbn; [intros []|]. destruct (eqb k k') eqn:E; [eauto|].
  intros [Q|I]; [|auto]. assert (k' = k) as -> by congruence. rewrite (proj2 (eqb_eq k k) eq_refl) in E. discriminate.
Qed.
End Maps.
Lemma N_eqb_eq : forall a b, N.eqb a b = true <-> a = b. Proof. exact N.eqb_eq. Qed.
Notation hget := (get N.eqb).
Notation dget := (get bytes_eqb).
Definition hget_put V := @get_put N V N.eqb N_eqb_eq.
Definition dget_put V := @get_put bytes V bytes_eqb bytes_eqb_eq.
Definition hget_del V := @get_del N V N.eqb N_eqb_eq.
Definition dget_del V := @get_del bytes V bytes_eqb bytes_eqb_eq.

Lemma set_add_In k s x : In x (set_add k s) <-> x = k \/ In x s.
Proof.
  unfold set_add. destruct (digest_in k s) eqn:E; cbn.
  - apply digest_in_iff in E. split; [auto|]. intros [->|?]; assumption.
  - split; intros [?|?]; auto.
Qed.
Lemma set_del_In k s x : In x (set_del k s) <-> In x s /\ x <> k.
Proof.
  unfold set_del. rewrite filter_In, negb_true_iff. split; intros [A B]; split; auto.
  - intros ->. rewrite (proj2 (bytes_eqb_eq k k) eq_refl) in B. discriminate.
  - destruct (bytes_eqb k x) eqn:E; [|reflexivity]. apply bytes_eqb_eq in E. congruence.
Qed.
Lemma fold_add_In ks : forall s x, In x (fold_left (fun p k => set_add k p) ks s) <-> In x ks \/ In x s.
Proof.
  induction ks as [|k r IH]; intros s x; cbn; [tauto|]. rewrite IH, set_add_In. split; intros [A|B]; intuition.
Qed.
Lemma fold_del_get {V} ks : forall (m : list (bytes * V)) x, dget (fold_left (fun t k => del bytes_eqb t k) ks m) x = if digest_in x ks then None else dget m x.
Proof.
  induction ks as [|k r IH]; intros m x; cbn; [reflexivity|]. rewrite IH, dget_del.
  replace (bytes_eqb x k) with (bytes_eqb k x).
  - fold (digest_in x r). destruct (bytes_eqb k x), (digest_in x r); reflexivity.
  - destruct (bytes_eqb k x) eqn:A, (bytes_eqb x k) eqn:B; try reflexivity.
    + apply bytes_eqb_eq in A. subst. rewrite (proj2 (bytes_eqb_eq x x) eq_refl) in B. discriminate.
    + apply bytes_eqb_eq in B. subst. rewrite (proj2 (bytes_eqb_eq k k) eq_refl) in A. discriminate.
Qed.

(* ---------------------------------------------------------------- heap *)
Lemma update_length {A} f : forall (l : list A) i, length (update i f l) = length l.
Proof. induction l as [|x r IH]; intros [|i]; cbn; congruence. Qed.
Lemma nth_update {A} f (d : A) : forall l i j, (i < length l)%nat -> nth j (update i f l) d = if (i =? j)%nat then f (nth j l d) else nth j l d.
Proof.
  induction l as [|x r IH]; intros [|i] [|j] L; cbn in *; try lia; try reflexivity. apply IH. lia.
Qed.
Lemma nth_snoc {A} (l : list A) x d j : nth j (l ++ [x]) d = if (j <? length l)%nat then nth j l d else if (j =? length l)%nat then x else d.
Proof.
  destruct (j <? length l)%nat eqn:E; [apply app_nth1; lia|]. rewrite app_nth2 by lia.
  destruct (j =? length l)%nat eqn:E2.
  - replace (j - length l)%nat with 0%nat by lia. reflexivity.
  - destruct (j - length l)%nat as [|k] eqn:E3; [lia|]. cbn. destruct k; reflexivity.
Qed.

Section Inv.
Variable H : bytes -> bytes.
Notation hash := (header_hash H).

Record sane (m : db) : Prop := {
  s_nodup : NoDup (map fst (m_by_height m));
  s_height : forall n i, hget (m_by_height m) n = Some i -> (i < length (m_heap m))%nat /\ e_height (deref m i) = n;
  s_hash : forall d i, dget (m_by_hash m) d = Some i -> (i < length (m_heap m))%nat /\ hash (e_header (deref m i)) = d;
  s_root : forall d i, dget (m_by_root m) d = Some i -> (i < length (m_heap m))%nat /\ h_merkle_root (e_header (deref m i)) = d;
  s_txid : forall d i, dget (m_by_txid m) d = Some i -> (i < length (m_heap m))%nat;
  s_latest : forall i, m_latest m = Some i -> (i < length (m_heap m))%nat;
  s_prev : forall i j, (i < length (m_heap m))%nat -> e_prev (deref m i) = Some j -> (j < length (m_heap m))%nat;
  s_valid : forall i, (i < length (m_heap m))%nat -> header_valid H (e_header (deref m i)) = true;
  s_txs : forall k t, dget (m_txs m) k = Some t -> tx_id H t = k }.

Lemma sane_empty : sane empty_db.
Proof. constructor; cbn; try discriminate; try (intros; lia). constructor. Qed.

(* dropping entries *)
Definition dropped (m : db) (is : list nat) : db := fold_left (drop_entry H) is m.
Lemma dropped_same : forall is m, m_heap (dropped m is) = m_heap m /\ m_latest (dropped m is) = m_latest m /\
  m_by_height (dropped m is) = m_by_height m /\ m_txs (dropped m is) = m_txs m.
Proof. induction is as [|i r IH]; intros m; [auto|]. cbn. destruct (IH (drop_entry H m i)) as (A & B & C & D). cbn in *. auto. Qed.
Lemma dropped_hash : forall is m d, dget (m_by_hash (dropped m is)) d =
  if existsb (fun i => bytes_eqb (hash (e_header (deref m i))) d) is then None else dget (m_by_hash m) d.
Proof.
  induction is as [|i r IH]; intros m d; [reflexivity|]. cbn [dropped fold_left existsb]. change (fold_left (drop_entry H) r (drop_entry H m i)) with (dropped (drop_entry H m i) r).
  rewrite IH. cbn. rewrite dget_del. unfold deref. cbn.
  destruct (bytes_eqb (hash (e_header (nth i (m_heap m) no_entry))) d); cbn; [destruct (existsb _ r); reflexivity|reflexivity].
Qed.
Lemma dropped_root : forall is m d, dget (m_by_root (dropped m is)) d =
  if existsb (fun i => bytes_eqb (h_merkle_root (e_header (deref m i))) d) is then None else dget (m_by_root m) d.
Proof.
  induction is as [|i r IH]; intros m d; [reflexivity|]. cbn [dropped fold_left existsb]. change (fold_left (drop_entry H) r (drop_entry H m i)) with (dropped (drop_entry H m i) r).
  rewrite IH. cbn. rewrite dget_del. unfold deref. cbn.
  destruct (bytes_eqb (h_merkle_root (e_header (nth i (m_heap m) no_entry))) d); cbn; [destruct (existsb _ r); reflexivity|reflexivity].
Qed.
Lemma dropped_txid : forall is m d, dget (m_by_txid (dropped m is)) d =
  if existsb (fun i => digest_in d (map fst (e_paths (deref m i)))) is then None else dget (m_by_txid m) d.
Proof.
  induction is as [|i r IH]; intros m d; [reflexivity|]. cbn [dropped fold_left existsb]. change (fold_left (drop_entry H) r (drop_entry H m i)) with (dropped (drop_entry H m i) r).
  rewrite IH. cbn. rewrite fold_del_get. unfold deref. cbn.
  destruct (digest_in d (map fst (e_paths (nth i (m_heap m) no_entry)))); cbn; [destruct (existsb _ r); reflexivity|reflexivity].
Qed.
Lemma dropped_pending : forall is m d, In d (m_pending (dropped m is)) <->
  In d (m_pending m) \/ exists i, In i is /\ In d (map fst (e_paths (deref m i))).
Proof.
  induction is as [|i r IH]; intros m d.
  - cbn. split; [auto|]. intros [A|(i & [] & _)]. exact A.
  - cbn [dropped fold_left]. change (fold_left (drop_entry H) r (drop_entry H m i)) with (dropped (drop_entry H m i) r). rewrite IH. cbn [drop_entry m_pending].
    rewrite fold_add_In. unfold deref. cbn [drop_entry m_heap]. split.
    + intros [[A|A]|(j & A & B)]; [right; exists i; split; [left; reflexivity|exact A]|auto|right; exists j; split; [right; exact A|exact B]].
    + intros [A|(j & [<-|A] & B)]; [auto|auto|right; eauto].
Qed.

Definition doomed (m : db) (height : N) : list nat := map snd (filter (fun e => height <=? fst e) (m_by_height m)).
Lemma reorg_unfold m height : reorg H m height =
  mkdb (m_heap m) None (filter (fun e => fst e <? height) (m_by_height m)) (m_by_hash (dropped m (doomed m height)))
    (m_by_root (dropped m (doomed m height))) (m_by_txid (dropped m (doomed m height))) (m_txs m) (m_pending (dropped m (doomed m height))).
Proof.
  unfold reorg. fold (doomed m height). fold (dropped m (doomed m height)).
  destruct (dropped_same (doomed m height) m) as (A & B & C & D). rewrite A, D. reflexivity.
Qed.
Lemma doomed_iff m height i : NoDup (map fst (m_by_height m)) ->
  (In i (doomed m height) <-> exists n, height <= n /\ hget (m_by_height m) n = Some i).
Proof.
  intros ND. unfold doomed. rewrite in_map_iff. split.
  - intros ([n j] & E & I). cbn in E. subst j. apply filter_In in I as [I L]. cbn in L. exists n. split; [lia|].
    clear L. induction (m_by_height m) as [|[k v] r IH]; [destruct I|]. cbn in *. inversion ND as [|? ? N1 N2]; subst.
    destruct I as [E|I].
    + assert (k = n /\ v = i) as [-> ->] by (split; congruence). rewrite N.eqb_refl. reflexivity.
    + destruct (n =? k) eqn:E; [|auto]. exfalso. apply N1. replace k with n by lia. exact (in_map fst _ _ I).
  - intros (n & L & G). exists (n, i). split; [reflexivity|]. apply filter_In. split; [apply (get_In N.eqb N_eqb_eq _ _ _ G)|cbn; lia].
Qed.

Lemma nodup_filter {A} (f : N -> bool) (l : list (N * A)) : NoDup (map fst l) -> NoDup (map fst (filter (fun e => f (fst e)) l)).
Proof.
  induction l as [|[k v] r IH]; cbn; [auto|]. intros N1. inversion N1 as [|? ? A1 A2]; subst. destruct (f k); cbn; [|auto].
  constructor; [|auto]. rewrite in_map_iff. intros ([k' v'] & E & I). apply filter_In in I as [I _]. cbn in E. subst k'.
  apply A1. exact (in_map fst _ _ I).
Qed.
Lemma nodup_del {A} (l : list (N * A)) k : NoDup (map fst l) -> NoDup (map fst (del N.eqb l k)).
Proof. exact (nodup_filter (fun x => negb (k =? x)) l). Qed.
Lemma nodup_put {A} (l : list (N * A)) k v : NoDup (map fst l) -> NoDup (map fst (put N.eqb l k v)).
Proof.
  intros N1. cbn. constructor; [|apply nodup_del, N1]. rewrite in_map_iff. intros ([k' v'] & E & I). apply filter_In in I as [_ I]. cbn in *. lia.
Qed.
Lemma hget_below {A} (l : list (N * A)) n x : hget (filter (fun e => fst e <? n) l) x = if x <? n then hget l x else None.
Proof. exact (get_filter N.eqb N_eqb_eq l (fun k => k <? n) x). Qed.

Lemma sane_reorg m n : sane m -> sane (reorg H m n).
Proof.
  intros S0. rewrite reorg_unfold. constructor; cbn; unfold deref; cbn.
  - apply (nodup_filter (fun k => k <? n)), S0.
  - intros k i. rewrite hget_below. destruct (k <? n); [|discriminate]. apply (s_height m S0).
  - intros d i. rewrite dropped_hash. destruct (existsb _ _); [discriminate|]. apply (s_hash m S0).
  - intros d i. rewrite dropped_root. destruct (existsb _ _); [discriminate|]. apply (s_root m S0).
  - intros d i. rewrite dropped_txid. destruct (existsb _ _); [discriminate|]. apply (s_txid m S0).
  - discriminate.
  - apply (s_prev m S0).
  - apply (s_valid m S0).
  - apply (s_txs m S0).
Qed.

Lemma add_length m n h : length (m_heap (add_header H m n h)) = Datatypes.S (length (m_heap m)).
Proof.
  unfold add_header. cbn. destruct (hget (m_by_height m) (n + 1)); [unfold set_prev; rewrite update_length|]; rewrite app_length; cbn; lia.
Qed.
Definition next_is (m : db) (n : N) (j : nat) : bool := match hget (m_by_height m) (n + 1) with Some k => (k =? j)%nat | None => false end.
Definition new_entry (m : db) (n : N) (h : header) : entry :=
  mkentry n h [] (if 0 <? n then hget (m_by_height m) (n - 1) else None).
Lemma add_deref m n h j : sane m -> deref (add_header H m n h) j =
  if (j <? length (m_heap m))%nat
  then if next_is m n j then mkentry (e_height (deref m j)) (e_header (deref m j)) (e_paths (deref m j)) (Some (length (m_heap m))) else deref m j
  else if (j =? length (m_heap m))%nat then new_entry m n h else no_entry.
Proof.
  intros S0. unfold deref, next_is, add_header. cbn [m_heap]. destruct (hget (m_by_height m) (n + 1)) as [k|] eqn:E.
  - pose proof (proj1 (s_height m S0 _ _ E)) as K. unfold set_prev. rewrite nth_update by (rewrite app_length; cbn; lia).
    rewrite nth_snoc. destruct (k =? j)%nat eqn:Q.
    + replace (j <? length (m_heap m))%nat with true by lia. reflexivity.
    + destruct (j <? length (m_heap m))%nat; reflexivity.
  - rewrite nth_snoc. reflexivity.
Qed.
Lemma add_old m n h j : sane m -> (j < length (m_heap m))%nat ->
  e_height (deref (add_header H m n h) j) = e_height (deref m j) /\ e_header (deref (add_header H m n h) j) = e_header (deref m j) /\
  e_paths (deref (add_header H m n h) j) = e_paths (deref m j) /\
  e_prev (deref (add_header H m n h) j) = if next_is m n j then Some (length (m_heap m)) else e_prev (deref m j).
Proof.
  intros S0 L. rewrite add_deref by exact S0. replace (j <? length (m_heap m))%nat with true by lia.
  destruct (next_is m n j); cbn; auto.
Qed.
Lemma add_new m n h : sane m -> deref (add_header H m n h) (length (m_heap m)) = new_entry m n h.
Proof.
  intros S0. rewrite add_deref by exact S0. replace (length (m_heap m) <? length (m_heap m))%nat with false by lia.
  replace (length (m_heap m) =? length (m_heap m))%nat with true by lia. reflexivity.
Qed.

Lemma sane_add m n h : sane m -> header_valid H h = true -> sane (add_header H m n h).
Proof.
  intros S0 V. pose proof (add_new m n h S0) as NEW. pose proof (fun j => add_old m n h j S0) as OLD. pose proof (add_length m n h) as LEN.
  constructor.
  - apply nodup_put, S0.
  - intros k i. change (m_by_height (add_header H m n h)) with (put N.eqb (m_by_height m) n (length (m_heap m))). rewrite hget_put.
    destruct (k =? n) eqn:E.
    + intros Q. assert (length (m_heap m) = i) as <- by congruence. rewrite NEW, LEN. cbn. lia.
    + intros Q. destruct (s_height m S0 k i Q) as [A B]. rewrite LEN, (proj1 (OLD i A)). split; [lia|exact B].
  - intros d i. change (m_by_hash (add_header H m n h)) with (put bytes_eqb (m_by_hash m) (hash h) (length (m_heap m))). rewrite dget_put.
    destruct (bytes_eqb d (hash h)) eqn:E.
    + intros Q. assert (length (m_heap m) = i) as <- by congruence. rewrite NEW, LEN. cbn. apply bytes_eqb_eq in E. split; [lia|congruence].
    + intros Q. destruct (s_hash m S0 d i Q) as [A B]. rewrite LEN, (proj1 (proj2 (OLD i A))). split; [lia|exact B].
  - intros d i. change (m_by_root (add_header H m n h)) with (put bytes_eqb (m_by_root m) (h_merkle_root h) (length (m_heap m))). rewrite dget_put.
    destruct (bytes_eqb d (h_merkle_root h)) eqn:E.
    + intros Q. assert (length (m_heap m) = i) as <- by congruence. rewrite NEW, LEN. cbn. apply bytes_eqb_eq in E. split; [lia|congruence].
    + intros Q. destruct (s_root m S0 d i Q) as [A B]. rewrite LEN, (proj1 (proj2 (OLD i A))). split; [lia|exact B].
  - intros d i Q. rewrite LEN. pose proof (s_txid m S0 d i Q). lia.
  - intros i Q. rewrite LEN. cbn in Q. assert (i = length (m_heap m) \/ m_latest m = Some i) as [->|E].
    { destruct (m_latest m) as [l|]; [destruct ((n =? 0) || _)|]; try (left; congruence). right. exact Q. }
    { lia. }
    { pose proof (s_latest m S0 i E). lia. }
  - intros i j L Q. rewrite LEN in *. destruct (Nat.eq_dec i (length (m_heap m))) as [->|NE].
    + rewrite NEW in Q. cbn in Q. destruct (0 <? n); [|discriminate]. pose proof (proj1 (s_height m S0 _ _ Q)). lia.
    + assert (A : (i < length (m_heap m))%nat) by lia. rewrite (proj2 (proj2 (proj2 (OLD i A)))) in Q. destruct (next_is m n i).
      * assert (length (m_heap m) = j) by congruence. lia.
      * pose proof (s_prev m S0 i j A Q). lia.
  - intros i L. rewrite LEN in *. destruct (Nat.eq_dec i (length (m_heap m))) as [->|NE].
    + rewrite NEW. exact V.
    + assert (A : (i < length (m_heap m))%nat) by lia. rewrite (proj1 (proj2 (OLD i A))). apply (s_valid m S0). exact A.
  - apply (s_txs m S0).
Qed.

Lemma sane_insert_header m n h : sane m -> sane (fst (insert_header H m n h)).
Proof.
  intros S0. unfold insert_header. destruct (header_valid H h) eqn:V; [|exact S0]. cbn [negb].
  destruct (hget (m_by_height m) n) as [i|]; [destruct (header_eqb _ _)|]; cbn; [exact S0| |]; apply sane_add; auto using sane_reorg.
Qed.

Lemma sane_remove_latest m l : sane m -> m_latest m = Some l -> sane (remove_latest H m l).
Proof.
  intros S0 L. constructor; cbn; unfold deref; cbn.
  - apply nodup_del, S0.
  - intros n i. rewrite hget_del. destruct (_ =? _); [discriminate|]. apply (s_height m S0).
  - intros d i. rewrite dget_del. destruct (bytes_eqb _ _); [discriminate|]. apply (s_hash m S0).
  - intros d i. rewrite dget_del. destruct (bytes_eqb _ _); [discriminate|]. apply (s_root m S0).
  - apply (s_txid m S0).
  - intros i. apply (s_prev m S0). apply (s_latest m S0). exact L.
  - apply (s_prev m S0).
  - apply (s_valid m S0).
  - apply (s_txs m S0).
Qed.

(* changing the paths of an entry *)
Lemma set_paths_deref m i ps j : (i < length (m_heap m))%nat ->
  deref (set_paths m i ps) j = if (i =? j)%nat then mkentry (e_height (deref m j)) (e_header (deref m j)) ps (e_prev (deref m j)) else deref m j.
Proof. intros L. unfold deref, set_paths, with_heap. cbn. rewrite nth_update by exact L. reflexivity. Qed.
Lemma set_paths_same m i ps j : (i < length (m_heap m))%nat ->
  e_height (deref (set_paths m i ps) j) = e_height (deref m j) /\ e_header (deref (set_paths m i ps) j) = e_header (deref m j) /\
  e_prev (deref (set_paths m i ps) j) = e_prev (deref m j).
Proof. intros L. rewrite set_paths_deref by exact L. destruct (i =? j)%nat; cbn; auto. Qed.
Lemma set_paths_length m i ps : length (m_heap (set_paths m i ps)) = length (m_heap m).
Proof. unfold set_paths, with_heap. cbn. apply update_length. Qed.
Lemma sane_set_paths m i ps : sane m -> (i < length (m_heap m))%nat -> sane (set_paths m i ps).
Proof.
  intros S0 L. pose proof (fun j => set_paths_same m i ps j L) as SAME. pose proof (set_paths_length m i ps) as LEN. constructor.
  - apply (s_nodup m S0).
  - intros n j Q. rewrite LEN, (proj1 (SAME j)). apply (s_height m S0 _ _ Q).
  - intros n j Q. rewrite LEN, (proj1 (proj2 (SAME j))). apply (s_hash m S0 _ _ Q).
  - intros n j Q. rewrite LEN, (proj1 (proj2 (SAME j))). apply (s_root m S0 _ _ Q).
  - intros n j Q. rewrite LEN. apply (s_txid m S0 _ _ Q).
  - intros n Q. rewrite LEN. apply (s_latest m S0 _ Q).
  - intros j k. rewrite LEN, (proj2 (proj2 (SAME j))). apply (s_prev m S0).
  - intros j. rewrite LEN, (proj1 (proj2 (SAME j))). apply (s_valid m S0).
  - apply (s_txs m S0).
Qed.

(* confirming *)
Definition confirmed_all (i : nat) (m : db) (ks : list bytes) : db := fold_left (confirm i) ks m.
Lemma confirmed_all_same i : forall ks m, m_heap (confirmed_all i m ks) = m_heap m /\ m_latest (confirmed_all i m ks) = m_latest m /\
  m_by_height (confirmed_all i m ks) = m_by_height m /\ m_by_hash (confirmed_all i m ks) = m_by_hash m /\
  m_by_root (confirmed_all i m ks) = m_by_root m /\ m_txs (confirmed_all i m ks) = m_txs m.
Proof. induction ks as [|k r IH]; intros m; [repeat split; reflexivity|]. cbn. destruct (IH (confirm i m k)) as (A & B & C & D & E & F). cbn in *. repeat split; assumption. Qed.
Lemma confirmed_all_txid i : forall ks m d, dget (m_by_txid (confirmed_all i m ks)) d = if digest_in d ks then Some i else dget (m_by_txid m) d.
Proof.
  induction ks as [|k r IH]; intros m d; [reflexivity|]. cbn [confirmed_all fold_left]. fold (confirmed_all i (confirm i m k) r). rewrite IH.
  unfold digest_in. cbn [existsb]. fold (digest_in d r). unfold confirm. cbn [m_by_txid]. rewrite dget_put.
  destruct (bytes_eqb d k), (digest_in d r); reflexivity.
Qed.
Lemma confirmed_all_pending i : forall ks m d, In d (m_pending (confirmed_all i m ks)) <->
  In d (m_pending m) /\ ~ (In d ks /\ dget (m_txs m) d <> None).
Proof.
  induction ks as [|k r IH]; intros m d; [cbn; tauto|]. cbn [confirmed_all fold_left]. fold (confirmed_all i (confirm i m k) r). rewrite IH.
  cbn [confirm m_pending m_txs]. destruct (dget (m_txs m) k) as [t|] eqn:E.
  - rewrite set_del_In. cbn [In]. split.
    + intros [[A B] C]. split; [exact A|]. intros [[<-|D] F]; [apply B; reflexivity|apply C; auto].
    + intros [A B]. split; [split; [exact A|]|].
      * intros ->. apply B. split; [auto|]. congruence.
      * intros [C D]. apply B. auto.
  - cbn [In]. split.
    + intros [A B]. split; [exact A|]. intros [[<-|D] F]; [congruence|apply B; auto].
    + intros [A B]. split; [exact A|]. intros [C D]. apply B. auto.
Qed.
Lemma sane_confirmed_all i m ks : sane m -> (i < length (m_heap m))%nat -> sane (confirmed_all i m ks).
Proof.
  intros S0 L. destruct (confirmed_all_same i ks m) as (A & B & C & D & E & F).
  assert (DE : forall j, deref (confirmed_all i m ks) j = deref m j) by (intros j; unfold deref; rewrite A; reflexivity).
  constructor; try (intros *; rewrite ?DE, ?A, ?B, ?C, ?D, ?E, ?F; apply S0).
  intros d j. rewrite A, confirmed_all_txid. destruct (digest_in d ks).
  - intros Q. assert (i = j) as <- by congruence. exact L.
  - apply (s_txid m S0).
Qed.
Lemma sane_with_txs m t p : sane m -> (forall k x, dget t k = Some x -> tx_id H x = k) -> sane (with_txs m t p).
Proof. intros S0 T. constructor; try apply S0. exact T. Qed.

Section Steps.
Variable ins : branch -> list branch -> list branch.
Variable ord : list branch -> list branch.
Variable dup : option (path -> path -> path).
Variable fuel : nat.
Notation apply := (apply H ins ord dup fuel).
Notation history := (history H ins ord dup fuel).

Lemma txs_put_ok m t : sane m -> forall k x, dget (put bytes_eqb (m_txs m) (tx_id H t) t) k = Some x -> tx_id H x = k.
Proof.
  intros S0 k x. rewrite dget_put. destruct (bytes_eqb k (tx_id H t)) eqn:E.
  - apply bytes_eqb_eq in E. congruence.
  - apply (s_txs m S0).
Qed.
Lemma insert_dual_inv m d r : insert_dual H ins ord dup fuel m d = Done r ->
  r = (m, false) \/
  exists i q, dual_valid H ins fuel d = Done true /\ dget (m_by_root m) (d_root d) = Some i /\
    dual_plus H ins ord dup fuel (entry_dual (deref m i)) d = Done q /\
    r = (confirmed_all i (set_paths m i (d_paths q)) (map fst (d_paths d)), true).
Proof.
  unfold insert_dual. destruct (dual_valid H ins fuel d) as [[|]| |]; try discriminate; [|intros E; left; congruence].
  destruct (dget (m_by_root m) (d_root d)) as [i|]; [|intros E; left; congruence].
  destruct (dual_plus H ins ord dup fuel (entry_dual (deref m i)) d) as [q| |] eqn:P; try discriminate.
  intros E. right. exists i, q. repeat split; try assumption. unfold confirmed_all. congruence.
Qed.
Lemma insert_tx_path_inv m t p r : insert_tx_path H ins ord dup fuel m t p = Done r ->
  r = (m, false) \/
  exists i q, dget (m_txs m) (tx_id H t) = None /\ dget (m_by_root m) (derive_root H p (tx_id H t)) = Some i /\
    dual_plus H ins ord dup fuel (entry_dual (deref m i)) (mkdual [(tx_id H t, p)] (derive_root H p (tx_id H t))) = Done q /\
    r = (with_txs (set_paths m i (d_paths q)) (put bytes_eqb (m_txs m) (tx_id H t) t) (m_pending m), true).
Proof.
  unfold insert_tx_path. destruct (dget (m_txs m) (tx_id H t)) as [x|]; [intros E; left; congruence|].
  destruct (dget (m_by_root m) _) as [i|]; [|intros E; left; congruence].
  destruct (dual_plus H ins ord dup fuel (entry_dual (deref m i)) _) as [q| |] eqn:P; try discriminate.
  intros E. right. exists i, q. repeat split; try assumption. cbn in E. congruence.
Qed.
Lemma remove_height_inv m n x : remove_height H m n = Some x ->
  exists l, m_latest m = Some l /\ (x = m \/ e_height (deref m l) = n /\ x = remove_latest H m l).
Proof.
  unfold remove_height. destruct (m_latest m) as [l|]; [|discriminate]. intros E. exists l. split; [reflexivity|].
  destruct (e_height (deref m l) =? n) eqn:Q; [right; split; [lia|congruence]|left; congruence].
Qed.
Lemma remove_hash_inv m d x : remove_hash H m d = Some x ->
  exists l, m_latest m = Some l /\ (x = m \/ hash (e_header (deref m l)) = d /\ x = remove_latest H m l).
Proof.
  unfold remove_hash. destruct (m_latest m) as [l|]; [|discriminate]. intros E. exists l. split; [reflexivity|].
  destruct (bytes_eqb _ _) eqn:Q; [right; apply bytes_eqb_eq in Q; split; [exact Q|congruence]|left; congruence].
Qed.

Lemma sane_apply m o x : sane m -> apply m o = Done x -> sane x.
Proof.
  intros S0. destruct o as [n h|t|d|t p|id|n|d]; cbn [SpvModel.apply]; intros E.
  - assert (x = fst (insert_header H m n h)) as -> by congruence. apply sane_insert_header, S0.
  - assert (x = insert_tx H m t) as -> by congruence. unfold insert_tx. destruct (dget (m_txs m) (tx_id H t)); [exact S0|].
    apply sane_with_txs; [exact S0|]. apply txs_put_ok, S0.
  - destruct (insert_dual H ins ord dup fuel m d) as [[y b]| |] eqn:Q; try discriminate.
    assert (x = y) as -> by congruence. destruct (insert_dual_inv _ _ _ Q) as [F|(i & q & A & B & C & F)].
    + assert (y = m) as -> by congruence. exact S0.
    + assert (y = confirmed_all i (set_paths m i (d_paths q)) (map fst (d_paths d))) as -> by congruence.
      pose proof (proj1 (s_root m S0 _ _ B)) as L. apply sane_confirmed_all; [apply sane_set_paths; assumption|]. rewrite set_paths_length. exact L.
  - destruct (insert_tx_path H ins ord dup fuel m t p) as [[y b]| |] eqn:Q; try discriminate.
    assert (x = y) as -> by congruence. destruct (insert_tx_path_inv _ _ _ _ Q) as [F|(i & q & A & B & C & F)].
    + assert (y = m) as -> by congruence. exact S0.
    + pose proof (proj1 (s_root m S0 _ _ B)) as L. assert (y = with_txs (set_paths m i (d_paths q)) (put bytes_eqb (m_txs m) (tx_id H t) t) (m_pending m)) as -> by congruence.
      apply sane_with_txs; [apply sane_set_paths; assumption|]. apply txs_put_ok, S0.
  - assert (x = remove_tx m id) as -> by congruence. unfold remove_tx. destruct (digest_in id (m_pending m)); [|exact S0].
    apply sane_with_txs; [exact S0|]. intros k t. rewrite dget_del. destruct (bytes_eqb id k); [discriminate|]. apply (s_txs m S0).
  - destruct (remove_height H m n) as [y|] eqn:Q; [|discriminate]. assert (x = y) as -> by congruence.
    destruct (remove_height_inv _ _ _ Q) as (l & L & [->|[_ ->]]); [exact S0|]. apply sane_remove_latest; assumption.
  - destruct (remove_hash H m d) as [y|] eqn:Q; [|discriminate]. assert (x = y) as -> by congruence.
    destruct (remove_hash_inv _ _ _ Q) as (l & L & [->|[_ ->]]); [exact S0|]. apply sane_remove_latest; assumption.
Qed.
Lemma preserved (I0 : db -> Prop) (P : db -> op -> Prop) :
  (forall m o x, I0 m -> P m o -> apply m o = Done x -> I0 x) ->
  forall l m x, I0 m -> throughout H ins ord dup fuel P m l -> history m l = Done x -> I0 x.
Proof.
  intros ST. induction l as [|o r IH]; intros m x IM T E; cbn in *.
  - congruence.
  - destruct T as [T1 T2]. destruct (apply m o) as [y| |] eqn:Q; try discriminate. apply (IH y x); [|exact T2|exact E]. apply (ST m o y); assumption.
Qed.
Lemma throughout_true m l : throughout H ins ord dup fuel (fun _ _ => True) m l.
Proof. revert m. induction l as [|o r IH]; intros m; cbn; [exact I|]. split; [exact I|]. destruct (apply m o); auto. Qed.
Lemma sane_history l m x : sane m -> history m l = Done x -> sane x.
Proof.
  intros S0. apply (preserved sane (fun _ _ => True)); [|exact S0|apply throughout_true]. intros a o y A _. apply sane_apply, A.
Qed.
End Steps.
Lemma sane_new h : sane (new_db H h).
Proof. apply sane_insert_header, sane_empty. Qed.
End Inv.
