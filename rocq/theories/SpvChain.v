(* The headers of the SPV database: look-ups and the latest header. *)
From Coq Require Import Lia ZifyBool ZifyNat ZifyN.
From Verif Require Import Base BaseProofs WireModel MerkleModel MerkleSpec WorkModel BeefModel BeefProofs SpvModel SpvSpec SpvProofs.
Local Open Scope N_scope.

Section Chain.
Variable H : bytes -> bytes.
Notation hash := (header_hash H).
Notation sane := (sane H).

Record semi (m : db) : Prop := {
  l_hash : forall d i, dget (m_by_hash m) d = Some i -> hget (m_by_height m) (e_height (deref m i)) = Some i;
  l_root : forall d i, dget (m_by_root m) d = Some i -> hget (m_by_height m) (e_height (deref m i)) = Some i;
  l_prev : forall n i, hget (m_by_height m) n = Some i -> e_prev (deref m i) = if 0 <? n then hget (m_by_height m) (n - 1) else None;
  l_top : forall l, m_latest m = Some l -> hget (m_by_height m) (e_height (deref m l)) = Some l /\
            forall n i, hget (m_by_height m) n = Some i -> n <= e_height (deref m l) }.
Record linked (m : db) : Prop := {
  k_semi : semi m;
  k_zero : hget (m_by_height m) 0 <> None;
  k_latest : m_latest m <> None }.

Lemma semi_reorg m n : sane m -> semi m -> semi (reorg H m n).
Proof.
  intros S0 M. rewrite reorg_unfold. constructor; cbn [m_by_hash m_by_root m_by_height m_latest m_heap]; unfold deref; cbn [m_heap].
  - intros d i. rewrite dropped_hash. destruct (existsb _ _) eqn:X; [discriminate|]. intros Q. rewrite hget_below.
    pose proof (l_hash m M d i Q) as A. fold (deref m i). destruct (e_height (deref m i) <? n) eqn:LT; [exact A|]. exfalso.
    apply Bool.not_true_iff_false in X. apply X. apply existsb_exists. exists i. split.
    + apply doomed_iff; [apply S0|]. exists (e_height (deref m i)). split; [lia|exact A].
    + apply bytes_eqb_eq. apply (s_hash H m S0 _ _ Q).
  - intros d i. rewrite dropped_root. destruct (existsb _ _) eqn:X; [discriminate|]. intros Q. rewrite hget_below.
    pose proof (l_root m M d i Q) as A. fold (deref m i). destruct (e_height (deref m i) <? n) eqn:LT; [exact A|]. exfalso.
    apply Bool.not_true_iff_false in X. apply X. apply existsb_exists. exists i. split.
    + apply doomed_iff; [apply S0|]. exists (e_height (deref m i)). split; [lia|exact A].
    + apply bytes_eqb_eq. apply (s_root H m S0 _ _ Q).
  - intros k i. rewrite !hget_below. destruct (k <? n) eqn:LT; [|discriminate]. intros Q. fold (deref m i). rewrite (l_prev m M k i Q).
    destruct (0 <? k) eqn:P; [|reflexivity]. replace (k - 1 <? n) with true by lia. reflexivity.
  - discriminate.
Qed.

Lemma semi_add m n h : sane m -> semi m -> hget (m_by_height m) n = None -> (n = 0 -> m_latest m = None) ->
  (m_latest m = None -> forall k i, hget (m_by_height m) k = Some i -> k < n) -> semi (add_header H m n h).
Proof.
  intros S0 M FREE Z TOP. pose proof (add_new H m n h S0) as NEW. pose proof (fun j => add_old H m n h j S0) as OLD.
  assert (BH : forall k, hget (m_by_height (add_header H m n h)) k = if k =? n then Some (length (m_heap m)) else hget (m_by_height m) k).
  { intros k. change (m_by_height (add_header H m n h)) with (put N.eqb (m_by_height m) n (length (m_heap m))). apply hget_put. }
  assert (KEEP : forall i, hget (m_by_height m) (e_height (deref m i)) = Some i ->
            hget (m_by_height (add_header H m n h)) (e_height (deref (add_header H m n h) i)) = Some i).
  { intros i Q. rewrite BH, (proj1 (OLD i (proj1 (s_height H m S0 _ _ Q)))). destruct (e_height (deref m i) =? n) eqn:E; [|exact Q].
    replace (e_height (deref m i)) with n in Q by lia. congruence. }
  assert (SELF : hget (m_by_height (add_header H m n h)) (e_height (deref (add_header H m n h) (length (m_heap m)))) = Some (length (m_heap m))).
  { rewrite NEW, BH. cbn. rewrite N.eqb_refl. reflexivity. }
  constructor.
  - intros d i. change (m_by_hash (add_header H m n h)) with (put bytes_eqb (m_by_hash m) (hash h) (length (m_heap m))). rewrite dget_put.
    destruct (bytes_eqb d (hash h)).
    + intros Q. assert (length (m_heap m) = i) as <- by congruence. exact SELF.
    + intros Q. apply KEEP, (l_hash m M _ _ Q).
  - intros d i. change (m_by_root (add_header H m n h)) with (put bytes_eqb (m_by_root m) (h_merkle_root h) (length (m_heap m))). rewrite dget_put.
    destruct (bytes_eqb d (h_merkle_root h)).
    + intros Q. assert (length (m_heap m) = i) as <- by congruence. exact SELF.
    + intros Q. apply KEEP, (l_root m M _ _ Q).
  - intros k i. rewrite !BH. destruct (k =? n) eqn:E.
    + intros Q. assert (length (m_heap m) = i) as <- by congruence. rewrite NEW. cbn. replace k with n by lia.
      destruct (0 <? n) eqn:P; [|reflexivity]. replace (n - 1 =? n) with false by lia. reflexivity.
    + intros Q. destruct (s_height H m S0 _ _ Q) as [L HT]. rewrite (proj2 (proj2 (proj2 (OLD i L)))), (l_prev m M _ _ Q). unfold next_is.
      destruct (k - 1 =? n) eqn:E1; [destruct (0 <? k) eqn:P; [|exfalso]|].
      * replace (n + 1) with k by lia. rewrite Q. rewrite Nat.eqb_refl. reflexivity.
      * assert (k = 0) by lia. subst k. assert (n = 0) by lia. lia.
      * destruct (hget (m_by_height m) (n + 1)) as [j|] eqn:J; [|reflexivity]. destruct (j =? i)%nat eqn:JI; [|reflexivity]. exfalso.
        assert (j = i) as -> by lia. pose proof (proj2 (s_height H m S0 _ _ J)). lia.
  - intros l Q. change (m_latest (add_header H m n h)) with
      (if match m_latest m with None => true | Some l => (n =? 0) || (e_height (deref m l) <? n) end then Some (length (m_heap m)) else m_latest m) in Q.
    destruct (m_latest m) as [l0|] eqn:L0.
    + destruct (l_top m M l0 L0) as [A B]. pose proof (s_latest H m S0 _ L0) as L. destruct ((n =? 0) || _) eqn:C.
      * assert (length (m_heap m) = l) as <- by congruence. split; [exact SELF|]. intros k i. rewrite BH, NEW. cbn. destruct (k =? n) eqn:E; [lia|].
        intros Q2. pose proof (B k i Q2). assert (n <> 0) by (intros ->; specialize (Z eq_refl); discriminate). lia.
      * assert (l0 = l) as <- by congruence. split; [apply KEEP, A|]. intros k i. rewrite BH, (proj1 (OLD l0 L)). destruct (k =? n) eqn:E; [lia|]. apply B.
    + assert (length (m_heap m) = l) as <- by congruence. split; [exact SELF|]. intros k i. rewrite BH, NEW. cbn. destruct (k =? n) eqn:E; [lia|].
      intros Q2. pose proof (TOP eq_refl k i Q2). lia.
Qed.

Lemma add_latest m n h : m_latest (add_header H m n h) <> None.
Proof. unfold add_header. cbn. destruct (m_latest m) as [l|]; [destruct ((n =? 0) || _)|]; discriminate. Qed.
Lemma add_zero m n h : n = 0 \/ hget (m_by_height m) 0 <> None -> hget (m_by_height (add_header H m n h)) 0 <> None.
Proof.
  intros Q. change (m_by_height (add_header H m n h)) with (put N.eqb (m_by_height m) n (length (m_heap m))). rewrite hget_put.
  destruct (0 =? n) eqn:E; [discriminate|]. destruct Q as [->|Q]; [discriminate|exact Q].
Qed.

Lemma linked_insert_header m n h : sane m -> linked m -> linked (fst (insert_header H m n h)).
Proof.
  intros S0 [M Z L]. unfold insert_header. destruct (header_valid H h) eqn:V; cbn [negb]; [|constructor; assumption].
  destruct (hget (m_by_height m) n) as [i|] eqn:G; [destruct (header_eqb _ _)|]; cbn [fst].
  - constructor; assumption.
  - constructor; [|apply add_zero|apply add_latest].
    + apply semi_add; [apply sane_reorg, S0|apply semi_reorg; assumption| | |]; rewrite reorg_unfold; cbn [m_by_height m_latest].
      * rewrite hget_below, N.ltb_irrefl. reflexivity.
      * reflexivity.
      * intros _ k j. rewrite hget_below. destruct (k <? n) eqn:E; [lia|discriminate].
    + destruct (n =? 0) eqn:E; [left; lia|right]. rewrite reorg_unfold. cbn [m_by_height]. rewrite hget_below. replace (0 <? n) with true by lia. exact Z.
  - constructor; [|apply add_zero; auto|apply add_latest]. apply semi_add; try assumption.
    + intros ->. contradiction.
    + intros Q. contradiction.
Qed.

Lemma linked_remove_latest m l j : sane m -> linked m -> m_latest m = Some l ->
  0 < e_height (deref m l) -> hget (m_by_height m) (e_height (deref m l) - 1) = Some j -> linked (remove_latest H m l).
Proof.
  intros S0 [M Z L] ML P J. destruct (l_top m M l ML) as [A B].
  assert (PV : e_prev (deref m l) = Some j). { rewrite (l_prev m M _ _ A). replace (0 <? e_height (deref m l)) with true by lia. exact J. }
  assert (DE : forall i, deref (remove_latest H m l) i = deref m i) by reflexivity.
  constructor; [constructor|..].
  - intros d i. cbn [remove_latest m_by_hash m_by_height]. rewrite DE, dget_del, hget_del. destruct (bytes_eqb _ _) eqn:E; [discriminate|]. intros Q.
    pose proof (l_hash m M _ _ Q) as R. destruct (_ =? _) eqn:E2; [|exact R]. exfalso.
    assert (e_height (deref m l) = e_height (deref m i)) as F by lia. rewrite <- F, A in R. assert (l = i) as <- by congruence.
    rewrite (proj2 (s_hash H m S0 _ _ Q)) in E. rewrite (proj2 (bytes_eqb_eq d d) eq_refl) in E. discriminate.
  - intros d i. cbn [remove_latest m_by_root m_by_height]. rewrite DE, dget_del, hget_del. destruct (bytes_eqb _ _) eqn:E; [discriminate|]. intros Q.
    pose proof (l_root m M _ _ Q) as R. destruct (_ =? _) eqn:E2; [|exact R]. exfalso.
    assert (e_height (deref m l) = e_height (deref m i)) as F by lia. rewrite <- F, A in R. assert (l = i) as <- by congruence.
    rewrite (proj2 (s_root H m S0 _ _ Q)) in E. rewrite (proj2 (bytes_eqb_eq d d) eq_refl) in E. discriminate.
  - intros n i. cbn [remove_latest m_by_height]. rewrite DE, !hget_del. destruct (e_height (deref m l) =? n) eqn:E; [discriminate|]. intros Q.
    rewrite (l_prev m M _ _ Q). destruct (0 <? n) eqn:E2; [|reflexivity]. destruct (e_height (deref m l) =? n - 1) eqn:E3; [|reflexivity].
    exfalso. pose proof (B _ _ Q). lia.
  - intros l' Q. cbn [remove_latest m_latest] in Q. assert (j = l') as <- by congruence. rewrite DE. cbn [remove_latest m_by_height].
    pose proof (proj2 (s_height H m S0 _ _ J)) as HJ. rewrite HJ. rewrite hget_del. split.
    + replace (_ =? _) with false by lia. exact J.
    + intros n i. rewrite hget_del. destruct (_ =? n) eqn:E; [discriminate|]. intros R. pose proof (B _ _ R). lia.
  - cbn [remove_latest m_by_height]. rewrite hget_del. replace (_ =? 0) with false by lia. exact Z.
  - cbn [remove_latest m_latest]. congruence.
Qed.

(* the parts of the state that the header operations own *)
Lemma linked_same m x : m_by_height x = m_by_height m -> m_by_hash x = m_by_hash m -> m_by_root x = m_by_root m -> m_latest x = m_latest m ->
  (forall i, e_height (deref x i) = e_height (deref m i) /\ e_prev (deref x i) = e_prev (deref m i)) -> linked m -> linked x.
Proof.
  intros A B C D E [M Z L]. constructor; [constructor|..].
  - intros d i. rewrite A, B, (proj1 (E i)). apply M.
  - intros d i. rewrite A, C, (proj1 (E i)). apply M.
  - intros n i. rewrite A, (proj2 (E i)). apply M.
  - intros l. rewrite D. intros Q. rewrite A, (proj1 (E l)). apply (l_top m M l Q).
  - rewrite A. exact Z.
  - rewrite D. exact L.
Qed.

Section Steps.
Variable ins : branch -> list branch -> list branch.
Variable ord : list branch -> list branch.
Variable dup : option (path -> path -> path).
Variable fuel : nat.
Notation apply := (apply H ins ord dup fuel).
Notation history := (history H ins ord dup fuel).

Lemma header_at_iff m n k h : sane m -> (header_at m n = Some (k, h) <-> k = n /\ exists i, hget (m_by_height m) n = Some i /\ e_header (deref m i) = h).
Proof.
  intros S0. unfold header_at. destruct (hget (m_by_height m) n) as [i|] eqn:E; cbn.
  - rewrite (proj2 (s_height H m S0 _ _ E)). split.
    + intros Q. split; [congruence|]. exists i. split; [reflexivity|congruence].
    + intros [-> (j & Q & <-)]. congruence.
  - split; [discriminate|]. intros [_ (i & Q & _)]. discriminate.
Qed.

(* operations other than those on headers leave the headers alone *)
Lemma other_same m o x : sane m -> apply m o = Done x -> match o with InsertHeader _ _ | RemoveHeight _ | RemoveHash _ => False | _ => True end ->
  m_by_height x = m_by_height m /\ m_by_hash x = m_by_hash m /\ m_by_root x = m_by_root m /\ m_latest x = m_latest m /\
  (forall i, e_height (deref x i) = e_height (deref m i) /\ e_prev (deref x i) = e_prev (deref m i) /\ e_header (deref x i) = e_header (deref m i)).
Proof.
  intros S0. destruct o as [n h|t|d|t p|id|n|d]; intros E F; try contradiction; cbn [SpvModel.apply] in E.
  - assert (x = insert_tx H m t) as -> by congruence. unfold insert_tx. destruct (dget (m_txs m) (tx_id H t)); repeat split; reflexivity.
  - destruct (insert_dual H ins ord dup fuel m d) as [[y b]| |] eqn:Q; try discriminate.
    assert (x = y) as -> by congruence. destruct (insert_dual_inv _ _ _ _ _ _ _ _ Q) as [F2|(i & q & A & B & C & F2)].
    + assert (y = m) as -> by congruence. repeat split; reflexivity.
    + assert (y = confirmed_all i (set_paths m i (d_paths q)) (map fst (d_paths d))) as -> by congruence.
      pose proof (proj1 (s_root H m S0 _ _ B)) as L.
      destruct (confirmed_all_same i (map fst (d_paths d)) (set_paths m i (d_paths q))) as (A1 & A2 & A3 & A4 & A5 & A6).
      rewrite A2, A3, A4, A5. split; [reflexivity|]. split; [reflexivity|]. split; [reflexivity|]. split; [reflexivity|]. intros j.
      unfold deref at 1 3 5. rewrite A1. fold (deref (set_paths m i (d_paths q)) j). destruct (set_paths_same m i (d_paths q) j L) as (X & Y & W). auto.
  - destruct (insert_tx_path H ins ord dup fuel m t p) as [[y b]| |] eqn:Q; try discriminate.
    assert (x = y) as -> by congruence. destruct (insert_tx_path_inv _ _ _ _ _ _ _ _ _ Q) as [F2|(i & q & A & B & C & F2)].
    + assert (y = m) as -> by congruence. repeat split; reflexivity.
    + pose proof (proj1 (s_root H m S0 _ _ B)) as L. assert (y = with_txs (set_paths m i (d_paths q)) (put bytes_eqb (m_txs m) (tx_id H t) t) (m_pending m)) as -> by congruence.
      split; [reflexivity|]. split; [reflexivity|]. split; [reflexivity|]. split; [reflexivity|]. intros j.
      change (deref (with_txs (set_paths m i (d_paths q)) (put bytes_eqb (m_txs m) (tx_id H t) t) (m_pending m)) j) with (deref (set_paths m i (d_paths q)) j).
      destruct (set_paths_same m i (d_paths q) j L) as (X & Y & W). auto.
  - assert (x = remove_tx m id) as -> by congruence. unfold remove_tx. destruct (digest_in id (m_pending m)); repeat split; reflexivity.
Qed.

Lemma latest_of m l : m_latest m = Some l -> latest m = Some (e_height (deref m l), e_header (deref m l)).
Proof. intros E. unfold latest. rewrite E. reflexivity. Qed.
Lemma linked_apply m o x : sane m -> linked m -> keeps_chain H m o -> apply m o = Done x -> linked x.
Proof.
  intros S0 M G. destruct o as [n h|t|d|t p|id|n|d]; intros E;
    try (destruct (other_same m _ x S0 E I) as (A1 & A2 & A3 & A4 & A5); apply (linked_same m); auto; intros i; destruct (A5 i) as (X & Y & W); auto).
  - cbn [SpvModel.apply] in E. assert (x = fst (insert_header H m n h)) as -> by congruence. apply linked_insert_header; assumption.
  - cbn [SpvModel.apply] in E. destruct (remove_height H m n) as [y|] eqn:Q; [|discriminate]. assert (x = y) as -> by congruence.
    destruct (remove_height_inv _ _ _ _ Q) as (l & L & [->|[HN ->]]); [exact M|]. pose proof (latest_of m l L) as LT.
    destruct G as (n' & h & h' & LT' & P & HA). { exists n, (e_header (deref m l)). split; [congruence|reflexivity]. }
    assert (n' = e_height (deref m l)) as -> by congruence. apply header_at_iff in HA as [_ (j & J & _)]; [|exact S0].
    apply (linked_remove_latest m l j); assumption.
  - cbn [SpvModel.apply] in E. destruct (remove_hash H m d) as [y|] eqn:Q; [|discriminate]. assert (x = y) as -> by congruence.
    destruct (remove_hash_inv _ _ _ _ Q) as (l & L & [->|[HN ->]]); [exact M|]. pose proof (latest_of m l L) as LT.
    destruct G as (n' & h & h' & LT' & P & HA). { exists (e_height (deref m l)), (e_header (deref m l)). split; [exact LT|congruence]. }
    assert (n' = e_height (deref m l)) as -> by congruence. apply header_at_iff in HA as [_ (j & J & _)]; [|exact S0].
    apply (linked_remove_latest m l j); assumption.
Qed.
Lemma linked_history l m x : sane m -> linked m -> throughout H ins ord dup fuel (keeps_chain H) m l -> history m l = Done x -> sane x /\ linked x.
Proof.
  intros S0 M T. apply (preserved H ins ord dup fuel (fun y => sane y /\ linked y) (keeps_chain H)); auto.
  intros a o y [A B] P E. split; [eapply sane_apply; eassumption|eapply linked_apply; eassumption].
Qed.
Lemma linked_new h : header_valid H h = true -> linked (new_db H h).
Proof.
  intros V. unfold new_db, insert_header. rewrite V. cbn [negb]. change (hget (m_by_height empty_db) 0) with (@None nat). cbn [fst].
  constructor; [|apply add_zero; auto|apply add_latest]. apply semi_add; try reflexivity.
  - apply sane_empty.
  - constructor; cbn; discriminate.
  - cbn. discriminate.
Qed.

(* ---------------------------------------------------------------- what look-ups say *)
Theorem header_at_sound h0 l m n k h : history (new_db H h0) l = Done m -> header_at m n = Some (k, h) -> k = n /\ header_valid H h = true.
Proof.
  intros E Q. pose proof (sane_history _ _ _ _ _ _ _ _ (sane_new H h0) E) as S0. apply header_at_iff in Q as [-> (i & G & <-)]; [|exact S0].
  split; [reflexivity|]. apply (s_valid H m S0). apply (s_height H m S0 _ _ G).
Qed.
Lemma header_by_linked m d n h : sane m -> linked m -> header_by m d = Some (n, h) ->
  header_at m n = Some (n, h) /\ (hash h = d \/ h_merkle_root h = d).
Proof.
  intros S0 [M _ _] Q. unfold header_by, by_digest in Q.
  destruct (dget (m_by_hash m) d) as [i|] eqn:E; [|destruct (dget (m_by_root m) d) as [i|] eqn:E2; [|discriminate]]; cbn in Q.
  - assert (e_height (deref m i) = n /\ e_header (deref m i) = h) as [<- <-] by (split; congruence). split.
    + apply header_at_iff; [exact S0|]. split; [reflexivity|]. exists i. split; [apply (l_hash m M _ _ E)|reflexivity].
    + left. apply (s_hash H m S0 _ _ E).
  - assert (e_height (deref m i) = n /\ e_header (deref m i) = h) as [<- <-] by (split; congruence). split.
    + apply header_at_iff; [exact S0|]. split; [reflexivity|]. exists i. split; [apply (l_root m M _ _ E2)|reflexivity].
    + right. apply (s_root H m S0 _ _ E2).
Qed.
Theorem header_by_sound h0 l m d n h : header_valid H h0 = true -> throughout H ins ord dup fuel (keeps_chain H) (new_db H h0) l ->
  history (new_db H h0) l = Done m -> header_by m d = Some (n, h) ->
  header_at m n = Some (n, h) /\ header_valid H h = true /\ (hash h = d \/ h_merkle_root h = d).
Proof.
  intros V T E Q. destruct (linked_history l _ _ (sane_new H h0) (linked_new h0 V) T E) as [S0 M].
  destruct (header_by_linked m d n h S0 M Q) as [A B]. split; [exact A|]. split; [apply (header_at_sound _ _ _ _ _ _ E A)|exact B].
Qed.
Theorem latest_is_top h0 l m : header_valid H h0 = true -> throughout H ins ord dup fuel (keeps_chain H) (new_db H h0) l ->
  history (new_db H h0) l = Done m ->
  exists n h, latest m = Some (n, h) /\ header_at m n = Some (n, h) /\ forall k h', header_at m k = Some (k, h') -> k <= n.
Proof.
  intros V T E. destruct (linked_history l _ _ (sane_new H h0) (linked_new h0 V) T E) as [S0 [M Z L]].
  destruct (m_latest m) as [i|] eqn:Q; [|contradiction]. exists (e_height (deref m i)), (e_header (deref m i)).
  split; [apply latest_of, Q|]. destruct (l_top m M i Q) as [A B]. split.
  - apply header_at_iff; [exact S0|]. eauto.
  - intros k h' HA. apply header_at_iff in HA as [_ (j & G & _)]; [|exact S0]. eapply B, G.
Qed.

(* ---------------------------------------------------------------- completeness *)
Record complete (m : db) : Prop := {
  f_hash : forall n i, hget (m_by_height m) n = Some i -> dget (m_by_hash m) (hash (e_header (deref m i))) = Some i;
  f_root : forall n i, hget (m_by_height m) n = Some i -> dget (m_by_root m) (h_merkle_root (e_header (deref m i))) = Some i }.
Lemma complete_reorg m n : sane m -> complete m -> complete (reorg H m n).
Proof.
  intros S0 C. rewrite reorg_unfold. constructor; cbn [m_by_hash m_by_root m_by_height m_heap]; unfold deref; cbn [m_heap]; intros k i;
    rewrite hget_below; (destruct (k <? n) eqn:LT; [|discriminate]); intros Q; fold (deref m i); [rewrite dropped_hash|rewrite dropped_root].
  - destruct (existsb _ _) eqn:X; [exfalso|apply (f_hash m C _ _ Q)]. apply existsb_exists in X as (j & J & B). apply doomed_iff in J as (q & LE & J); [|apply S0].
    apply bytes_eqb_eq in B. pose proof (f_hash m C _ _ J) as F1. rewrite B, (f_hash m C _ _ Q) in F1. assert (i = j) as <- by congruence.
    pose proof (proj2 (s_height H m S0 _ _ J)). pose proof (proj2 (s_height H m S0 _ _ Q)). lia.
  - destruct (existsb _ _) eqn:X; [exfalso|apply (f_root m C _ _ Q)]. apply existsb_exists in X as (j & J & B). apply doomed_iff in J as (q & LE & J); [|apply S0].
    apply bytes_eqb_eq in B. pose proof (f_root m C _ _ J) as F1. rewrite B, (f_root m C _ _ Q) in F1. assert (i = j) as <- by congruence.
    pose proof (proj2 (s_height H m S0 _ _ J)). pose proof (proj2 (s_height H m S0 _ _ Q)). lia.
Qed.
Lemma complete_add m n h : sane m -> complete m ->
  (forall k i, k <> n -> hget (m_by_height m) k = Some i -> hash (e_header (deref m i)) <> hash h /\ h_merkle_root (e_header (deref m i)) <> h_merkle_root h) ->
  complete (add_header H m n h).
Proof.
  intros S0 C FR. pose proof (add_new H m n h S0) as NEW. pose proof (fun j => add_old H m n h j S0) as OLD.
  constructor; intros k i; change (m_by_height (add_header H m n h)) with (put N.eqb (m_by_height m) n (length (m_heap m))); rewrite hget_put.
  - change (m_by_hash (add_header H m n h)) with (put bytes_eqb (m_by_hash m) (hash h) (length (m_heap m))). rewrite dget_put. destruct (k =? n) eqn:E.
    + intros Q. assert (length (m_heap m) = i) as <- by congruence. rewrite NEW. cbn [new_entry e_header]. rewrite (proj2 (bytes_eqb_eq _ _) eq_refl). reflexivity.
    + intros Q. pose proof (proj1 (s_height H m S0 _ _ Q)) as L. rewrite (proj1 (proj2 (OLD i L))). destruct (bytes_eqb _ _) eqn:B; [|apply (f_hash m C _ _ Q)].
      exfalso. apply bytes_eqb_eq in B. apply (proj1 (FR k i ltac:(lia) Q)). exact B.
  - change (m_by_root (add_header H m n h)) with (put bytes_eqb (m_by_root m) (h_merkle_root h) (length (m_heap m))). rewrite dget_put. destruct (k =? n) eqn:E.
    + intros Q. assert (length (m_heap m) = i) as <- by congruence. rewrite NEW. cbn [new_entry e_header]. rewrite (proj2 (bytes_eqb_eq _ _) eq_refl). reflexivity.
    + intros Q. pose proof (proj1 (s_height H m S0 _ _ Q)) as L. rewrite (proj1 (proj2 (OLD i L))). destruct (bytes_eqb _ _) eqn:B; [|apply (f_root m C _ _ Q)].
      exfalso. apply bytes_eqb_eq in B. apply (proj2 (FR k i ltac:(lia) Q)). exact B.
Qed.
Lemma complete_insert_header m n h : sane m -> complete m -> no_clash H m (InsertHeader n h) -> complete (fst (insert_header H m n h)).
Proof.
  intros S0 C FR. unfold insert_header. destruct (header_valid H h) eqn:V; cbn [negb]; [|exact C]. cbn in FR.
  destruct (hget (m_by_height m) n) as [i|] eqn:G; [destruct (header_eqb _ _)|]; cbn [fst]; [exact C| |].
  - apply complete_add; [apply sane_reorg, S0|apply complete_reorg; assumption|]. intros k j NE. rewrite reorg_unfold. cbn [m_by_height]. rewrite hget_below.
    destruct (k <? n) eqn:LT; [|discriminate]. intros Q. unfold deref; cbn [m_heap]. fold (deref m j).
    apply (FR k); [left; lia|]. apply header_at_iff; [exact S0|]. eauto.
  - apply complete_add; [exact S0|exact C|]. intros k j NE Q. apply (FR k); [|apply header_at_iff; [exact S0|]; eauto].
    unfold stays, header_at. rewrite G. destruct (N.lt_total k n) as [?|[?|?]]; [auto|contradiction|auto].
Qed.
Lemma complete_remove_latest m l : sane m -> linked m -> complete m -> m_latest m = Some l -> complete (remove_latest H m l).
Proof.
  intros S0 [M Z L] C ML. destruct (l_top m M l ML) as [A _].
  assert (DE : forall i, deref (remove_latest H m l) i = deref m i) by reflexivity.
  constructor; intros n i; cbn [remove_latest m_by_height m_by_hash m_by_root]; rewrite hget_del; (destruct (_ =? n) eqn:E; [discriminate|]); intros Q; rewrite DE, dget_del;
    (destruct (bytes_eqb _ _) eqn:B; [exfalso|]).
  - apply bytes_eqb_eq in B. pose proof (f_hash m C _ _ Q) as F1. rewrite <- B, (f_hash m C _ _ A) in F1. assert (l = i) as <- by congruence.
    pose proof (proj2 (s_height H m S0 _ _ Q)). lia.
  - apply (f_hash m C _ _ Q).
  - apply bytes_eqb_eq in B. pose proof (f_root m C _ _ Q) as F1. rewrite <- B, (f_root m C _ _ A) in F1. assert (l = i) as <- by congruence.
    pose proof (proj2 (s_height H m S0 _ _ Q)). lia.
  - apply (f_root m C _ _ Q).
Qed.
Lemma complete_apply m o x : sane m -> linked m -> complete m -> no_clash H m o -> apply m o = Done x -> complete x.
Proof.
  intros S0 M C G. destruct o as [n h|t|d|t p|id|n|d]; intros E;
    try (destruct (other_same m _ x S0 E I) as (A1 & A2 & A3 & A4 & A5); constructor; intros k i; rewrite ?A1, ?A2, ?A3; rewrite (proj2 (proj2 (A5 i))); apply C).
  - cbn [SpvModel.apply] in E. assert (x = fst (insert_header H m n h)) as -> by congruence. apply complete_insert_header; assumption.
  - cbn [SpvModel.apply] in E. destruct (remove_height H m n) as [y|] eqn:Q; [|discriminate]. assert (x = y) as -> by congruence.
    destruct (remove_height_inv _ _ _ _ Q) as (l & L & [->|[HN ->]]); [exact C|]. apply complete_remove_latest; assumption.
  - cbn [SpvModel.apply] in E. destruct (remove_hash H m d) as [y|] eqn:Q; [|discriminate]. assert (x = y) as -> by congruence.
    destruct (remove_hash_inv _ _ _ _ Q) as (l & L & [->|[HN ->]]); [exact C|]. apply complete_remove_latest; assumption.
Qed.
Lemma complete_new h : complete (new_db H h).
Proof.
  unfold new_db. apply complete_insert_header.
  - apply sane_empty.
  - constructor; cbn; discriminate.
  - cbn. intros k h' _ Q. discriminate.
Qed.
Theorem header_by_complete h0 l m n h : header_valid H h0 = true ->
  throughout H ins ord dup fuel (fun m o => keeps_chain H m o /\ no_clash H m o) (new_db H h0) l ->
  history (new_db H h0) l = Done m -> header_at m n = Some (n, h) ->
  header_by m (hash h) = Some (n, h) /\ (header_by m (h_merkle_root h) = Some (n, h) \/ exists k h', header_at m k = Some (k, h') /\ hash h' = h_merkle_root h).
Proof.
  intros V T E Q.
  assert (sane m /\ linked m /\ complete m) as (S0 & M & C).
  { refine (preserved H ins ord dup fuel (fun y => sane y /\ linked y /\ complete y) _ _ l _ _ _ T E).
    - intros a o y (A & B & C) [P1 P2] E2. split; [eapply sane_apply; eassumption|]. split; [eapply linked_apply; eassumption|eapply complete_apply; eassumption].
    - split; [apply sane_new|]. split; [apply linked_new, V|apply complete_new]. }
  apply header_at_iff in Q as [_ (i & G & <-)]; [|exact S0]. destruct (s_height H m S0 _ _ G) as [L HT]. unfold header_by, by_digest. split.
  - rewrite (f_hash m C _ _ G). cbn. rewrite HT. reflexivity.
  - destruct (dget (m_by_hash m) (h_merkle_root (e_header (deref m i)))) as [j|] eqn:D.
    + right. exists (e_height (deref m j)), (e_header (deref m j)). split; [|apply (s_hash H m S0 _ _ D)].
      apply header_at_iff; [exact S0|]. split; [reflexivity|]. exists j. split; [apply (l_hash m (k_semi m M) _ _ D)|reflexivity].
    + left. rewrite (f_root m C _ _ G). cbn. rewrite HT. reflexivity.
Qed.
End Steps.
End Chain.
