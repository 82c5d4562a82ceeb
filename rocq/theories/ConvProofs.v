(* Reading SPV proofs from BEEF. *)
From Coq Require Import Lia ZifyBool ZifyNat ZifyN Sorting.Permutation.
From Verif Require Import Base BaseProofs WireModel MerkleModel BumpModel WorkModel SighashModel BeefModel BeefSpec SpvModel SpvProofs AncModel AncSpec AncProofs AncGenerate ConvModel ConvSpec.
Local Open Scope N_scope.

Lemma set_del_In d k s : In d (set_del k s) <-> In d s /\ d <> k.
Proof.
  unfold set_del. rewrite filter_In, Bool.negb_true_iff. split; intros [A B]; split; try exact A.
  - intros ->. rewrite (proj2 (bytes_eqb_eq k k) eq_refl) in B. discriminate.
  - destruct (bytes_eqb k d) eqn:E; [apply bytes_eqb_eq in E; congruence|reflexivity].
Qed.
Lemma set_add_iff k d s : In k (set_add d s) <-> k = d \/ In k s.
Proof. exact (AncProofs.set_add_In (fun x => x) (fun _ _ _ _ _ _ => true) (fun _ => true) k d s). Qed.
Definition digs (l : list input) : list bytes := map (fun i => op_digest (in_ref i)) l.
Lemma digs_In i l : In i l -> In (op_digest (in_ref i)) (digs l).
Proof. intros I0. apply in_map_iff. exists i. split; [reflexivity|exact I0]. Qed.

Lemma node_inputs_some nodes l : forall prev roots, (forall d, In d (digs l) -> get bytes_eqb nodes d <> None) ->
  exists m r, node_inputs nodes prev roots l = Some (m, r).
Proof.
  induction l as [|i l IH]; intros prev roots A; cbn [node_inputs]; [do 2 eexists; reflexivity|]. cbv zeta.
  destruct (get bytes_eqb nodes (op_digest (in_ref i))) eqn:E; [|exfalso; exact (A _ (or_introl eq_refl) E)].
  apply IH. intros d D. apply A. right. exact D.
Qed.
Lemma node_inputs_inv nodes l : forall prev roots m r, node_inputs nodes prev roots l = Some (m, r) ->
  (forall d, In d (digs l) -> get bytes_eqb nodes d <> None) /\
  (forall k v, In (k, v) m -> In (k, v) prev \/ (get bytes_eqb nodes k = Some v /\ In k (digs l))) /\
  (forall k, get bytes_eqb prev k <> None \/ In k (digs l) -> get bytes_eqb m k <> None) /\
  (forall d, In d r <-> In d roots /\ ~ In d (digs l)).
Proof.
  induction l as [|i l IH]; intros prev roots m r E; cbn [node_inputs] in E; cbv zeta in E.
  - assert (prev = m) as -> by congruence. assert (roots = r) as -> by congruence. split; [intros d []|]. split; [left; assumption|]. split; [intros k [K|[]]; exact K|]. intros d. cbn. tauto.
  - destruct (get bytes_eqb nodes (op_digest (in_ref i))) as [v|] eqn:G; [|discriminate]. destruct (IH _ _ _ _ E) as (A & B & C & D). split; [|split; [|split]].
    + intros d [<-|I0]; [congruence|exact (A d I0)].
    + intros k w I0. destruct (B _ _ I0) as [J|[J K]].
      * apply amap_insert_In in J. destruct J as [J|[-> ->]]; [left; exact J|]. right. split; [exact G|left; reflexivity].
      * right. split; [exact J|right; exact K].
    + intros k K. apply C. destruct K as [K|[<-|K]]; [left; apply amap_insert_key; left; exact K|left; apply amap_insert_key; right; reflexivity|right; exact K].
    + intros d. rewrite D, set_del_In. cbn [digs map In]. fold (digs l). split.
      * intros [[X Y] Z]. split; [exact X|]. intros [Q|Q]; [congruence|exact (Z Q)].
      * intros [X Y]. split; [split; [exact X|]|]; intros Q; apply Y; [left; congruence|right; exact Q].
Qed.
Lemma merge_In l : forall m k v, In (k, v) (merge m l) -> In (k, v) m \/ In (k, v) l.
Proof.
  unfold merge. induction l as [|[j w] l IH]; intros m k v I0; cbn [fold_left fst snd] in I0; [left; exact I0|].
  destruct (IH _ _ _ I0) as [J|J]; [|right; right; exact J]. apply amap_insert_In in J. destruct J as [J|[-> ->]]; [left; exact J|right; left; reflexivity].
Qed.
Lemma merge_key l : forall m k, get bytes_eqb m k <> None \/ get bytes_eqb l k <> None -> get bytes_eqb (merge m l) k <> None.
Proof.
  unfold merge. induction l as [|[j w] l IH]; intros m k K; cbn [fold_left fst snd]; [destruct K as [K|K]; [exact K|exfalso; apply K; reflexivity]|].
  apply IH. cbn [get] in K. destruct K as [K|K]; [left; apply amap_insert_key; left; exact K|].
  destruct (bytes_eqb k j) eqn:E; [|right; exact K]. apply bytes_eqb_eq in E. left. apply amap_insert_key. right. exact E.
Qed.

Section Reader.
Variable H : bytes -> bytes.
Variable ins : forall A, (A -> N) -> A -> list A -> list A.
Variable dup : option (path -> path -> path).
Variable miss : option path.
Variable by_height : N -> option header.
Notation tx_id := (tx_id H).
Notation idof u := (BeefModel.tx_id H (bt_tx u)).
Notation merks_of := (merks_of H ins dup).
Notation read_leaf := (read_leaf H miss by_height).
Notation read_txs := (read_txs H miss by_height).
Notation leaf_conf := (leaf_conf H ins dup miss by_height).
Notation readable := (readable H ins dup miss by_height).
Notation read_proof := (read_proof H ins dup miss by_height).

Lemma merks_exact l : (exists ms, merks_of l = Some ms) <-> forall x, In x l -> exists m, bump_paths H ins dup x = Some m.
Proof.
  induction l as [|b l IH]; cbn [ConvModel.merks_of]; [split; [intros _ x []|exists []; reflexivity]|]. split.
  - intros [ms E] x. destruct (bump_paths H ins dup b) as [m|] eqn:B; [|discriminate]. destruct (merks_of l) as [s|]; [|discriminate].
    intros [<-|I0]; [exists m; exact B|]. apply IH; [exists s; reflexivity|exact I0].
  - intros A. destruct (A b (or_introl eq_refl)) as [m ->]. destruct (proj2 IH) as [s ->]; [intros x I0; apply A; right; exact I0|]. eexists. reflexivity.
Qed.
Lemma merks_at l : forall ms i, merks_of l = Some ms -> nth_error ms i = match nth_error l i with Some x => match bump_paths H ins dup x with Some m => Some (bp_height x, m) | None => None end | None => None end.
Proof.
  induction l as [|b l IH]; intros ms i E; cbn [ConvModel.merks_of] in E.
  - assert (ms = []) as -> by congruence. destruct i; reflexivity.
  - destruct (bump_paths H ins dup b) as [m|] eqn:B; [|discriminate]. destruct (merks_of l) as [s|] eqn:Q; [|discriminate].
    assert (ms = (bp_height b, m) :: s) as -> by congruence. destruct i as [|i]; cbn [nth_error]; [rewrite B; reflexivity|]. exact (IH s i eq_refl).
Qed.
Lemma leaf_exact b ms t i a : merks_of (bf_bumps b) = Some ms ->
  (read_leaf ms t i = Ret (Some a) <-> exists c, leaf_conf b t i c /\ a = mkanode t (Confirmed c)).
Proof.
  intros M. unfold ConvModel.read_leaf, at_index, ConvSpec.leaf_conf. rewrite (merks_at _ _ (N.to_nat i) M). split.
  - destruct (nth_error (bf_bumps b) (N.to_nat i)) as [x|]; [|discriminate]. destruct (bump_paths H ins dup x) as [m|] eqn:B; [|discriminate].
    destruct (by_height (bp_height x)) as [h|] eqn:E; [|discriminate].
    destruct (get bytes_eqb m (tx_id t)) as [p|] eqn:G; [|destruct miss as [p|] eqn:Q; [|discriminate]]; intros A;
      (exists (mkconf p (bp_height x) h); split; [exists x, m, h, p|congruence]).
    + repeat split; try assumption. left. exact G.
    + repeat split; try assumption. right. split; [exact G|reflexivity].
  - intros (c & (x & m & h & p & -> & -> & -> & [->|[-> E]] & ->) & ->); [reflexivity|]. rewrite E. reflexivity.
Qed.
Lemma leaf_conf_unique b t i c c' : leaf_conf b t i c -> leaf_conf b t i c' -> c = c'.
Proof.
  intros (x & m & h & p & A & B & C & D & ->) (x' & m' & h' & p' & A' & B' & C' & D' & ->).
  assert (x' = x) as -> by congruence. assert (m' = m) as -> by congruence. assert (h' = h) as -> by congruence.
  destruct D as [D|[D E]], D' as [D'|[D' E']]; congruence.
Qed.

(* ---------------------------------------------------------------- the state *)
Definition unproven (u : btx) : bool := match bt_index u with None => true | Some _ => false end.
Definition antes (nodes : amap) (t : tx) (m : amap) : Prop :=
  (forall d, In d (digs (tx_inputs t)) -> get bytes_eqb m d = get bytes_eqb nodes d /\ exists a, get bytes_eqb nodes d = Some (Some a)) /\
  (forall k v, In (k, v) m -> get bytes_eqb nodes k = Some v /\ In k (digs (tx_inputs t))).
Definition node_for (b : beef) (nodes : amap) (u : btx) (a : anode) : Prop :=
  get bytes_eqb nodes (idof u) = Some (Some a) /\ n_tx a = bt_tx u /\
  match bt_index u with
  | Some k => exists c, n_proof a = Confirmed c /\ leaf_conf b (bt_tx u) k c
  | None => exists m, n_proof a = Antecedents m /\ antes nodes (bt_tx u) m
  end.
Record inv (b : beef) (pre : list btx) (s : rstate) : Prop := mkinv {
  inv_keys : map fst (r_nodes s) = rev (ids H pre);
  inv_nodes : forall u, In u pre -> exists a, node_for b (r_nodes s) u a;
  inv_txids : r_txids s = ids H (filter unproven pre);
  inv_roots : forall d, In d (r_roots s) <-> (exists u, In u pre /\ unproven u = true /\ idof u = d) /\ spent_in pre d = false;
  inv_nodup : NoDup (ids H pre);
  inv_earlier : supported_by_earlier H pre }.

Lemma get_key (m : amap) k : get bytes_eqb m k <> None <-> In k (map fst m).
Proof.
  split.
  - destruct (get bytes_eqb m k) as [v|] eqn:E; [|congruence]. intros _. apply in_map_iff. exists (k, v). split; [reflexivity|exact (get_In _ _ _ E)].
  - intros I0. apply in_map_iff in I0. destruct I0 as ([k' v] & E & I0). cbn [fst] in E. subst k'. destruct (In_get _ _ _ I0) as [w ->]. discriminate.
Qed.
Lemma antes_mono nodes t m k v : get bytes_eqb nodes k = None -> antes nodes t m -> antes ((k, v) :: nodes) t m.
Proof.
  intros F [A B]. assert (G : forall d w, get bytes_eqb nodes d = Some w -> get bytes_eqb ((k, v) :: nodes) d = Some w).
  { intros d w E. cbn [get]. destruct (bytes_eqb d k) eqn:Q; [apply bytes_eqb_eq in Q; congruence|exact E]. }
  split.
  - intros d D. destruct (A d D) as [E [a X]]. rewrite (G _ _ X), E, X. split; [reflexivity|exists a; reflexivity].
  - intros j w I0. destruct (B j w I0) as [E D]. split; [exact (G _ _ E)|exact D].
Qed.
Lemma node_mono b nodes u a k v : get bytes_eqb nodes k = None -> node_for b nodes u a -> node_for b ((k, v) :: nodes) u a.
Proof.
  intros F (A & B & C). split; [|split; [exact B|]].
  - cbn [get]. destruct (bytes_eqb (idof u) k) eqn:Q; [apply bytes_eqb_eq in Q; congruence|exact A].
  - destruct (bt_index u); [exact C|]. destruct C as (m & P & Q). exists m. split; [exact P|exact (antes_mono _ _ _ _ _ F Q)].
Qed.
Lemma ids_app l l' : ids H (l ++ l') = ids H l ++ ids H l'.
Proof. apply map_app. Qed.
Lemma spent_app l l' d : spent_in (l ++ l') d = spent_in l d || spent_in l' d.
Proof. apply existsb_app. Qed.
Lemma spent_one u d : spent_in [u] d = true <-> unproven u = true /\ In d (digs (tx_inputs (bt_tx u))).
Proof.
  unfold spent_in, unproven. cbn [existsb]. rewrite Bool.orb_false_r. destruct (bt_index u); [split; [discriminate|intros [E _]; discriminate]|].
  rewrite existsb_exists. split.
  - intros (i & I0 & E). split; [reflexivity|]. apply bytes_eqb_eq in E. subst d. apply digs_In. exact I0.
  - intros [_ I0]. apply in_map_iff in I0. destruct I0 as (i & <- & I0). exists i. split; [exact I0|]. apply bytes_eqb_eq. reflexivity.
Qed.
Lemma spent_true l d : spent_in l d = true <-> exists u, In u l /\ unproven u = true /\ In d (digs (tx_inputs (bt_tx u))).
Proof.
  unfold spent_in. rewrite existsb_exists. split; intros (u & I0 & E); exists u; (split; [exact I0|]).
  - apply (spent_one u d). unfold spent_in. cbn [existsb]. rewrite Bool.orb_false_r. exact E.
  - apply (spent_one u d) in E. unfold spent_in in E. cbn [existsb] in E. rewrite Bool.orb_false_r in E. exact E.
Qed.
Lemma earlier_snoc l u : supported_by_earlier H (l ++ [u]) <->
  supported_by_earlier H l /\ (unproven u = true -> forall d, In d (digs (tx_inputs (bt_tx u))) -> In d (ids H l)).
Proof.
  split.
  - intros S0. split.
    + intros x t y E. apply (S0 x t (y ++ [u])). rewrite E, <- app_assoc. reflexivity.
    + intros U d D. unfold unproven in U. destruct (bt_index u) eqn:B; [discriminate|]. apply in_map_iff in D. destruct D as (i & <- & I0).
      destruct (S0 l u [] eq_refl B i I0) as (w & W & <-). apply in_map_iff. exists w. split; [reflexivity|exact W].
  - intros [S0 U] x t y E B i I0. destruct y as [|y0 y].
    + apply app_inj_tail in E. destruct E as [-> ->]. unfold unproven in U. rewrite B in U. specialize (U eq_refl _ (digs_In _ _ I0)).
      apply in_map_iff in U. destruct U as (w & W & I1). exists w. split; [exact I1|exact W].
    + destruct (exists_last (l := y0 :: y)) as (z & w & Q); [discriminate|]. rewrite Q in E. change (x ++ t :: z ++ [w]) with (x ++ (t :: z) ++ [w]) in E. rewrite app_assoc in E.
      apply app_inj_tail in E. destruct E as [E _]. exact (S0 x t z E B i I0).
Qed.
Lemma nodup_snoc {A} (l : list A) x : NoDup (l ++ [x]) <-> NoDup l /\ ~ In x l.
Proof.
  split.
  - intros N0. apply NoDup_remove in N0. rewrite app_nil_r in N0. exact N0.
  - intros [N0 I0]. apply (Permutation_NoDup (l := x :: l)); [apply Permutation_cons_append|constructor; assumption].
Qed.

Lemma inv_start b : inv b [] (mkrs [] [] []).
Proof.
  split; try reflexivity.
  - intros u [].
  - intros d. split; [intros []|intros ((u & [] & _) & _)].
  - constructor.
  - intros x t y E. destruct x; discriminate.
Qed.
Lemma fresh_key b pre s d : inv b pre s -> digest_in d (map fst (r_nodes s)) = false -> get bytes_eqb (r_nodes s) d = None /\ ~ In d (ids H pre).
Proof.
  intros I0 D. assert (X : ~ In d (map fst (r_nodes s))) by (rewrite <- digest_in_iff; congruence). split.
  - destruct (get bytes_eqb (r_nodes s) d) eqn:E; [|reflexivity]. exfalso. apply X, get_key. congruence.
  - rewrite (inv_keys _ _ _ I0) in X. intros Y. apply X, in_rev. rewrite rev_involutive. exact Y.
Qed.
Lemma inv_leaf b ms pre s u k a : merks_of (bf_bumps b) = Some ms -> inv b pre s -> bt_index u = Some k -> read_leaf ms (bt_tx u) k = Ret (Some a) ->
  digest_in (idof u) (map fst (r_nodes s)) = false -> inv b (pre ++ [u]) (mkrs ((idof u, Some a) :: r_nodes s) (r_txids s) (r_roots s)).
Proof.
  intros M I0 K L F. destruct (fresh_key _ _ _ _ I0 F) as [G NI]. assert (U : unproven u = false) by (unfold unproven; rewrite K; reflexivity).
  split; cbn [r_nodes r_txids r_roots].
  - cbn [map fst]. rewrite (inv_keys _ _ _ I0), ids_app, rev_app_distr. reflexivity.
  - intros w W. apply in_app_or in W. destruct W as [W|[<-|[]]].
    + destruct (inv_nodes _ _ _ I0 w W) as [x X]. exists x. exact (node_mono _ _ _ _ _ _ G X).
    + exists a. apply (leaf_exact b ms _ _ _ M) in L. destruct L as (c & C & ->). split; [|split; [reflexivity|]].
      * cbn [get]. rewrite (proj2 (bytes_eqb_eq _ _) eq_refl). reflexivity.
      * rewrite K. exists c. split; [reflexivity|exact C].
  - rewrite (inv_txids _ _ _ I0), filter_app. cbn [filter]. rewrite U, app_nil_r. reflexivity.
  - intros d. rewrite (inv_roots _ _ _ I0), spent_app. assert (X : spent_in [u] d = false) by (destruct (spent_in [u] d) eqn:Q; [apply spent_one in Q; destruct Q; congruence|reflexivity]).
    rewrite X, Bool.orb_false_r. split; intros [(w & W & V & E) Y]; (split; [|exact Y]); exists w.
    + split; [apply in_or_app; left; exact W|split; assumption].
    + apply in_app_or in W. destruct W as [W|[<-|[]]]; [split; [exact W|split; assumption]|congruence].
  - rewrite ids_app. apply nodup_snoc. split; [exact (inv_nodup _ _ _ I0)|exact NI].
  - apply earlier_snoc. split; [exact (inv_earlier _ _ _ I0)|congruence].
Qed.
Lemma inv_node b pre s u m r : inv b pre s -> bt_index u = None -> node_inputs (r_nodes s) [] (r_roots s) (tx_inputs (bt_tx u)) = Some (m, r) ->
  digest_in (idof u) (map fst (r_nodes s)) = false ->
  inv b (pre ++ [u]) (mkrs ((idof u, Some (mkanode (bt_tx u) (Antecedents m))) :: r_nodes s) (r_txids s ++ [idof u]) (set_add (idof u) r)).
Proof.
  intros I0 K L F. destruct (fresh_key _ _ _ _ I0 F) as [G NI]. assert (U : unproven u = true) by (unfold unproven; rewrite K; reflexivity).
  destruct (node_inputs_inv _ _ _ _ _ _ L) as (A & B & C & D).
  assert (KEYS : forall d, In d (digs (tx_inputs (bt_tx u))) -> In d (ids H pre)).
  { intros d X. apply A, get_key in X. rewrite (inv_keys _ _ _ I0) in X. apply in_rev in X. exact X. }
  assert (AN : antes (r_nodes s) (bt_tx u) m).
  { assert (B' : forall k v, In (k, v) m -> get bytes_eqb (r_nodes s) k = Some v /\ In k (digs (tx_inputs (bt_tx u)))) by (intros k v X; destruct (B k v X) as [[]|Y]; exact Y).
    split; [|exact B']. intros d X. split.
    - pose proof (C d (or_intror X)) as Y. destruct (get bytes_eqb m d) as [v|] eqn:E; [|congruence]. symmetry. exact (proj1 (B' _ _ (get_In _ _ _ E))).
    - apply KEYS in X. apply in_map_iff in X. destruct X as (w & <- & W). destruct (inv_nodes _ _ _ I0 w W) as [a [X _]]. exists a. exact X. }
  split; cbn [r_nodes r_txids r_roots].
  - cbn [map fst]. rewrite (inv_keys _ _ _ I0), ids_app, rev_app_distr. reflexivity.
  - intros w W. apply in_app_or in W. destruct W as [W|[<-|[]]].
    + destruct (inv_nodes _ _ _ I0 w W) as [x X]. exists x. exact (node_mono _ _ _ _ _ _ G X).
    + eexists. split; [|split].
      * cbn [get]. rewrite (proj2 (bytes_eqb_eq _ _) eq_refl). reflexivity.
      * reflexivity.
      * rewrite K. exists m. split; [reflexivity|]. apply antes_mono; assumption.
  - rewrite (inv_txids _ _ _ I0), filter_app. cbn [filter]. rewrite U, ids_app. reflexivity.
  - intros d. rewrite set_add_iff, D, (inv_roots _ _ _ I0), spent_app. split.
    + intros [->|[[(w & W & V & E) Y] Z]].
      * split; [exists u; split; [apply in_or_app; right; left; reflexivity|split; [exact U|reflexivity]]|].
        apply Bool.orb_false_iff. split.
        -- destruct (spent_in pre (idof u)) eqn:Q; [|reflexivity]. exfalso. apply NI. apply spent_true in Q. destruct Q as (w & W & V & X).
           apply in_map_iff in X. destruct X as (i & E & I1). destruct (in_split _ _ W) as (x & y & ->).
           unfold unproven in V. destruct (bt_index w) eqn:BW; [discriminate|]. destruct (inv_earlier _ _ _ I0 x w y eq_refl BW i I1) as (z & Z & EZ).
           rewrite <- E, <- EZ. apply in_map_iff. exists z. split; [reflexivity|apply in_or_app; left; exact Z].
        -- destruct (spent_in [u] (idof u)) eqn:Q; [|reflexivity]. exfalso. apply NI. apply spent_one in Q. apply KEYS. exact (proj2 Q).
      * split; [exists w; split; [apply in_or_app; left; exact W|split; assumption]|]. rewrite Y. cbn [orb].
        destruct (spent_in [u] d) eqn:Q; [|reflexivity]. exfalso. apply spent_one in Q. exact (Z (proj2 Q)).
    + intros [(w & W & V & E) Y]. apply Bool.orb_false_iff in Y. destruct Y as [Y Y']. apply in_app_or in W. destruct W as [W|[<-|[]]]; [|left; congruence].
      right. split; [split; [exists w; split; [exact W|split; assumption]|exact Y]|]. intros Z.
      assert (X : spent_in [u] d = true) by (apply spent_one; split; assumption). congruence.
  - rewrite ids_app. apply nodup_snoc. split; [exact (inv_nodup _ _ _ I0)|exact NI].
  - apply earlier_snoc. split; [exact (inv_earlier _ _ _ I0)|intros _; exact KEYS].
Qed.

Lemma read_txs_sound b ms l : merks_of (bf_bumps b) = Some ms -> forall pre s s', inv b pre s -> read_txs ms s l = Ret (Some s') -> inv b (pre ++ l) s'.
Proof.
  intros M. induction l as [|u l IH]; intros pre s s' I0 E; cbn [ConvModel.read_txs] in E; cbv zeta in E.
  - rewrite app_nil_r. assert (s = s') as <- by congruence. exact I0.
  - change (pre ++ u :: l) with (pre ++ [u] ++ l). rewrite app_assoc. destruct (bt_index u) as [k|] eqn:K.
    + destruct (read_leaf ms (bt_tx u) k) as [[a|]|e|] eqn:L; try discriminate. destruct (digest_in (idof u) (map fst (r_nodes s))) eqn:F; [discriminate|].
      exact (IH _ _ _ (inv_leaf _ _ _ _ _ _ _ M I0 K L F) E).
    + destruct (node_inputs (r_nodes s) [] (r_roots s) (tx_inputs (bt_tx u))) as [[m r]|] eqn:L; [|discriminate].
      destruct (digest_in (idof u) (map fst (r_nodes s))) eqn:F; [discriminate|]. exact (IH _ _ _ (inv_node _ _ _ _ _ _ I0 K L F) E).
Qed.
Lemma read_txs_complete b ms l : merks_of (bf_bumps b) = Some ms -> forall pre s, inv b pre s ->
  NoDup (ids H (pre ++ l)) -> supported_by_earlier H (pre ++ l) -> (forall t i, In t l -> bt_index t = Some i -> exists c, leaf_conf b (bt_tx t) i c) ->
  exists s', read_txs ms s l = Ret (Some s').
Proof.
  intros M. induction l as [|u l IH]; intros pre s I0 ND SE LC; cbn [ConvModel.read_txs]; [eexists; reflexivity|]. cbv zeta.
  change (pre ++ u :: l) with (pre ++ [u] ++ l) in ND, SE. rewrite app_assoc in ND, SE.
  assert (F : digest_in (idof u) (map fst (r_nodes s)) = false).
  { destruct (digest_in _ _) eqn:F; [|reflexivity]. exfalso. apply digest_in_iff in F. rewrite (inv_keys _ _ _ I0) in F. apply in_rev in F.
    rewrite !ids_app in ND. rewrite <- app_assoc in ND. apply NoDup_remove in ND. apply (proj2 ND). apply in_or_app. left. exact F. }
  assert (SE1 : supported_by_earlier H (pre ++ [u])).
  { intros x t y E. apply (SE x t (y ++ l)). rewrite E, <- app_assoc. reflexivity. }
  destruct (bt_index u) as [k|] eqn:K.
  - destruct (LC u k (or_introl eq_refl) K) as [c C].
    assert (L : read_leaf ms (bt_tx u) k = Ret (Some (mkanode (bt_tx u) (Confirmed c)))) by (apply (leaf_exact b ms _ _ _ M); exists c; split; [exact C|reflexivity]).
    rewrite L, F. apply (IH (pre ++ [u])); [exact (inv_leaf _ _ _ _ _ _ _ M I0 K L F)|exact ND|exact SE|]. intros t i T. apply LC. right. exact T.
  - destruct (node_inputs_some (r_nodes s) (tx_inputs (bt_tx u)) [] (r_roots s)) as (m & r & L).
    { intros d D. apply get_key. rewrite (inv_keys _ _ _ I0). rewrite <- in_rev. apply earlier_snoc in SE1. apply (proj2 SE1); [unfold unproven; rewrite K; reflexivity|exact D]. }
    rewrite L, F. apply (IH (pre ++ [u])); [exact (inv_node _ _ _ _ _ _ I0 K L F)|exact ND|exact SE|]. intros t i T. apply LC. right. exact T.
Qed.

(* ---------------------------------------------------------------- the payment *)
Lemma payment_read b pre s us : inv b pre s -> (forall u, In u us -> In u pre /\ unproven u = true) -> forall p,
  exists p', read_payment s p (ids H us) = Ret (Some p') /\
    ap_payment p' = rev (ap_payment p) ++ map bt_tx (filter (fun u => digest_in (idof u) (r_roots s)) us) /\
    (forall k v, In (k, v) (ap_map p') -> In (k, v) (ap_map p) \/
       get bytes_eqb (r_nodes s) k = Some v /\ exists u, In u us /\ digest_in (idof u) (r_roots s) = true /\ In k (digs (tx_inputs (bt_tx u)))) /\
    (forall k, get bytes_eqb (ap_map p) k <> None \/ (exists u, In u us /\ digest_in (idof u) (r_roots s) = true /\ In k (digs (tx_inputs (bt_tx u)))) ->
       get bytes_eqb (ap_map p') k <> None).
Proof.
  intros I0. induction us as [|u us IH]; intros US p; cbn [ids map read_payment filter].
  - eexists. split; [reflexivity|]. cbn [ap_payment ap_map]. split; [rewrite app_nil_r; reflexivity|]. split; [left; assumption|]. intros k [K|(u & [] & _)]. exact K.
  - assert (US' : forall w, In w us -> In w pre /\ unproven w = true) by (intros w W; apply US; right; exact W). fold (ids H us).
    destruct (digest_in (idof u) (r_roots s)) eqn:R.
    + destruct (US u (or_introl eq_refl)) as [P U]. destruct (inv_nodes _ _ _ I0 u P) as (a & G & T & N0). unfold unproven in U. destruct (bt_index u) eqn:K; [discriminate|].
      destruct N0 as (m & PM & A & B). destruct a as [t pr]. cbn [n_tx n_proof] in T, PM. subst t pr. rewrite G.
      destruct (IH US' (mkaproof (bt_tx u :: ap_payment p) (merge (ap_map p) m))) as (p' & E & PAY & X & Y). exists p'. split; [exact E|].
      cbn [ap_payment ap_map] in PAY, X, Y. split; [rewrite PAY; cbn [rev map]; rewrite <- app_assoc; reflexivity|]. split.
      * intros k v I1. destruct (X k v I1) as [I2|[I2 (w & W & RW & D)]]; [|right; split; [exact I2|exists w; split; [right; exact W|split; assumption]]].
        apply merge_In in I2. destruct I2 as [I2|I2]; [left; exact I2|]. right. destruct (B k v I2) as [B1 B2]. split; [exact B1|]. exists u. split; [left; reflexivity|split; assumption].
      * intros k D. apply Y. destruct D as [D|(w & [<-|W] & RW & D)].
        -- left. apply merge_key. left. exact D.
        -- left. apply merge_key. right. destruct (A k D) as [-> [a ->]]. discriminate.
        -- right. exists w. split; [exact W|split; assumption].
    + destruct (IH US' p) as (p' & E & PAY & X & Y). exists p'. split; [exact E|]. split; [exact PAY|].
      split; [intros k v I1; destruct (X k v I1) as [I2|[I2 (w & W & RW & D)]]; [left; exact I2|right; split; [exact I2|exists w; split; [right; exact W|split; assumption]]]|].
      intros k D. apply Y. destruct D as [D|(w & [<-|W] & RW & D)]; [left; exact D|congruence|right; exists w; split; [exact W|split; assumption]].
Qed.
Lemma filter_filter {A} (f g : A -> bool) l : filter f (filter g l) = filter (fun x => g x && f x) l.
Proof. induction l as [|x l IH]; cbn [filter]; [reflexivity|]. destruct (g x); cbn [filter andb]; [destruct (f x); congruence|exact IH]. Qed.

(* the maps of the result come from the nodes *)
Definition from_nodes (nodes m : amap) : Prop := forall k v, In (k, v) m -> get bytes_eqb nodes k = Some v.
Record outcome_ok (b : beef) (p : aproof) (s : rstate) : Prop := mkok {
  ok_inv : inv b (bf_txs b) s;
  ok_payment : ap_payment p = payments H b;
  ok_map : from_nodes (r_nodes s) (ap_map p);
  ok_keys : forall k v, In (k, v) (ap_map p) -> exists u, In u (bf_txs b) /\ unproven u = true /\ spent_in (bf_txs b) (idof u) = false /\ In k (digs (tx_inputs (bt_tx u)));
  ok_covers : forall u, In u (bf_txs b) -> unproven u = true -> spent_in (bf_txs b) (idof u) = false ->
    forall d, In d (digs (tx_inputs (bt_tx u))) -> get bytes_eqb (ap_map p) d = get bytes_eqb (r_nodes s) d }.
Lemma payment_ok b s : inv b (bf_txs b) s -> exists p, read_payment s empty_proof (r_txids s) = Ret (Some p) /\ outcome_ok b p s.
Proof.
  intros I0. destruct (payment_read b _ s (filter unproven (bf_txs b)) I0 (fun u X => proj1 (filter_In _ _ _) X) empty_proof) as (p & E & PAY & X & Y).
  rewrite <- (inv_txids _ _ _ I0) in E. exists p. split; [exact E|].
  assert (R : forall u, In u (bf_txs b) -> unproven u = true -> digest_in (idof u) (r_roots s) = negb (spent_in (bf_txs b) (idof u))).
  { intros u I1 U. apply Bool.eq_true_iff_eq. rewrite digest_in_iff, Bool.negb_true_iff, (inv_roots _ _ _ I0). split; [intros [_ Q]; exact Q|]. intros Q. split; [|exact Q].
    exists u. split; [exact I1|split; [exact U|reflexivity]]. }
  assert (FM : from_nodes (r_nodes s) (ap_map p)) by (intros k v I1; destruct (X k v I1) as [[]|[Q _]]; exact Q).
  split; [exact I0| |exact FM| |].
  - rewrite PAY. cbn [ap_payment empty_proof rev app]. unfold payments. rewrite filter_filter. f_equal. apply filter_ext_in. intros u I1.
    unfold unproven at 1. destruct (bt_index u) eqn:K; cbn [andb]; [reflexivity|]. apply R; [exact I1|]. unfold unproven. rewrite K. reflexivity.
  - intros k v I1. destruct (X k v I1) as [[]|[_ (u & U & RU & D)]]. apply filter_In in U. destruct U as [U UP]. exists u. split; [exact U|]. split; [exact UP|]. split; [|exact D].
    rewrite R in RU by assumption. apply Bool.negb_true_iff in RU. exact RU.
  - intros u I1 U SP d D.
    assert (Q : get bytes_eqb (ap_map p) d <> None).
    { apply Y. right. exists u. split; [apply filter_In; split; assumption|]. split; [rewrite R by assumption; rewrite SP; reflexivity|exact D]. }
    destruct (get bytes_eqb (ap_map p) d) as [v|] eqn:G; [|congruence]. symmetry. exact (FM _ _ (get_In _ _ _ G)).
Qed.
Theorem read_cases b p : read_proof b = Ret p -> p = empty_proof /\ ~ readable b \/ exists s, outcome_ok b p s.
Proof.
  unfold ConvModel.read_proof. destruct (merks_of (bf_bumps b)) as [ms|] eqn:M; [|discriminate].
  destruct (read_txs ms (mkrs [] [] []) (bf_txs b)) as [[s|]|e|] eqn:R; try discriminate.
  - pose proof (read_txs_sound b ms (bf_txs b) M [] _ _ (inv_start b) R) as I0. destruct (payment_ok b s I0) as (p' & -> & OK). intros E. right. exists s. congruence.
  - intros E. left. split; [congruence|]. intros (_ & ND & SE & LC). destruct (read_txs_complete b ms (bf_txs b) M [] _ (inv_start b) ND SE LC) as [s' Q]. congruence.
Qed.
Theorem read_complete b : readable b -> exists p s, read_proof b = Ret p /\ outcome_ok b p s.
Proof.
  intros (B & ND & SE & LC). destruct (proj2 (merks_exact (bf_bumps b)) B) as [ms M]. unfold ConvModel.read_proof. rewrite M.
  destruct (read_txs_complete b ms (bf_txs b) M [] _ (inv_start b) ND SE LC) as [s R]. rewrite R.
  pose proof (read_txs_sound b ms (bf_txs b) M [] _ _ (inv_start b) R) as I0. destruct (payment_ok b s I0) as (p & -> & OK). exists p, s. split; [reflexivity|exact OK].
Qed.
Lemma ok_readable b p s ms : merks_of (bf_bumps b) = Some ms -> outcome_ok b p s -> readable b.
Proof.
  intros M [I0 _ _ _ _]. split; [apply merks_exact; exists ms; exact M|]. split; [exact (inv_nodup _ _ _ I0)|]. split; [exact (inv_earlier _ _ _ I0)|].
  intros t i T K. destruct (inv_nodes _ _ _ I0 t T) as (a & _ & _ & N0). rewrite K in N0. destruct N0 as (c & _ & C). exists c. exact C.
Qed.

(* ---------------------------------------------------------------- the shape of the result *)
Lemma nodes_key b pre s k a : inv b pre s -> get bytes_eqb (r_nodes s) k = Some (Some a) -> exists u, In u pre /\ idof u = k /\ node_for b (r_nodes s) u a.
Proof.
  intros I0 G. assert (K : In k (map fst (r_nodes s))) by (apply get_key; congruence). rewrite (inv_keys _ _ _ I0) in K. apply in_rev in K. apply in_map_iff in K.
  destruct K as (u & E & U). destruct (inv_nodes _ _ _ I0 u U) as (a' & N0). exists u. split; [exact U|]. split; [exact E|]. assert (a' = a) as <-; [|exact N0].
  destruct N0 as [X _]. rewrite E in X. congruence.
Qed.
Lemma nodes_closed b pre s m t : inv b pre s -> from_nodes (r_nodes s) m -> submap m t -> from_nodes (r_nodes s) t.
Proof.
  intros I0 F SU. induction SU as [|k tr sm m' SU IH I1]; [exact F|]. specialize (IH _ _ I1).
  destruct (nodes_key _ _ _ _ _ I0 IH) as (u & U & _ & _ & _ & N0). cbn [n_proof] in N0.
  destruct (bt_index u); [destruct N0 as (c & Q & _); discriminate|]. destruct N0 as (m2 & Q & _ & A).
  assert (m2 = m') as -> by congruence. intros j w J. exact (proj1 (A j w J)).
Qed.
Lemma ok_node b p s k a : outcome_ok b p s -> node_in (ap_map p) k a -> get bytes_eqb (r_nodes s) k = Some (Some a).
Proof. intros [I0 _ M _ _] (t & SU & I1). exact (nodes_closed _ _ _ _ _ I0 M SU _ _ I1). Qed.
Lemma ok_coherent b p s : outcome_ok b p s -> coherent (ap_map p).
Proof. intros OK k a a' A A'. apply (ok_node _ _ _ _ _ OK) in A. apply (ok_node _ _ _ _ _ OK) in A'. congruence. Qed.
Lemma ok_keyed b p s : outcome_ok b p s -> well_keyed H (ap_map p).
Proof.
  intros OK k a A. apply (ok_node _ _ _ _ _ OK) in A. destruct (nodes_key _ _ _ _ _ (ok_inv _ _ _ OK) A) as (u & _ & <- & _ & T & _). rewrite T. reflexivity.
Qed.
Lemma ok_clear b p s : outcome_ok b p s -> ~ confused H (ap_map p).
Proof.
  intros OK (k & a & l & c & A & C & NE & ID). apply NE. rewrite (ok_keyed _ _ _ OK _ _ A), (ok_keyed _ _ _ OK _ _ C) in ID. subst l.
  rewrite (ok_coherent _ _ _ OK _ _ _ A C). reflexivity.
Qed.
Lemma ids_unique b s u w : inv b (bf_txs b) s -> In u (bf_txs b) -> In w (bf_txs b) -> idof u = idof w -> u = w.
Proof.
  intros I0 U W E. pose proof (inv_nodup _ _ _ I0) as ND. unfold ids in ND. clear I0. revert ND U W. induction (bf_txs b) as [|x l IH]; [intros _ []|].
  intros N0. cbn [map] in N0. apply NoDup_cons_iff in N0. destruct N0 as [N1 N2].
  intros [<-|U] [<-|W]; [reflexivity| | |exact (IH N2 U W)]; exfalso; apply N1; apply in_map_iff; [exists w|exists u]; split; auto.
Qed.
Lemma payments_nodup b s : inv b (bf_txs b) s -> NoDup (payments H b).
Proof.
  intros I0. unfold payments. pose proof (inv_nodup _ _ _ I0) as ND. unfold ids in ND. generalize dependent (bf_txs b). intros l0 I0 ND.
  apply (NoDup_map_inv tx_id). rewrite map_map. generalize (fun t : btx => match bt_index t with Some _ => false | None => negb (spent_in l0 (idof t)) end). intros f.
  clear I0. induction l0 as [|x l IH]; cbn [filter map]; [constructor|]. cbn [map] in ND. apply NoDup_cons_iff in ND. destruct ND as [N1 N2].
  destruct (f x); cbn [map]; [|exact (IH N2)]. constructor; [|exact (IH N2)]. intros I1. apply N1. apply in_map_iff in I1. destruct I1 as (y & E & I1). apply filter_In in I1.
  apply in_map_iff. exists y. split; [exact E|exact (proj1 I1)].
Qed.

(* ---------------------------------------------------------------- validation of the result *)
Section Validation.
Variable ovf : Z -> Z.
Variable eval : bool -> bytes -> bytes -> itx -> N -> Z -> bool.
Variable known : bytes -> bool.
Variable upgrade : time_limit.
Notation spends := (spends H ovf eval known upgrade).
Notation stands := (stands H ovf eval known upgrade).
Notation beef_spends := (beef_spends H ins dup miss by_height ovf eval known upgrade).

Lemma spends_ext t m m' : (forall d, In d (digs (tx_inputs t)) -> get bytes_eqb m d = get bytes_eqb m' d) -> spends t m -> spends t m'.
Proof.
  intros E SP. destruct SP as [t m os L F A]. apply spends_intro with (os := os); [exact L|exact F|].
  intros n i N0. destruct (A n i N0) as (a & o & X & G & R). exists a, o. split; [exact X|]. split; [|exact R]. rewrite <- E; [exact G|]. apply digs_In. exact (nth_error_In _ _ N0).
Qed.
Lemma stands_inv t m : stands (mkanode t (Antecedents m)) -> spends t m.
Proof. intros ST. inversion ST. subst. assumption. Qed.
Lemma stands_conf t c : stands (mkanode t (Confirmed c)) -> mined H known t c.
Proof. intros ST. inversion ST. subst. assumption. Qed.

Section Result.
Variable b : beef.
Variable p : aproof.
Variable s : rstate.
Hypothesis OK : outcome_ok b p s.
Let I0 := ok_inv _ _ _ OK.
Let node u a := node_for b (r_nodes s) u a.

Lemma spent_later pre u suf w : bf_txs b = pre ++ u :: suf -> In w (bf_txs b) -> unproven w = true -> In (idof u) (digs (tx_inputs (bt_tx w))) -> In w suf.
Proof.
  intros E W V D. apply in_map_iff in D. destruct D as (i & EI & II). unfold unproven in V. destruct (bt_index w) eqn:K; [discriminate|].
  pose proof (inv_nodup _ _ _ I0) as ND. pose proof (inv_earlier _ _ _ I0) as SE. rewrite E in ND, SE, W. rewrite ids_app in ND. cbn [ids map] in ND.
  fold (ids H suf) in ND. apply NoDup_remove_2 in ND.
  assert (NP : ~ In (idof u) (ids H pre)) by (intros X; apply ND, in_or_app; left; exact X).
  apply in_app_or in W. destruct W as [W|[<-|W]]; [| |exact W]; exfalso; apply NP.
  - destruct (in_split _ _ W) as (x & y & ->). destruct (SE x w (y ++ u :: suf)) with (i := i) as (z & Z & EZ); [rewrite <- app_assoc; reflexivity|exact K|exact II|].
    rewrite <- EI, <- EZ. apply in_map_iff. exists z. split; [reflexivity|]. apply in_or_app. left. exact Z.
  - destruct (SE pre u suf eq_refl K i II) as (z & Z & EZ). rewrite <- EI, <- EZ. apply in_map_iff. exists z. split; [reflexivity|exact Z].
Qed.
Lemma result_stands : (forall t, In t (ap_payment p) -> spends t (ap_map p)) -> forall suf pre, bf_txs b = pre ++ suf ->
  forall u a, In u suf -> unproven u = true -> node u a -> stands a.
Proof.
  intros PAY. induction suf as [|x suf IH]; intros pre E u a U UP N0; [destruct U|].
  assert (E' : bf_txs b = (pre ++ [x]) ++ suf) by (rewrite <- app_assoc; exact E).
  destruct U as [->|U]; [|exact (IH _ E' u a U UP N0)].
  assert (U : In u (bf_txs b)) by (rewrite E; apply in_or_app; right; left; reflexivity).
  destruct (spent_in (bf_txs b) (idof u)) eqn:SP.
  - apply spent_true in SP. destruct SP as (w & W & V & D). pose proof (spent_later _ _ _ _ E W V D) as W'.
    destruct (inv_nodes _ _ _ I0 w W) as [c NC]. pose proof (IH _ E' w c W' V NC) as ST. destruct NC as (_ & T & NC). unfold unproven in V. destruct (bt_index w); [discriminate|].
    destruct NC as (m & Q & A & _). destruct c as [t q]. cbn [n_tx n_proof] in T, Q. subst t q. apply stands_inv in ST. destruct ST as [t m os L F B].
    destruct (A _ D) as [G _]. apply in_map_iff in D. destruct D as (i & EI & II). destruct (In_nth_error _ _ II) as [n N1]. destruct (B n i N1) as (c & o & _ & GC & ST & _).
    rewrite EI, G, (proj1 N0) in GC. congruence.
  - destruct N0 as (_ & T & N0). pose proof (ok_covers _ _ _ OK u U UP SP) as CV. unfold unproven in UP. destruct (bt_index u) eqn:K; [discriminate|].
    destruct N0 as (m & Q & A & _). destruct a as [t q]. cbn [n_tx n_proof] in T, Q. subst t q. apply stands_spends. apply spends_ext with (m := ap_map p).
    + intros d D. rewrite (CV d D). symmetry. exact (proj1 (A d D)).
    + apply PAY. rewrite (ok_payment _ _ _ OK). apply in_map_iff. exists u. split; [reflexivity|]. apply filter_In. split; [exact U|]. rewrite K, SP. reflexivity.
Qed.
Lemma stands_beef u a : In u (bf_txs b) -> unproven u = true -> node u a -> stands a -> beef_spends b (bt_tx u).
Proof.
  intros U UP (_ & T & N0) ST. unfold unproven in UP. destruct (bt_index u); [discriminate|]. destruct N0 as (m & Q & A & _). destruct a as [t q]. cbn [n_tx n_proof] in T, Q. subst t q.
  apply stands_inv in ST. destruct ST as [t m os L F B]. exists os. split; [exact L|]. split; [exact F|]. intros n i N1. destruct (B n i N1) as (c & o & NO & G & ST & UN).
  destruct (A _ (digs_In _ _ (nth_error_In _ _ N1))) as [G' _]. rewrite G' in G. destruct (nodes_key _ _ _ _ _ I0 G) as (w & W & EW & NW).
  exists w, o. split; [exact NO|]. split; [exact W|]. split; [exact EW|]. destruct NW as (_ & TW & NW). rewrite TW in UN. unfold time_of in UN. destruct (bt_index w) as [k|].
  - destruct NW as (cf & PC & LC). rewrite PC in UN. exists cf. split; [exact LC|]. split; [|exact UN]. destruct c as [t' q]. cbn [n_tx n_proof] in TW, PC. subst t' q. exact (stands_conf _ _ ST).
  - destruct NW as (m2 & PC & _). rewrite PC in UN. exact UN.
Qed.
Lemma beef_stands : (forall u, In u (bf_txs b) -> unproven u = true -> beef_spends b (bt_tx u)) -> forall pre suf, bf_txs b = pre ++ suf ->
  forall u a, In u pre -> unproven u = true -> node u a -> stands a.
Proof.
  intros BS. induction pre as [|x pre IH] using rev_ind; intros suf E u a U UP N0; [destruct U|].
  assert (E' : bf_txs b = pre ++ x :: suf) by (rewrite E, <- app_assoc; reflexivity).
  apply in_app_or in U. destruct U as [U|[->|[]]]; [exact (IH _ E' u a U UP N0)|].
  assert (U : In u (bf_txs b)) by (rewrite E'; apply in_or_app; right; left; reflexivity).
  destruct (BS u U UP) as (os & L & F & B). destruct N0 as (_ & T & N0). unfold unproven in UP. destruct (bt_index u) eqn:K; [discriminate|].
  destruct N0 as (m & Q & A & _). destruct a as [t q]. cbn [n_tx n_proof] in T, Q. subst t q. apply stands_spends, spends_intro with (os := os); [exact L|exact F|].
  intros n i N1. destruct (B n i N1) as (w & o & NO & W & EW & R). pose proof (nth_error_In _ _ N1) as II. destruct (A _ (digs_In _ _ II)) as [G _].
  destruct (inv_nodes _ _ _ I0 w W) as [c NC]. exists c, o. split; [exact NO|]. split; [rewrite G, <- EW; exact (proj1 NC)|].
  assert (X : stands c /\ unlocks eval upgrade (bt_tx u) n i (n_tx c) (time_of c) o); [|exact X].
  destruct (bt_index w) as [k|] eqn:KW.
  - destruct R as (cf & LC & MI & UN). destruct NC as (_ & TC & NC). rewrite KW in NC. destruct NC as (cf' & PC & LC'). rewrite (leaf_conf_unique _ _ _ _ _ LC' LC) in PC.
    destruct c as [t q]. cbn [n_tx n_proof] in TC, PC. subst t q. split; [apply stands_mined; exact MI|exact UN].
  - assert (WP : In w pre).
    { destruct (inv_earlier _ _ _ I0 pre u suf E' K i II) as (z & Z & EZ). assert (z = w) as <-; [|exact Z]. apply (ids_unique b s); [exact I0| |exact W|congruence]. rewrite E'. apply in_or_app. left. exact Z. }
    assert (V : unproven w = true) by (unfold unproven; rewrite KW; reflexivity). split; [exact (IH _ E' w c WP V NC)|].
    destruct NC as (_ & TC & NC). rewrite KW in NC. destruct NC as (m2 & PC & _). unfold time_of. rewrite TC, PC. exact R.
Qed.
Lemma result_validates unset : limit_gt upgrade unset = false ->
  (validate H ovf eval known unset upgrade p = Done true <-> forall u, In u (bf_txs b) -> bt_index u = None -> beef_spends b (bt_tx u)).
Proof.
  intros LG. rewrite (validate_exact H ovf eval known unset upgrade p (ok_coherent _ _ _ OK) LG).
  assert (UP : forall u, bt_index u = None -> unproven u = true) by (intros u K; unfold unproven; rewrite K; reflexivity). split.
  - intros [_ PAY] u U K. destruct (inv_nodes _ _ _ I0 u U) as [a NA].
    exact (stands_beef u a U (UP u K) NA (result_stands PAY (bf_txs b) [] eq_refl u a U (UP u K) NA)).
  - intros BS. split; [rewrite (ok_payment _ _ _ OK); exact (payments_nodup _ _ I0)|]. intros t T. rewrite (ok_payment _ _ _ OK) in T. apply in_map_iff in T.
    destruct T as (u & <- & U). apply filter_In in U. destruct U as [U K]. destruct (bt_index u) eqn:KU; [discriminate|]. apply Bool.negb_true_iff in K.
    assert (BS' : forall w, In w (bf_txs b) -> unproven w = true -> beef_spends b (bt_tx w)).
    { intros w W V. apply BS; [exact W|]. unfold unproven in V. destruct (bt_index w); [discriminate|reflexivity]. }
    destruct (inv_nodes _ _ _ I0 u U) as [a NA]. pose proof (beef_stands BS' (bf_txs b) [] (eq_sym (app_nil_r _)) u a U (UP u KU) NA) as ST.
    destruct NA as (_ & T & NA). rewrite KU in NA. destruct NA as (m & Q & A & _). destruct a as [t q]. cbn [n_tx n_proof] in T, Q. subst t q.
    apply spends_ext with (m := m); [|exact (stands_inv _ _ ST)]. intros d D. rewrite (ok_covers _ _ _ OK u U (UP u KU) K d D). exact (proj1 (A d D)).
Qed.
End Result.

(* ---------------------------------------------------------------- theorems *)
Theorem read_sound unset b p : limit_gt upgrade unset = false -> read_proof b = Ret p -> validate H ovf eval known unset upgrade p = Done true ->
  forall t, In t (ap_payment p) -> genuine H ovf eval known upgrade t PosInf.
Proof.
  intros LG R V. destruct (read_cases b p R) as [[-> _]|[s OK]]; [intros t []|].
  exact (proj2 (validate_sound H ovf eval known unset upgrade p (ok_keyed _ _ _ OK) (ok_clear _ _ _ OK) LG V)).
Qed.
Theorem read_validates unset b p : limit_gt upgrade unset = false -> readable b -> read_proof b = Ret p ->
  (validate H ovf eval known unset upgrade p = Done true <-> forall u, In u (bf_txs b) -> bt_index u = None -> beef_spends b (bt_tx u)).
Proof. intros LG RE R. destruct (read_cases b p R) as [[_ NR]|[s OK]]; [destruct (NR RE)|]. exact (result_validates b p s OK unset LG). Qed.
End Validation.

Theorem read_shape b p : readable b -> read_proof b = Ret p ->
  ap_payment p = payments H b /\ NoDup (payments H b) /\ coherent (ap_map p) /\ well_keyed H (ap_map p) /\ ~ confused H (ap_map p) /\
  (forall k a, node_in (ap_map p) k a -> exists u, In u (bf_txs b) /\ n_tx a = bt_tx u /\
     match bt_index u with
     | None => exists m, n_proof a = Antecedents m
     | Some i => exists c, n_proof a = Confirmed c /\ leaf_conf b (bt_tx u) i c
     end).
Proof.
  intros RE R. destruct (read_cases b p R) as [[_ NR]|[s OK]]; [destruct (NR RE)|]. split; [exact (ok_payment _ _ _ OK)|]. split; [exact (payments_nodup _ _ (ok_inv _ _ _ OK))|].
  split; [exact (ok_coherent _ _ _ OK)|]. split; [exact (ok_keyed _ _ _ OK)|]. split; [exact (ok_clear _ _ _ OK)|].
  intros k a A. apply (ok_node _ _ _ _ _ OK) in A. destruct (nodes_key _ _ _ _ _ (ok_inv _ _ _ OK) A) as (u & U & _ & _ & T & N0). exists u. split; [exact U|]. split; [exact T|].
  destruct (bt_index u); [exact N0|]. destruct N0 as (m & Q & _). exists m. exact Q.
Qed.
Theorem read_exists b : readable b -> exists p, read_proof b = Ret p.
Proof. intros RE. destruct (read_complete b RE) as (p & s & E & _). exists p. exact E. Qed.
Theorem read_fails b p : ~ readable b -> read_proof b = Ret p -> p = empty_proof.
Proof.
  intros NR R. destruct (read_cases b p R) as [[E _]|[s OK]]; [exact E|]. exfalso. apply NR.
  unfold ConvModel.read_proof in R. destruct (merks_of (bf_bumps b)) as [ms|] eqn:M; [|discriminate]. exact (ok_readable _ _ _ _ M OK).
Qed.
End Reader.
