(* Writing SPV proofs as BEEF and reading them again. *)
From Coq Require Import Lia ZifyBool ZifyNat ZifyN Sorting.Permutation.
From Verif Require Import Base BaseProofs WireModel MerkleModel BumpModel WorkModel SighashModel BeefModel BeefSpec SpvModel SpvProofs AncModel AncSpec AncProofs AncGenerate ConvModel ConvSpec ConvProofs.
From Verif Require BumpSpec BumpBranchProofs.
Local Open Scope N_scope.

Fixpoint asize (a : anode) : nat :=
  match a with
  | mkanode _ p =>
    match p with
    | Confirmed _ => 1%nat
    | Antecedents m => Datatypes.S (list_sum (map (fun e => match e with (_, o) => match o with Some n => asize n | None => 0%nat end end) m))
    end
  end.
Lemma sum_In l x : In x l -> (x <= list_sum l)%nat.
Proof. induction l as [|y l IH]; [intros []|]. intros [->|I0]; cbn [list_sum fold_right]; [lia|]. specialize (IH I0). unfold list_sum in IH. lia. Qed.
Lemma asize_in t m k n : In (k, Some n) m -> (asize n < asize (mkanode t (Antecedents m)))%nat.
Proof.
  intros I0. cbn [asize]. apply Nat.lt_succ_r, sum_In. apply in_map_iff. exists (k, Some n). split; [reflexivity|exact I0].
Qed.

Section Writer.
Variable H : bytes -> bytes.
Variable ins : forall A, (A -> N) -> A -> list A -> list A.
Notation idof u := (BeefModel.tx_id H (bt_tx u)).
Notation write_node := (write_node ins).
Notation write_nodes := (write_nodes ins).
Notation write_leaf := (write_leaf ins).

Definition begin_node (d : bytes) (s : wstate) : wstate := mkws (d :: w_ids s) (w_roots s) (w_bumps s) (w_txs s).
Definition add_node (t : tx) (s : wstate) : wstate := mkws (w_ids s) (w_roots s) (w_bumps s) (mkbtx t None :: w_txs s).
Lemma write_node_eq t p d s : write_node (mkanode t p) d s =
  if digest_in d (w_ids s) then Some s
  else match p with
       | Confirmed c => write_leaf (begin_node d s) d t c
       | Antecedents m => match write_nodes m (begin_node d s) with Some s2 => Some (add_node t s2) | None => None end
       end.
Proof.
  cbn [ConvModel.write_node]. destruct (digest_in d (w_ids s)); [reflexivity|]. destruct p as [c|m]; [reflexivity|]. fold (begin_node d s). generalize (begin_node d s). intros s1.
  match goal with |- match ?a with _ => _ end = match ?b with _ => _ end => assert (E : a = b) end; [|rewrite E; reflexivity].
  revert s1. induction m as [|[k [n|]] m IH]; intros s1; [reflexivity| |reflexivity]. cbn [ConvModel.write_nodes]. destruct (write_node n k s1); [apply IH|reflexivity].
Qed.

Variable M : amap.
Hypothesis Keyed : well_keyed H M.
Hypothesis Coherent : coherent M.
Hypothesis Match : forall k t m, node_in M k (mkanode t (Antecedents m)) -> keys_match m (tx_inputs t).
Hypothesis NoNull : forall s k v, submap M s -> In (k, v) s -> v <> None.

Record winv (G : list bytes) (s : wstate) : Prop := mkwinv {
  wi_ids : forall k, In k (w_ids s) <-> In k G \/ In k (ids H (w_txs s));
  wi_nodup : NoDup (ids H (w_txs s));
  wi_earlier : supported_by_earlier H (rev (w_txs s));
  wi_nodes : forall u, In u (w_txs s) -> exists a, node_in M (idof u) a /\ n_tx a = bt_tx u /\
    match n_proof a with Confirmed _ => bt_index u <> None | Antecedents _ => bt_index u = None end;
  wi_open : forall g, In g G -> ~ In g (ids H (w_txs s)) }.

(* what else is kept, and whether the writing of confirmations is known to work *)
Variable Q : wstate -> Prop.
Variable Works : Prop.
Hypothesis Qleaf : forall G s d t c, node_in M d (mkanode t (Confirmed c)) -> winv G s -> ~ In d (w_ids s) -> Q s ->
  match write_leaf (begin_node d s) d t c with Some s' => Q s' | None => ~ Works end.
Hypothesis Qbegin : forall d s, Q s -> Q (begin_node d s).
Hypothesis Qnode : forall t s, Q s -> Q (add_node t s).

Lemma leaf_state s d t c s' : write_leaf s d t c = Some s' -> w_ids s' = w_ids s /\ exists i, w_txs s' = mkbtx t (Some i) :: w_txs s.
Proof.
  unfold ConvModel.write_leaf. destruct (get bytes_eqb (w_roots s) (h_merkle_root (c_header c))) as [i|].
  - destruct (nth_error (w_bumps s) (N.to_nat i)) as [b|]; [|discriminate].
    destruct (bump_plus ins b (bump_of_branch ins (bp_height b) (path_branch (d, c_path c)))) as [b'|]; [|discriminate].
    intros E. assert (X : forall a b : wstate, Some a = Some b -> a = b) by congruence. apply X in E. subst s'. cbn [w_ids w_txs]. split; [reflexivity|exists i; reflexivity].
  - intros E. assert (X : forall a b : wstate, Some a = Some b -> a = b) by congruence. apply X in E. subst s'. cbn [w_ids w_txs]. split; [reflexivity|eexists; reflexivity].
Qed.
Lemma winv_add G s d u : winv (d :: G) s -> ~ In d G -> idof u = d ->
  (exists a, node_in M d a /\ n_tx a = bt_tx u /\ match n_proof a with Confirmed _ => bt_index u <> None | Antecedents _ => bt_index u = None end) ->
  (bt_index u = None -> forall x, In x (digs (tx_inputs (bt_tx u))) -> In x (ids H (w_txs s))) -> forall s', w_ids s' = w_ids s -> w_txs s' = u :: w_txs s -> winv G s'.
Proof.
  intros W NG ID NA INP s' E1 E2. assert (F : ~ In d (ids H (w_txs s))) by (apply (wi_open _ _ W); left; reflexivity). split.
  - intros k. rewrite E1, E2, (wi_ids _ _ W). cbn [ids map]. fold (ids H (w_txs s)). rewrite ID. cbn [In]. tauto.
  - rewrite E2. cbn [ids map]. fold (ids H (w_txs s)). rewrite ID. constructor; [exact F|exact (wi_nodup _ _ W)].
  - rewrite E2. cbn [rev]. apply earlier_snoc. split; [exact (wi_earlier _ _ W)|]. intros UP x X. unfold unproven in UP. destruct (bt_index u); [discriminate|].
    unfold ids. rewrite map_rev. rewrite <- in_rev. exact (INP eq_refl x X).
  - intros w. rewrite E2. intros [<-|I0]; [rewrite ID; exact NA|exact (wi_nodes _ _ W w I0)].
  - intros g I0. rewrite E2. cbn [ids map]. fold (ids H (w_txs s)). rewrite ID. intros [E|X]; [subst g; exact (NG I0)|]. exact (wi_open _ _ W g (or_intror I0) X).
Qed.
Lemma winv_begin G s d : winv G s -> ~ In d (w_ids s) -> winv (d :: G) (begin_node d s).
Proof.
  intros W F. assert (F' : ~ In d (ids H (w_txs s))) by (intros X; apply F; apply (wi_ids _ _ W); right; exact X). split; cbn [begin_node w_ids w_txs].
  - intros k. cbn [In]. rewrite (wi_ids _ _ W). tauto.
  - exact (wi_nodup _ _ W).
  - exact (wi_earlier _ _ W).
  - exact (wi_nodes _ _ W).
  - intros g [<-|I0]; [exact F'|exact (wi_open _ _ W g I0)].
Qed.

Definition node_ok (a : anode) : Prop := forall d G s, node_in M d a -> winv G s -> Q s ->
  (forall g, In g G -> exists A, node_in M g A /\ (asize a < asize A)%nat) ->
  match write_node a d s with
  | Some s' => winv G s' /\ Q s' /\ incl (ids H (w_txs s)) (ids H (w_txs s')) /\ In d (ids H (w_txs s'))
  | None => ~ Works
  end.
Lemma nodes_ok m0 m : submap M m0 -> incl m m0 -> (forall k n, In (k, Some n) m -> node_ok n) -> forall G s, winv G s -> Q s ->
  (forall k n, In (k, Some n) m -> forall g, In g G -> exists A, node_in M g A /\ (asize n < asize A)%nat) ->
  match write_nodes m s with
  | Some s' => winv G s' /\ Q s' /\ incl (ids H (w_txs s)) (ids H (w_txs s')) /\ (forall k, In k (map fst m) -> In k (ids H (w_txs s')))
  | None => ~ Works
  end.
Proof.
  intros SU. induction m as [|[k o] m IH]; intros INC OK G s W HQ SZ; cbn [ConvModel.write_nodes].
  - split; [exact W|]. split; [exact HQ|]. split; [apply incl_refl|intros k []].
  - destruct o as [n|]; [|exfalso; exact (NoNull m0 k None SU (INC _ (or_introl eq_refl)) eq_refl)].
    assert (N0 : node_in M k n) by (exists m0; split; [exact SU|apply INC; left; reflexivity]).
    pose proof (OK k n (or_introl eq_refl) k G s N0 W HQ (SZ k n (or_introl eq_refl))) as ST. destruct (write_node n k s) as [s1|]; [|exact ST].
    destruct ST as (W1 & Q1 & I1 & D1).
    assert (R : match write_nodes m s1 with Some s' => winv G s' /\ Q s' /\ incl (ids H (w_txs s1)) (ids H (w_txs s')) /\ (forall k, In k (map fst m) -> In k (ids H (w_txs s'))) | None => ~ Works end).
    { apply IH; [intros e E; apply INC; right; exact E|intros k' n' X; apply (OK k'); right; exact X|exact W1|exact Q1|intros k' n' X; apply (SZ k'); right; exact X]. }
    destruct (write_nodes m s1) as [s2|]; [|exact R]. destruct R as (W2 & Q2 & I2 & D2). split; [exact W2|]. split; [exact Q2|]. split; [exact (incl_tran I1 I2)|].
    cbn [map fst]. intros k' [<-|X]; [exact (I2 _ D1)|exact (D2 k' X)].
Qed.
Lemma every_node_ok a : node_ok a.
Proof.
  induction a as [t c|t m IH] using anode_rec'; intros d G s N0 W HQ SZ; rewrite write_node_eq.
  - assert (NG : ~ In d G) by (intros X; destruct (SZ d X) as (A & NA & L); rewrite (Coherent _ _ _ NA N0) in L; lia).
    destruct (digest_in d (w_ids s)) eqn:D.
    + apply digest_in_iff in D. apply (wi_ids _ _ W) in D. destruct D as [D|D]; [destruct (NG D)|]. split; [exact W|]. split; [exact HQ|]. split; [apply incl_refl|exact D].
    + assert (D' : ~ In d (w_ids s)) by (rewrite <- digest_in_iff; congruence).
      pose proof (Qleaf G s d t c N0 W D' HQ) as QL. destruct (write_leaf (begin_node d s) d t c) as [s'|] eqn:E; [|exact QL].
      destruct (leaf_state _ _ _ _ _ E) as [E1 [i E2]]. pose proof (Keyed _ _ N0) as ID. cbn [n_tx] in ID.
      assert (W' : winv G s').
      { apply (winv_add G (begin_node d s) d (mkbtx t (Some i))); [exact (winv_begin _ _ _ W D')|exact NG|exact ID| |discriminate|exact E1|exact E2].
        exists (mkanode t (Confirmed c)). split; [exact N0|]. split; [reflexivity|discriminate]. }
      split; [exact W'|]. split; [exact QL|]. rewrite E2. cbn [ids map begin_node w_txs bt_tx]. fold (ids H (w_txs s)). split; [apply incl_tl, incl_refl|left; exact ID].
  - assert (NG : ~ In d G) by (intros X; destruct (SZ d X) as (A & NA & L); rewrite (Coherent _ _ _ NA N0) in L; lia).
    destruct (digest_in d (w_ids s)) eqn:D.
    + apply digest_in_iff in D. apply (wi_ids _ _ W) in D. destruct D as [D|D]; [destruct (NG D)|]. split; [exact W|]. split; [exact HQ|]. split; [apply incl_refl|exact D].
    + assert (D' : ~ In d (w_ids s)) by (rewrite <- digest_in_iff; congruence).
      assert (SU : submap M m) by (destruct N0 as (s0 & S0 & I0); exact (sub_step M d t s0 m S0 I0)).
      assert (R := nodes_ok m m SU (incl_refl _) (fun k n X => IH k n X) (d :: G) (begin_node d s) (winv_begin _ _ _ W D') (Qbegin d s HQ)).
      assert (SZ' : forall k n, In (k, Some n) m -> forall g, In g (d :: G) -> exists A, node_in M g A /\ (asize n < asize A)%nat).
      { intros k n X g [<-|I0].
        - exists (mkanode t (Antecedents m)). split; [exact N0|exact (asize_in _ _ _ _ X)].
        - destruct (SZ g I0) as (A & NA & L). exists A. split; [exact NA|]. pose proof (asize_in t _ _ _ X). lia. }
      specialize (R SZ'). destruct (write_nodes m (begin_node d s)) as [s2|]; [|exact R]. destruct R as (W2 & Q2 & I2 & D2).
      pose proof (Keyed _ _ N0) as ID. cbn [n_tx] in ID. split.
      * apply (winv_add G s2 d (mkbtx t None)); [exact W2|exact NG|exact ID| | |reflexivity|reflexivity].
        -- exists (mkanode t (Antecedents m)). split; [exact N0|]. split; reflexivity.
        -- intros _ x X. apply D2, get_key. apply (Match _ _ _ N0). apply in_map_iff in X. destruct X as (i & E & I0). exists i. split; [exact I0|exact E].
      * split; [exact (Qnode t s2 Q2)|]. cbn [add_node w_txs ids map bt_tx]. fold (ids H (w_txs s2)). split; [apply incl_tl; exact I2|left; exact ID].
Qed.
Definition all_written (s : wstate) : Prop := winv [] s /\ Q s /\ forall k a, node_in M k a -> In k (ids H (w_txs s)).
Lemma written_closed s : winv [] s -> (forall k, In k (map fst M) -> In k (ids H (w_txs s))) -> forall m, submap M m -> forall k v, In (k, v) m -> In k (ids H (w_txs s)).
Proof.
  intros W TOP m SU. induction SU as [|k t sm m' SU IH I0]; intros k' v X; [apply TOP, in_map_iff; exists (k', v); split; [reflexivity|exact X]|].
  assert (N0 : node_in M k (mkanode t (Antecedents m'))) by (exists sm; split; assumption).
  pose proof (IH _ _ I0) as K. apply in_map_iff in K. destruct K as (u & E & U). destruct (wi_nodes _ _ W u U) as (a & NA & T & P). rewrite E in NA.
  rewrite (Coherent _ _ _ NA N0) in T, P. cbn [n_tx n_proof] in T, P.
  assert (KM : get bytes_eqb m' k' <> None) by (apply get_key, in_map_iff; exists (k', v); split; [reflexivity|exact X]).
  apply (Match _ _ _ N0) in KM. destruct KM as (i & I1 & EI). rewrite T in I1.
  destruct (in_split _ _ (proj1 (in_rev _ _) U)) as (x & y & EX). destruct (wi_earlier _ _ W x u y EX P i I1) as (z & Z & EZ).
  apply in_map_iff. exists z. split; [congruence|]. apply in_rev. rewrite EX. apply in_or_app. left. exact Z.
Qed.
Lemma write_all : Q (mkws [] [] [] []) -> match write_nodes M (mkws [] [] [] []) with Some s => all_written s | None => ~ Works end.
Proof.
  intros Q0. assert (W0 : winv [] (mkws [] [] [] [])).
  { split; cbn [w_ids w_txs ids map rev].
    - intros k. cbn [In]. tauto.
    - constructor.
    - intros x t y E. destruct x; discriminate.
    - intros u [].
    - intros g []. }
  assert (R := nodes_ok M M (sub_refl M) (incl_refl _) (fun k n _ => every_node_ok n) [] _ W0 Q0 (fun k n _ g X => match X with end)).
  destruct (write_nodes M (mkws [] [] [] [])) as [s|]; [|exact R]. destruct R as (W & HQ & _ & D). split; [exact W|]. split; [exact HQ|].
  intros k a (m & SU & I0). exact (written_closed s W D m SU k _ I0).
Qed.
End Writer.

(* ---------------------------------------------------------------- reading what was written *)
Section RoundTrip.
Variable H : bytes -> bytes.
Variable ins : forall A, (A -> N) -> A -> list A -> list A.
Variable dup : option (path -> path -> path).
Variable miss : option path.
Variable by_height : N -> option header.
Notation idof u := (BeefModel.tx_id H (bt_tx u)).
Variable p : aproof.
Hypothesis Keyed : well_keyed H (ap_map p).
Hypothesis Coherent : coherent (ap_map p).
Hypothesis Tight : tight p.
Hypothesis Separate : separate H p.

Definition pays (l : list tx) : list btx := map (fun t => mkbtx t None) l.
Lemma written_list Q s b : all_written H (ap_map p) Q s -> bf_txs b = rev (w_txs s) ++ pays (ap_payment p) ->
  NoDup (ids H (bf_txs b)) /\ supported_by_earlier H (bf_txs b) /\
  (forall u, In u (rev (w_txs s)) -> exists a, node_in (ap_map p) (idof u) a /\ n_tx a = bt_tx u /\
    match n_proof a with Confirmed _ => bt_index u <> None | Antecedents _ => bt_index u = None end).
Proof.
  intros (W & _ & ALL) E. destruct Separate as [ND NI]. destruct Tight as (TOP & _ & _).
  assert (NODES : forall u, In u (rev (w_txs s)) -> exists a, node_in (ap_map p) (idof u) a /\ n_tx a = bt_tx u /\
    match n_proof a with Confirmed _ => bt_index u <> None | Antecedents _ => bt_index u = None end) by (intros u U; apply in_rev in U; exact (wi_nodes _ _ _ _ W u U)).
  assert (IDP : forall l, ids H (pays l) = map (tx_id H) l) by (intros l; unfold ids, pays; rewrite map_map; reflexivity).
  split; [|split; [|exact NODES]].
  - rewrite E, ids_app, IDP. assert (R : NoDup (ids H (rev (w_txs s)))) by (unfold ids; rewrite map_rev; apply NoDup_rev; exact (wi_nodup _ _ _ _ W)).
    assert (DIS : forall x, In x (ids H (rev (w_txs s))) -> ~ In x (map (tx_id H) (ap_payment p))).
    { intros x X Y. apply in_map_iff in X. destruct X as (u & <- & U). destruct (NODES u U) as (a & NA & _). apply in_map_iff in Y. destruct Y as (t & ET & T).
      apply (NI t a T). rewrite ET. exact NA. }
    clear -R ND DIS. induction (ids H (rev (w_txs s))) as [|x l IH]; [exact ND|]. cbn [app]. apply NoDup_cons_iff in R. destruct R as [R1 R2]. constructor.
    + intros X. apply in_app_or in X. destruct X as [X|X]; [exact (R1 X)|]. exact (DIS x (or_introl eq_refl) X).
    + apply IH; [exact R2|]. intros y Y. apply DIS. right. exact Y.
  - rewrite E. assert (GEN : forall l, incl l (ap_payment p) -> supported_by_earlier H (rev (w_txs s) ++ pays l)); [|apply GEN, incl_refl].
    intros l. induction l as [|t l IH] using rev_ind; intros INC; [cbn [pays map]; rewrite app_nil_r; exact (wi_earlier _ _ _ _ W)|].
    unfold pays. rewrite map_app. cbn [map]. rewrite app_assoc. apply earlier_snoc. split; [apply IH; intros x X; apply INC, in_or_app; left; exact X|].
    intros _ d D. cbn [bt_tx] in D. rewrite ids_app. apply in_or_app. left.
    assert (K : get bytes_eqb (ap_map p) d <> None).
    { apply TOP. apply in_map_iff in D. destruct D as (i & EI & I0). exists i. split; [|exact EI]. apply in_concat. exists (tx_inputs t). split; [|exact I0].
      apply in_map, INC, in_or_app. right. left. reflexivity. }
    destruct (get bytes_eqb (ap_map p) d) as [v|] eqn:G; [|congruence]. apply get_In in G. destruct v as [a|].
    + unfold ids. rewrite map_rev, <- in_rev. apply (ALL d a). exists (ap_map p). split; [apply sub_refl|exact G].
    + destruct Tight as (_ & _ & NN). destruct (NN _ _ _ (sub_refl _) G eq_refl).
Qed.

Lemma round_trip_from Q s b : all_written H (ap_map p) Q s -> bf_txs b = rev (w_txs s) ++ pays (ap_payment p) -> faithful H ins dup miss by_height b p ->
  exists q, read_proof H ins dup miss by_height b = Ret q /\ same_proof p q.
Proof.
  intros AW E [PATHS FAITH]. destruct (written_list Q s b AW E) as (ND & SE & NODES). destruct AW as (W & _ & ALL).
  destruct Tight as (TOP & SUB & NN). destruct Separate as [NDP NI].
  assert (LC : forall t i, In t (bf_txs b) -> bt_index t = Some i -> exists c k, node_in (ap_map p) k (mkanode (bt_tx t) (Confirmed c)) /\ leaf_conf H ins dup miss by_height b (bt_tx t) i c).
  { intros u i U K. pose proof U as U0. rewrite E in U. apply in_app_or in U. destruct U as [U|U]; [|apply in_map_iff in U; destruct U as (t & <- & _); discriminate].
    destruct (NODES u U) as (a & NA & T & PA). destruct a as [t q]. cbn [n_tx n_proof] in T, PA. subst t. destruct q as [c|m]; [|congruence]. exists c, (idof u).
    split; [exact NA|]. apply (FAITH _ _ _ _ NA). destruct u as [t k]. cbn [bt_index bt_tx] in *. rewrite K in U0. exact U0. }
  assert (RE : readable H ins dup miss by_height b).
  { split; [exact PATHS|]. split; [exact ND|]. split; [exact SE|]. intros t i T K. destruct (LC t i T K) as (c & k & _ & C). exists c. exact C. }
  destruct (read_complete H ins dup miss by_height b RE) as (q & st & R & OK). exists q. split; [exact R|]. pose proof (ok_inv _ _ _ _ _ _ _ _ OK) as I0.
  (* unproven transactions that are antecedents are spent, payments are not *)
  assert (KEYIN : forall k, (exists a, node_in (ap_map p) k a) <-> In k (ids H (rev (w_txs s)))).
  { intros k. split; [intros [a NA]; unfold ids; rewrite map_rev, <- in_rev; exact (ALL k a NA)|]. intros X. apply in_map_iff in X. destruct X as (u & <- & U).
    destruct (NODES u U) as (a & NA & _). exists a. exact NA. }
  assert (INSIDE : forall k m t, get bytes_eqb m k <> None -> submap (ap_map p) m -> t = k -> exists a, node_in (ap_map p) k a).
  { intros k m _ G SU _. destruct (get bytes_eqb m k) as [v|] eqn:X; [|congruence]. apply get_In in X. destruct v as [a|]; [|destruct (NN _ _ _ SU X eq_refl)].
    exists a. exists m. split; assumption. }
  assert (SPENT : forall d, spent_in (bf_txs b) d = true <-> exists a, node_in (ap_map p) d a).
  { intros d. rewrite spent_true. split.
    - intros (u & U & UP & D). rewrite E in U. apply in_app_or in U. destruct U as [U|U].
      + destruct (NODES u U) as (a & NA & T & PA). unfold unproven in UP. destruct (bt_index u) eqn:K; [discriminate|]. destruct a as [t pr]. cbn [n_tx n_proof] in T, PA.
        destruct pr as [c|m]; [congruence|]. apply (INSIDE d m d); [|destruct NA as (sm & S1 & X); exact (sub_step _ _ _ _ _ S1 X)|reflexivity].
        apply (SUB _ _ _ NA). subst t. apply in_map_iff in D. destruct D as (i & EI & II). exists i. split; assumption.
      + apply in_map_iff in U. destruct U as (t & <- & T). cbn [bt_tx] in D. apply (INSIDE d (ap_map p) d); [|apply sub_refl|reflexivity].
        apply TOP. apply in_map_iff in D. destruct D as (i & EI & II). exists i. split; [|exact EI]. apply in_concat. exists (tx_inputs t). split; [apply in_map; exact T|exact II].
    - intros [a (m & SU & X)]. destruct SU as [|k t sm m' SU Y].
      + assert (K : get bytes_eqb (ap_map p) d <> None) by (apply get_key, in_map_iff; exists (d, Some a); split; [reflexivity|exact X]).
        apply TOP in K. destruct K as (i & II & EI). apply in_concat in II. destruct II as (l & L & II). apply in_map_iff in L. destruct L as (t & <- & T).
        exists (mkbtx t None). split; [rewrite E; apply in_or_app; right; apply in_map_iff; exists t; split; [reflexivity|exact T]|]. split; [reflexivity|].
        apply in_map_iff. exists i. split; assumption.
      + assert (NA : node_in (ap_map p) k (mkanode t (Antecedents m'))) by (exists sm; split; assumption).
        assert (K : get bytes_eqb m' d <> None) by (apply get_key, in_map_iff; exists (d, Some a); split; [reflexivity|exact X]).
        apply (SUB _ _ _ NA) in K. destruct K as (i & II & EI). pose proof (ALL _ _ NA) as KI. apply in_map_iff in KI. destruct KI as (u & EU & U).
        apply in_rev in U. destruct (NODES u U) as (a' & NA' & T & PA). rewrite EU in NA'. rewrite (Coherent _ _ _ NA' NA) in T, PA. cbn [n_tx n_proof] in T, PA.
        exists u. split; [rewrite E; apply in_or_app; left; exact U|]. split; [unfold unproven; rewrite PA; reflexivity|]. apply in_map_iff. exists i. split; [exact EI|congruence]. }
  assert (PAYF : forall t, In t (ap_payment p) -> spent_in (bf_txs b) (tx_id H t) = false).
  { intros t T. destruct (spent_in (bf_txs b) (tx_id H t)) eqn:X; [|reflexivity]. apply SPENT in X. destruct X as [a NA]. destruct (NI t a T NA). }
  assert (PAYMENT : payments H b = ap_payment p).
  { unfold payments. assert (FA : forall f, filter f (bf_txs b) = filter f (rev (w_txs s)) ++ filter f (pays (ap_payment p))) by (intros f; rewrite E; apply filter_app).
    rewrite FA, map_app.
    assert (F1 : filter (fun t : btx => match bt_index t with Some _ => false | None => negb (spent_in (bf_txs b) (idof t)) end) (rev (w_txs s)) = []).
    { assert (GEN : forall l, incl l (rev (w_txs s)) -> filter (fun t : btx => match bt_index t with Some _ => false | None => negb (spent_in (bf_txs b) (idof t)) end) l = []); [|apply GEN, incl_refl].
      induction l as [|u l IH]; intros INC; [reflexivity|]. cbn [filter]. specialize (IH (fun x X => INC x (or_intror X))).
      destruct (bt_index u) eqn:K; [exact IH|]. assert (X : spent_in (bf_txs b) (idof u) = true) by (apply SPENT; destruct (NODES u (INC u (or_introl eq_refl))) as (a & NA & _); exists a; exact NA).
      rewrite X. exact IH. }
    rewrite F1. cbn [map app].
    assert (GEN : forall l, incl l (ap_payment p) -> map bt_tx (filter (fun t : btx => match bt_index t with Some _ => false | None => negb (spent_in (bf_txs b) (idof t)) end) (pays l)) = l); [|apply GEN, incl_refl].
    induction l as [|t l IH]; intros INC; [reflexivity|]. cbn [pays map filter bt_index bt_tx]. rewrite (PAYF t (INC t (or_introl eq_refl))). cbn [negb map bt_tx]. fold (pays l).
    rewrite IH by (intros x X; apply INC; right; exact X). reflexivity. }
  assert (SAME : forall a k, node_in (ap_map p) k a -> exists a', get bytes_eqb (r_nodes st) k = Some (Some a') /\ same_node a a').
  { intros a. induction a as [t c|t m IH] using anode_rec'; intros k NA.
    - pose proof (ALL _ _ NA) as KI. apply in_map_iff in KI. destruct KI as (u & EU & U). apply in_rev in U. destruct (NODES u U) as (a' & NA' & T & PA).
      rewrite EU in NA'. rewrite (Coherent _ _ _ NA' NA) in T, PA. cbn [n_tx n_proof] in T, PA.
      assert (U' : In u (bf_txs b)) by (rewrite E; apply in_or_app; left; exact U).
      destruct (inv_nodes _ _ _ _ _ _ _ _ I0 u U') as (x & G & TX & PX). rewrite EU in G. exists x. split; [exact G|].
      destruct (bt_index u) as [i|] eqn:K; [|congruence]. destruct PX as (c' & PX & LX). destruct x as [t' q']. cbn [n_tx n_proof] in TX, PX. subst t' q'.
      assert (FC : leaf_conf H ins dup miss by_height b t i c).
      { apply (FAITH _ _ _ _ NA). destruct u as [t2 k2]. cbn [bt_index bt_tx] in *. subst. exact U'. }
      rewrite T in FC. rewrite (leaf_conf_unique _ _ _ _ _ _ _ _ _ _ LX FC). rewrite <- T. apply same_conf.
    - pose proof (ALL _ _ NA) as KI. apply in_map_iff in KI. destruct KI as (u & EU & U). apply in_rev in U. destruct (NODES u U) as (a' & NA' & T & PA).
      rewrite EU in NA'. rewrite (Coherent _ _ _ NA' NA) in T, PA. cbn [n_tx n_proof] in T, PA.
      assert (U' : In u (bf_txs b)) by (rewrite E; apply in_or_app; left; exact U).
      destruct (inv_nodes _ _ _ _ _ _ _ _ I0 u U') as (x & G & TX & PX). rewrite EU in G. exists x. split; [exact G|].
      rewrite PA in PX. destruct PX as (m' & PX & AN & AK). destruct x as [t' q']. cbn [n_tx n_proof] in TX, PX. subst t' q'. rewrite <- T in *. apply same_tree.
      + intros k' n GN. assert (KM : get bytes_eqb m k' <> None) by congruence. apply (SUB _ _ _ NA) in KM. destruct KM as (i & II & EI).
        assert (SM : submap (ap_map p) m) by (destruct NA as (sm & S1 & X); exact (sub_step _ _ _ _ _ S1 X)).
        destruct (IH k' n (get_In _ _ _ GN) k') as (n' & GN' & SN); [exists m; split; [exact SM|exact (get_In _ _ _ GN)]|].
        exists n'. split; [|exact SN]. rewrite (proj1 (AN k' ltac:(rewrite <- EI; exact (digs_In _ _ II)))). exact GN'.
      + intros k' GN. destruct (get bytes_eqb m' k') as [v|] eqn:X; [|congruence]. apply (SUB _ _ _ NA). destruct (AK k' v (get_In _ _ _ X)) as [_ D].
        apply in_map_iff in D. destruct D as (i & EI & II). exists i. split; assumption. }
  assert (UPAY : forall u, In u (bf_txs b) -> unproven u = true -> spent_in (bf_txs b) (idof u) = false -> In (bt_tx u) (ap_payment p)).
  { intros u U UP SP. rewrite <- PAYMENT. unfold payments. apply in_map, filter_In. split; [exact U|]. unfold unproven in UP. destruct (bt_index u); [discriminate|]. rewrite SP. reflexivity. }
  split; [rewrite (ok_payment _ _ _ _ _ _ _ _ OK); symmetry; exact PAYMENT|]. split.
  - intros k a G. destruct (SAME a k) as (a' & G' & SN); [exists (ap_map p); split; [apply sub_refl|exact (get_In _ _ _ G)]|]. exists a'. split; [|exact SN].
    assert (K : get bytes_eqb (ap_map p) k <> None) by congruence. apply TOP in K. destruct K as (i & II & EI). apply in_concat in II. destruct II as (l & L & II).
    apply in_map_iff in L. destruct L as (t & <- & T).
    rewrite (ok_covers _ _ _ _ _ _ _ _ OK (mkbtx t None)); [exact G'| |reflexivity|exact (PAYF t T)|rewrite <- EI; exact (digs_In _ _ II)].
    rewrite E. apply in_or_app. right. apply in_map_iff. exists t. split; [reflexivity|exact T].
  - intros k G. destruct (get bytes_eqb (ap_map q) k) as [v|] eqn:X; [|congruence].
    destruct (ok_keys _ _ _ _ _ _ _ _ OK k v (get_In _ _ _ X)) as (u & U & UP & SP & D). apply TOP. apply in_map_iff in D. destruct D as (i & EI & II). exists i. split; [|exact EI].
    apply in_concat. exists (tx_inputs (bt_tx u)). split; [apply in_map; exact (UPAY u U UP SP)|exact II].
Qed.

Lemma written_txs s : rev (rev (map (fun t => mkbtx t None) (ap_payment p)) ++ w_txs s) = rev (w_txs s) ++ pays (ap_payment p).
Proof. rewrite rev_app_distr, rev_involutive. reflexivity. Qed.
Theorem round_trip b : write_proof ins p = Some b -> faithful H ins dup miss by_height b p -> exists q, read_proof H ins dup miss by_height b = Ret q /\ same_proof p q.
Proof.
  unfold write_proof. destruct Tight as (_ & SUB & NN).
  pose proof (write_all H ins (ap_map p) Keyed Coherent SUB NN (fun _ => True) False) as WA.
  assert (QL : forall G s d t c, node_in (ap_map p) d (mkanode t (Confirmed c)) -> winv H (ap_map p) G s -> ~ In d (w_ids s) -> (fun _ : wstate => True) s ->
    match write_leaf ins (begin_node d s) d t c with Some s' => (fun _ : wstate => True) s' | None => ~ False end)
    by (intros G s d t c _ _ _ _; destruct (write_leaf ins (begin_node d s) d t c); [exact Logic.I|intros []]).
  pose proof (WA QL (fun _ _ _ => Logic.I) (fun _ _ _ => Logic.I) Logic.I) as WA'. clear QL WA.
  destruct (write_nodes ins (ap_map p) (mkws [] [] [] [])) as [s|]; [|discriminate]. rewrite written_txs. intros E F.
  apply (round_trip_from (fun _ => True) s b WA'); [|exact F]. assert (X : forall x y : beef, Some x = Some y -> y = x) by congruence. rewrite (X _ _ E). reflexivity.
Qed.
Theorem written_order b : write_proof ins p = Some b -> NoDup (ids H (bf_txs b)) /\ supported_by_earlier H (bf_txs b) /\
  (forall k a, node_in (ap_map p) k a -> exists u, In u (bf_txs b) /\ bt_tx u = n_tx a) /\ (forall t, In t (ap_payment p) -> In (mkbtx t None) (bf_txs b)) /\
  (forall u, In u (bf_txs b) -> u = mkbtx (bt_tx u) None /\ In (bt_tx u) (ap_payment p) \/ exists a, node_in (ap_map p) (idof u) a /\ n_tx a = bt_tx u /\
     match n_proof a with Confirmed _ => bt_index u <> None | Antecedents _ => bt_index u = None end).
Proof.
  unfold write_proof. destruct Tight as (_ & SUB & NN).
  pose proof (write_all H ins (ap_map p) Keyed Coherent SUB NN (fun _ => True) False) as WA.
  assert (QL : forall G s d t c, node_in (ap_map p) d (mkanode t (Confirmed c)) -> winv H (ap_map p) G s -> ~ In d (w_ids s) -> (fun _ : wstate => True) s ->
    match write_leaf ins (begin_node d s) d t c with Some s' => (fun _ : wstate => True) s' | None => ~ False end)
    by (intros G s d t c _ _ _ _; destruct (write_leaf ins (begin_node d s) d t c); [exact Logic.I|intros []]).
  pose proof (WA QL (fun _ _ _ => Logic.I) (fun _ _ _ => Logic.I) Logic.I) as WA'. clear QL WA.
  destruct (write_nodes ins (ap_map p) (mkws [] [] [] [])) as [s|]; [|discriminate]. rewrite written_txs. intros E.
  assert (X : forall x y : beef, Some x = Some y -> y = x) by congruence. apply X in E.
  assert (E' : bf_txs b = rev (w_txs s) ++ pays (ap_payment p)) by (rewrite E; reflexivity).
  destruct (written_list (fun _ => True) s b WA' E') as (ND & SE & NODES). split; [exact ND|]. split; [exact SE|]. rewrite E'. destruct WA' as (W & _ & ALL). split; [|split].
  - intros k a NA. pose proof (ALL _ _ NA) as KI. apply in_map_iff in KI. destruct KI as (u & EU & U). apply in_rev in U. exists u. split; [apply in_or_app; left; exact U|].
    destruct (NODES u U) as (a' & NA' & T & _). rewrite EU in NA'. rewrite (Coherent _ _ _ NA' NA) in T. congruence.
  - intros t T. apply in_or_app. right. apply in_map_iff. exists t. split; [reflexivity|exact T].
  - intros u U. apply in_app_or in U. destruct U as [U|U]; [right; exact (NODES u U)|]. left. apply in_map_iff in U. destruct U as (t & <- & T). split; [reflexivity|exact T].
Qed.

(* ---------------------------------------------------------------- one transaction for each block *)
Hypothesis Ord : BumpSpec.ordered_insert ins.
Hypothesis Lone : lone_confirmations by_height p.
Definition lone_bump (k : bytes) (c : confirmation) : bump := bump_of_branch ins (w64 (c_height c)) (path_branch (k, c_path c)).
Record linv (s : wstate) : Prop := mklinv {
  li_roots : forall r, get bytes_eqb (w_roots s) r <> None -> exists k t c, node_in (ap_map p) k (mkanode t (Confirmed c)) /\ h_merkle_root (c_header c) = r /\ In k (ids H (w_txs s));
  li_txs : forall u i, In u (w_txs s) -> bt_index u = Some i -> exists c, node_in (ap_map p) (idof u) (mkanode (bt_tx u) (Confirmed c)) /\
    nth_error (w_bumps s) (N.to_nat i) = Some (lone_bump (idof u) c);
  li_bumps : forall x, In x (w_bumps s) -> exists k t c, node_in (ap_map p) k (mkanode t (Confirmed c)) /\ x = lone_bump k c }.
Lemma lone_leaf G s d t c : node_in (ap_map p) d (mkanode t (Confirmed c)) -> winv H (ap_map p) G s -> ~ In d (w_ids s) -> linv s ->
  match write_leaf ins (begin_node d s) d t c with Some s' => linv s' | None => ~ True end.
Proof.
  intros NA W NI [LR LT LB]. unfold write_leaf. cbn [begin_node w_ids w_roots w_bumps w_txs]. pose proof (Keyed _ _ NA) as ID. cbn [n_tx] in ID.
  destruct (get bytes_eqb (w_roots s) (h_merkle_root (c_header c))) as [i|] eqn:G0.
  - exfalso. destruct (LR (h_merkle_root (c_header c))) as (k & t' & c' & NA' & R & K); [congruence|]. rewrite (proj2 Lone _ _ _ _ _ _ NA' NA R) in K. apply NI, (wi_ids _ _ _ _ W). right. exact K.
  - split; cbn [w_ids w_roots w_bumps w_txs].
    + intros r R. cbn [get] in R. cbn [ids map bt_tx]. fold (ids H (w_txs s)). destruct (bytes_eqb r (h_merkle_root (c_header c))) eqn:B.
      * apply bytes_eqb_eq in B. exists d, t, c. split; [exact NA|]. split; [congruence|left; exact ID].
      * destruct (LR r R) as (k & t' & c' & X & Y & Z). exists k, t', c'. split; [exact X|]. split; [exact Y|right; exact Z].
    + intros u i [<-|U] K.
      * cbn [bt_index bt_tx] in *. assert (i = N.of_nat (length (w_bumps s))) as -> by congruence. exists c. rewrite ID. split; [exact NA|]. rewrite Nat2N.id, nth_error_app2, Nat.sub_diag by lia. reflexivity.
      * destruct (LT u i U K) as (c' & X & Y). exists c'. split; [exact X|]. rewrite nth_error_app1; [exact Y|]. apply nth_error_Some. congruence.
    + intros x X. apply in_app_or in X. destruct X as [X|[<-|[]]]; [exact (LB x X)|]. exists d, t, c. split; [exact NA|reflexivity].
Qed.
Lemma lone_paths k t c : node_in (ap_map p) k (mkanode t (Confirmed c)) -> bump_paths H ins dup (lone_bump k c) = Some [(k, c_path c)].
Proof.
  intros NA. destruct (proj1 Lone _ _ _ NA) as (I1 & NE & EX & _). unfold lone_bump.
  rewrite (BumpBranchProofs.paths_of_branch H ins Ord dup); cbn [path_branch b_leaf b_digests l_index l_digest fst snd].
  - rewrite BumpBranchProofs.written_out_explicit by exact EX. destruct (c_path c) as [i ds]. reflexivity.
  - exact I1.
  - exact NE.
  - assert (GEN : forall ds i, Forall (fun d => d <> None) ds -> BumpSpec.implicit_right i ds).
    { induction ds as [|m ds IH]; intros i F; [exact Logic.I|]. apply Forall_cons_iff in F. destruct F as [F1 F2]. split; [intros E; destruct (F1 E)|exact (IH _ F2)]. }
    exact (GEN _ _ EX).
Qed.
Theorem round_trip_lone : exists b q, write_proof ins p = Some b /\ read_proof H ins dup miss by_height b = Ret q /\ same_proof p q.
Proof.
  unfold write_proof. destruct Tight as (TOP & SUB & NN).
  assert (L0 : linv (mkws [] [] [] [])) by (split; cbn [w_roots w_txs w_bumps get]; [intros r R; destruct (R eq_refl)|intros u i []|intros x []]).
  assert (WA := write_all H ins (ap_map p) Keyed Coherent SUB NN linv True lone_leaf).
  assert (QB : forall d s, linv s -> linv (begin_node d s)) by (intros d s [A B C]; split; assumption).
  assert (QN : forall t s, linv s -> linv (add_node t s)).
  { intros t s [A B C]. split; cbn [add_node w_roots w_txs w_bumps].
    - intros r R. destruct (A r R) as (k & t' & c & X & Y & Z). exists k, t', c. split; [exact X|]. split; [exact Y|right; exact Z].
    - intros u i [<-|U] K; [discriminate|exact (B u i U K)].
    - exact C. }
  specialize (WA QB QN L0). destruct (write_nodes ins (ap_map p) (mkws [] [] [] [])) as [s|]; [|destruct (WA Logic.I)]. rewrite written_txs.
  set (b := mkbeef beef_version_1 (w_bumps s) (rev (w_txs s) ++ pays (ap_payment p))). exists b.
  assert (F : faithful H ins dup miss by_height b p).
  { destruct WA as (W & [LR LT LB] & ALL). split.
    - intros x X. destruct (LB x X) as (k & t & c & NA & ->). eexists. exact (lone_paths k t c NA).
    - intros k t c i NA U. cbn [b bf_txs] in U. apply in_app_or in U. destruct U as [U|U]; [|apply in_map_iff in U; destruct U as (t' & Y & _); discriminate].
      apply in_rev in U. destruct (LT _ i U eq_refl) as (c' & NA' & NB). cbn [bt_tx] in NA', NB. pose proof (Keyed _ _ NA) as ID. cbn [n_tx] in ID. rewrite ID in NA', NB.
      assert (c' = c) as -> by (pose proof (Coherent _ _ _ NA' NA); congruence).
      destruct (proj1 Lone _ _ _ NA) as (_ & _ & _ & HB & BH). assert (HW : bp_height (lone_bump k c) = c_height c) by (unfold lone_bump, bump_of_branch; cbn [bp_height]; unfold w64; apply N.mod_small; exact HB).
      exists (lone_bump k c), [(k, c_path c)], (c_header c), (c_path c). split; [exact NB|]. split; [exact (lone_paths k t c NA)|]. rewrite HW. split; [exact BH|]. split.
      + left. rewrite ID. cbn [get]. rewrite (proj2 (bytes_eqb_eq k k) eq_refl). reflexivity.
      + destruct c. reflexivity. }
  destruct (round_trip_from linv s b WA eq_refl F) as (q & R & SP). exists q. split; [reflexivity|]. split; assumption.
Qed.
End RoundTrip.

(* ---------------------------------------------------------------- generated proofs *)
Section Generated.
Variable keep : bool.
Variable look : bytes -> dbtx.
Definition spent_from (k : bytes) (l : list input) : Prop := exists i, In i l /\ op_digest (in_ref i) = k.
Lemma insert_keys m k v j : In j (map fst (amap_insert keep m k v)) -> In j (map fst m) \/ j = k.
Proof.
  intros I0. apply in_map_iff in I0. destruct I0 as ([j' v'] & <- & I0). apply amap_insert_In in I0. destruct I0 as [I0|[-> _]]; [left|right; reflexivity].
  apply in_map_iff. exists (j', v'). split; [reflexivity|exact I0].
Qed.
Lemma inputs_keys g l : forall m m', generate_inputs keep g m l = Done (Some m') -> forall k, In k (map fst m') -> In k (map fst m) \/ spent_from k l.
Proof.
  induction l as [|i l IH]; intros m m' E k K; cbn [generate_inputs] in E; [left; congruence|].
  destruct (g (op_digest (in_ref i))) as [[n|]| |]; try discriminate. destruct (IH _ _ E k K) as [X|(j & J & EJ)].
  - apply insert_keys in X. destruct X as [X| ->]; [left; exact X|right]. exists i. split; [left; reflexivity|reflexivity].
  - right. exists j. split; [right; exact J|exact EJ].
Qed.
Lemma missing_keys f l : forall m m', generate_missing keep look f m l = Done (Some m') -> forall k, In k (map fst m') -> In k (map fst m) \/ spent_from k l.
Proof.
  induction l as [|i l IH]; intros m m' E k K; cbn [generate_missing] in E; [left; congruence|].
  assert (UP : spent_from k l -> spent_from k (i :: l)) by (intros (j & J & EJ); exists j; split; [right; exact J|exact EJ]).
  destruct (get bytes_eqb m (op_digest (in_ref i))).
  - destruct (IH _ _ E k K) as [X|X]; [left; exact X|right; exact (UP X)].
  - destruct (generate_node keep look f (op_digest (in_ref i))) as [[n|]| |]; try discriminate. destruct (IH _ _ E k K) as [X|X]; [|right; exact (UP X)].
    apply insert_keys in X. destruct X as [X| ->]; [left; exact X|right]. exists i. split; [left; reflexivity|reflexivity].
Qed.
Lemma from_keys H f l : forall p p', generate_from keep look H f p l = Done (Some p') -> forall k, In k (map fst (ap_map p')) -> In k (map fst (ap_map p)) \/ exists t, In t l /\ spent_from k (tx_inputs t).
Proof.
  induction l as [|t l IH]; intros p p' E k K; cbn [generate_from] in E; [left; congruence|].
  destruct (dbtx_confirmed (look (tx_id H t))); [discriminate|]. destruct (generate_missing keep look f (ap_map p) (tx_inputs t)) as [[m|]| |] eqn:E0; try discriminate.
  destruct (IH _ _ E k K) as [X|(u & U & X)].
  - cbn [ap_map] in X. destruct (missing_keys _ _ _ _ E0 k X) as [Y|Y]; [left; exact Y|right]. exists t. split; [left; reflexivity|exact Y].
  - right. exists u. split; [right; exact U|exact X].
Qed.
Lemma built_keys x t m : built keep look x (mkanode t (Antecedents m)) -> forall k, In k (map fst m) -> spent_from k (tx_inputs t).
Proof.
  intros [[|f] E]; [discriminate|]. cbn [generate_node] in E. cbv zeta in E. destruct (x_tx (look x)) as [u|]; [|discriminate].
  destruct (dbtx_confirmed (look x)); [congruence|]. destruct (generate_inputs keep (generate_node keep look f) [] (tx_inputs u)) as [[m2|]| |] eqn:E0; try discriminate.
  intros k K. assert (u = t /\ m2 = m) as [-> ->] by (split; congruence). destruct (inputs_keys _ _ _ _ E0 k K) as [[]|X]. exact X.
Qed.
Theorem generated_tight H f payment p : generate_proof keep look H f payment = Done (Some p) -> tight p.
Proof.
  intros E. pose proof E as E0. apply generate_from_inv in E; [|intros k v []]. destruct E as (G & P & _ & C). cbn [ap_payment empty_proof] in P. rewrite app_nil_r in P. split; [|split].
  - intros k. rewrite get_key. split.
    + intros K. destruct (from_keys _ _ _ _ _ E0 k K) as [[]|(t & T & i & I0 & EI)]. exists i. split; [|exact EI]. rewrite P. apply in_concat. exists (tx_inputs t). split; [|exact I0].
      apply in_map, in_rev. rewrite rev_involutive. exact T.
    + intros (i & I0 & <-). rewrite P in I0. apply in_concat in I0. destruct I0 as (l & L & I0). apply in_map_iff in L. destruct L as (t & <- & T). apply in_rev in T.
      destruct (proj2 (C t T) i I0) as (n & X & _). apply get_key. congruence.
  - intros k t m NA k'. pose proof (gmap_built _ _ _ _ _ G NA) as B. rewrite get_key. split; [exact (built_keys k t m B k')|].
    intros (i & I0 & <-). apply built_inv in B. destruct B as [_ [[_ X]|[_ (m2 & X & _ & CV)]]]; cbn [n_proof n_tx] in *; [discriminate|]. assert (m2 = m) as -> by congruence.
    destruct (CV i I0) as (n & Y & _). apply get_key. congruence.
  - intros s k v SU I0. destruct (gmap_sub _ _ _ _ SU G k v I0) as (n & -> & _). discriminate.
Qed.
End Generated.

(* ---------------------------------------------------------------- the same proof is as good *)
Section Same.
Variable H : bytes -> bytes.
Variable ovf : Z -> Z.
Variable eval : bool -> bytes -> bytes -> itx -> N -> Z -> bool.
Variable known : bytes -> bool.
Variable upgrade : time_limit.
Lemma same_facts a b : same_node a b -> n_tx a = n_tx b /\ time_of a = time_of b.
Proof. intros [t c|t m m' _ _]; split; reflexivity. Qed.
Lemma same_stands a : forall b, same_node a b -> stands H ovf eval known upgrade a -> stands H ovf eval known upgrade b.
Proof.
  induction a as [t c|t m IH] using anode_rec'; intros b SN ST.
  - inversion SN; subst. exact ST.
  - inversion SN as [|t0 m0 m' FW BW]; subst. inversion ST as [|t1 m1 SP]; subst. inversion SP as [t2 m2 os L F A]; subst. constructor. exists os; [exact L|exact F|].
    intros n i X. destruct (A n i X) as (a & o & O & G & S0 & U). destruct (FW _ _ G) as (b' & G' & SB). exists b', o. split; [exact O|]. split; [exact G'|].
    split; [exact (IH _ _ (get_In _ _ _ G) _ SB S0)|]. destruct (same_facts _ _ SB) as [<- <-]. exact U.
Qed.
Lemma same_stands_back M a : (forall s k v, submap M s -> In (k, v) s -> v <> None) -> forall k b, node_in M k a -> same_node a b -> stands H ovf eval known upgrade b -> stands H ovf eval known upgrade a.
Proof.
  intros NN. induction a as [t c|t m IH] using anode_rec'; intros k b NA SN ST.
  - inversion SN; subst. exact ST.
  - assert (SU : submap M m) by (destruct NA as (sm & S1 & X); exact (sub_step _ _ _ _ _ S1 X)).
    inversion SN as [|t0 m0 m' FW BW]; subst. inversion ST as [|t1 m1 SP]; subst. inversion SP as [t2 m2 os L F A]; subst. constructor. exists os; [exact L|exact F|].
    intros n i X. destruct (A n i X) as (b & o & O & G & S0 & U). destruct (get bytes_eqb m (op_digest (in_ref i))) as [v|] eqn:GM; [|destruct (BW (op_digest (in_ref i))); congruence].
    destruct v as [a'|]; [|destruct (NN _ _ _ SU (get_In _ _ _ GM) eq_refl)]. destruct (FW _ _ GM) as (b' & G' & SB). assert (b' = b) as -> by congruence.
    exists a', o. split; [exact O|]. split; [reflexivity|]. split.
    + apply (IH _ _ (get_In _ _ _ GM) (op_digest (in_ref i)) b); [exists m; split; [exact SU|exact (get_In _ _ _ GM)]|exact SB|exact S0].
    + destruct (same_facts _ _ SB) as [-> ->]. exact U.
Qed.
Theorem same_validates unset p q : limit_gt upgrade unset = false -> coherent (ap_map p) -> coherent (ap_map q) -> tight p -> same_proof p q ->
  (validate H ovf eval known unset upgrade p = Done true <-> validate H ovf eval known unset upgrade q = Done true).
Proof.
  intros LG CP CQ (_ & _ & NN) (EP & FW & BW). rewrite (validate_exact H ovf eval known unset upgrade p CP LG), (validate_exact H ovf eval known unset upgrade q CQ LG), EP.
  assert (X : forall t, spends H ovf eval known upgrade t (ap_map p) <-> spends H ovf eval known upgrade t (ap_map q)).
  { intros t. split; intros SP; inversion SP as [t2 m2 os L F A]; subst; exists os; try exact L; try exact F; intros n i I0.
    - destruct (A n i I0) as (a & o & O & G & S0 & U). destruct (FW _ _ G) as (b' & G' & SB). exists b', o. split; [exact O|]. split; [exact G'|].
      split; [exact (same_stands _ _ SB S0)|]. destruct (same_facts _ _ SB) as [<- <-]. exact U.
    - destruct (A n i I0) as (b & o & O & G & S0 & U). destruct (get bytes_eqb (ap_map p) (op_digest (in_ref i))) as [v|] eqn:GM; [|destruct (BW (op_digest (in_ref i))); congruence].
      destruct v as [a'|]; [|destruct (NN _ _ _ (sub_refl _) (get_In _ _ _ GM) eq_refl)]. destruct (FW _ _ GM) as (b' & G' & SB). assert (b' = b) as -> by congruence.
      exists a', o. split; [exact O|]. split; [reflexivity|]. split.
      + apply (same_stands_back (ap_map p) a' NN (op_digest (in_ref i)) b); [exists (ap_map p); split; [apply sub_refl|exact (get_In _ _ _ GM)]|exact SB|exact S0].
      + destruct (same_facts _ _ SB) as [-> ->]. exact U. }
  split; intros [ND A]; (split; [exact ND|]); intros t T; apply X; exact (A t T).
Qed.
End Same.
Theorem read_coherent H ins dup miss by_height b p : read_proof H ins dup miss by_height b = Ret p -> coherent (ap_map p) /\ well_keyed H (ap_map p).
Proof.
  intros R. destruct (read_cases _ _ _ _ _ _ _ R) as [[-> _]|[s OK]].
  - assert (E : forall m, submap (ap_map empty_proof) m -> m = []).
    { intros m SU. induction SU as [|k t s m' SU IH I0]; [reflexivity|]. subst s. destruct I0. }
    split; [intros k a b0 (m & SU & I0) _|intros k a (m & SU & I0)]; rewrite (E _ SU) in I0; destruct I0.
  - split; [exact (ok_coherent _ _ _ _ _ _ _ _ OK)|exact (ok_keyed _ _ _ _ _ _ _ _ OK)].
Qed.
Theorem round_trip_validates H ins dup miss by_height ovf eval known upgrade unset p : limit_gt upgrade unset = false ->
  well_keyed H (ap_map p) -> coherent (ap_map p) -> tight p -> separate H p -> BumpSpec.ordered_insert ins -> lone_confirmations by_height p ->
  exists b q, write_proof ins p = Some b /\ read_proof H ins dup miss by_height b = Ret q /\ ap_payment q = ap_payment p /\
    (validate H ovf eval known unset upgrade q = Done true <-> validate H ovf eval known unset upgrade p = Done true).
Proof.
  intros LG K C T SE O L. destruct (round_trip_lone H ins dup miss by_height p K C T SE O L) as (b & q & W & R & SP). exists b, q. split; [exact W|]. split; [exact R|].
  split; [symmetry; exact (proj1 SP)|]. symmetry. exact (same_validates H ovf eval known upgrade unset p q LG C (proj1 (read_coherent _ _ _ _ _ _ _ R)) T SP).
Qed.
