(* Generation of SPV proofs. *)
From Coq Require Import Lia ZifyBool ZifyNat ZifyN.
From Verif Require Import Base BaseProofs WireModel MerkleModel WorkModel SighashModel BeefModel ExtModel SpvModel SpvProofs AncModel AncSpec AncProofs.
Local Open Scope N_scope.

Lemma get_app (m : amap) k v j : get bytes_eqb (m ++ [(k, v)]) j =
  match get bytes_eqb m j with Some w => Some w | None => if bytes_eqb j k then Some v else None end.
Proof.
  induction m as [|[k' v'] m IH]; cbn [app get]; [reflexivity|]. destruct (bytes_eqb j k'); [reflexivity|exact IH].
Qed.
Lemma amap_insert_In keep m k v k' v' : In (k', v') (amap_insert keep m k v) -> In (k', v') m \/ (k' = k /\ v' = v).
Proof.
  unfold amap_insert. destruct (get bytes_eqb m k) as [w|].
  - destruct keep; [tauto|]. intros I0. apply in_map_iff in I0. destruct I0 as ([j u] & E & I0). cbn [fst] in E. destruct (bytes_eqb k j).
    + right. split; congruence.
    + left. congruence.
  - intros I0. apply in_app_or in I0. destruct I0 as [I0|[E|[]]]; [left; exact I0|right; split; congruence].
Qed.
Lemma amap_insert_key keep m k v j : (get bytes_eqb m j <> None \/ j = k) -> get bytes_eqb (amap_insert keep m k v) j <> None.
Proof.
  unfold amap_insert. destruct (get bytes_eqb m k) as [w|] eqn:E.
  - intros J. assert (J' : get bytes_eqb m j <> None) by (destruct J as [J| ->]; congruence). destruct keep; [exact J'|].
    clear E J. induction m as [|[k' v'] m IH]; [exact J'|]. cbn [map fst]. cbn [get] in J'. destruct (bytes_eqb k k') eqn:K; cbn [get].
    + apply bytes_eqb_eq in K. subst k'. destruct (bytes_eqb j k); [discriminate|exact (IH J')].
    + destruct (bytes_eqb j k'); [discriminate|exact (IH J')].
  - intros J. rewrite get_app. destruct (get bytes_eqb m j); [discriminate|]. destruct J as [J| ->]; [congruence|].
    rewrite (proj2 (bytes_eqb_eq k k) eq_refl). discriminate.
Qed.

Section Gen.
Variable keep : bool.
Variable look : bytes -> dbtx.
Notation generate_inputs := (generate_inputs keep).
Notation generate_node := (generate_node keep look).
Notation generate_missing := (generate_missing keep look).

Lemma generate_inputs_mono (g g' : bytes -> run (option anode)) : (forall x r, g x = Done r -> g' x = Done r) ->
  forall l m r, generate_inputs g m l = Done r -> generate_inputs g' m l = Done r.
Proof.
  intros G. induction l as [|i l IH]; intros m r E; cbn [AncModel.generate_inputs] in *; [exact E|].
  destruct (g (op_digest (in_ref i))) as [[n|]| |] eqn:E0; try discriminate; rewrite (G _ _ E0); [exact (IH _ _ E)|exact E].
Qed.
Lemma generate_mono f : forall x r, generate_node f x = Done r -> generate_node (Datatypes.S f) x = Done r.
Proof.
  induction f as [|f IH]; intros x r E; [discriminate|]. cbn [AncModel.generate_node] in E. change (generate_node (Datatypes.S (Datatypes.S f)) x) with
    (let n := look x in
    match x_tx n with
    | None => Done None
    | Some t =>
      if dbtx_confirmed n then Done (Some (mkanode t (Confirmed (x_conf n))))
      else match generate_inputs (generate_node (Datatypes.S f)) [] (tx_inputs t) with
           | Done (Some m) => Done (Some (mkanode t (Antecedents m)))
           | Done None => Done None
           | Bad => Bad
           | More => More
           end
    end).
  cbv zeta in *. destruct (x_tx (look x)) as [t|]; [|exact E]. destruct (dbtx_confirmed (look x)); [exact E|].
  destruct (generate_inputs (generate_node f) [] (tx_inputs t)) as [[m|]| |] eqn:E0; try discriminate;
    rewrite (generate_inputs_mono _ _ IH _ _ _ E0); exact E.
Qed.
Lemma generate_le f g x r : (f <= g)%nat -> generate_node f x = Done r -> generate_node g x = Done r.
Proof. intros L E. induction L; [exact E|]. apply generate_mono. exact IHL. Qed.
Definition built (x : bytes) (a : anode) : Prop := exists f, generate_node f x = Done (Some a).
Lemma built_unique x a b : built x a -> built x b -> a = b.
Proof.
  intros [f F] [g G]. assert (A : generate_node (f + g) x = Done (Some a)) by (apply (generate_le f); [lia|exact F]).
  assert (B : generate_node (f + g) x = Done (Some b)) by (apply (generate_le g); [lia|exact G]). congruence.
Qed.

(* a map of generated nodes *)
Definition gmap (m : amap) : Prop := forall k v, In (k, v) m -> exists n, v = Some n /\ built k n.
Definition covers (m : amap) (l : list input) : Prop := forall i, In i l -> exists n, get bytes_eqb m (op_digest (in_ref i)) = Some (Some n) /\ built (op_digest (in_ref i)) n.
Lemma gmap_get m k v : gmap m -> get bytes_eqb m k = Some v -> exists n, v = Some n /\ built k n.
Proof. intros G E. apply get_In in E. exact (G k v E). Qed.
Lemma gmap_insert m k n : gmap m -> built k n -> gmap (amap_insert keep m k (Some n)).
Proof. intros G B k' v' I0. apply amap_insert_In in I0. destruct I0 as [I0|[-> ->]]; [exact (G _ _ I0)|exists n; split; [reflexivity|exact B]]. Qed.
Lemma generate_inputs_inv f l : forall m m', gmap m -> generate_inputs (generate_node f) m l = Done (Some m') ->
  gmap m' /\ (forall k, get bytes_eqb m k <> None -> get bytes_eqb m' k <> None) /\ covers m' l.
Proof.
  induction l as [|i l IH]; intros m m' G E; cbn [AncModel.generate_inputs] in E.
  - assert (m = m') by congruence. subst m'. split; [exact G|]. split; [auto|intros i []].
  - destruct (generate_node f (op_digest (in_ref i))) as [[n|]| |] eqn:E0; try discriminate.
    assert (B : built (op_digest (in_ref i)) n) by (exists f; exact E0).
    apply IH in E; [|apply gmap_insert; assumption]. destruct E as (G' & K & C). split; [exact G'|]. split.
    + intros k N0. apply K. apply amap_insert_key. left. exact N0.
    + intros j [->|J]; [|exact (C j J)]. destruct (get bytes_eqb m' (op_digest (in_ref j))) as [v|] eqn:E1.
      * destruct (gmap_get _ _ _ G' E1) as (n' & -> & B'). exists n'. split; [reflexivity|exact B'].
      * exfalso. apply (K (op_digest (in_ref j))); [apply amap_insert_key; right; reflexivity|exact E1].
Qed.
Lemma built_inv x a : built x a -> x_tx (look x) = Some (n_tx a) /\
  ((dbtx_confirmed (look x) = true /\ n_proof a = Confirmed (x_conf (look x))) \/
   (dbtx_confirmed (look x) = false /\ exists m, n_proof a = Antecedents m /\ gmap m /\ covers m (tx_inputs (n_tx a)))).
Proof.
  intros [[|f] E]; [discriminate|]. cbn [AncModel.generate_node] in E. cbv zeta in E. destruct (x_tx (look x)) as [t|] eqn:X; [|discriminate].
  destruct (dbtx_confirmed (look x)) eqn:C.
  - assert (a = mkanode t (Confirmed (x_conf (look x)))) as -> by congruence. split; [reflexivity|]. left. split; reflexivity.
  - destruct (generate_inputs (generate_node f) [] (tx_inputs t)) as [[m|]| |] eqn:E0; try discriminate.
    assert (a = mkanode t (Antecedents m)) as -> by congruence. split; [reflexivity|]. right. split; [reflexivity|]. exists m. split; [reflexivity|].
    apply generate_inputs_inv in E0; [|intros k v []]. destruct E0 as (G & _ & K). split; assumption.
Qed.

Lemma gmap_sub m s : submap m s -> gmap m -> gmap s.
Proof.
  intros SU G. induction SU as [|k t s m' SU IH I0]; [exact G|]. destruct (IH _ _ I0) as (n & E & B). assert (n = mkanode t (Antecedents m')) by congruence. subst n.
  apply built_inv in B. destruct B as [_ [[_ P]|[_ (m2 & P & G2 & _)]]]; cbn [n_proof] in P; [discriminate|]. assert (m' = m2) by congruence. subst. exact G2.
Qed.
Lemma gmap_built m k a : gmap m -> node_in m k a -> built k a.
Proof. intros G (s & SU & I0). destruct (gmap_sub _ _ SU G _ _ I0) as (n & E & B). assert (n = a) by congruence. subst. exact B. Qed.
Lemma gmap_coherent m : gmap m -> coherent m.
Proof. intros G k a b A B. apply (built_unique k); eapply gmap_built; eassumption. Qed.
Lemma gmap_keyed H m : look_keyed look H -> gmap m -> well_keyed H m.
Proof. intros K G k a A. apply (gmap_built _ _ _ G) in A. apply built_inv in A. destruct A as [E _]. exact (K _ _ E). Qed.

(* ---------------------------------------------------------------- the whole proof *)
Lemma covers_weaken m m' l : gmap m' -> (forall k, get bytes_eqb m k <> None -> get bytes_eqb m' k <> None) -> covers m l -> covers m' l.
Proof.
  intros G K C i I0. destruct (C i I0) as (n & E & B). destruct (get bytes_eqb m' (op_digest (in_ref i))) as [v|] eqn:E1.
  - destruct (gmap_get _ _ _ G E1) as (n' & -> & B'). exists n'. split; [reflexivity|exact B'].
  - exfalso. apply (K (op_digest (in_ref i))); congruence.
Qed.
Lemma generate_missing_inv f l : forall m m', gmap m -> generate_missing f m l = Done (Some m') ->
  gmap m' /\ (forall k, get bytes_eqb m k <> None -> get bytes_eqb m' k <> None) /\ covers m' l.
Proof.
  induction l as [|i l IH]; intros m m' G E; cbn [AncModel.generate_missing] in E.
  - assert (m = m') by congruence. subst m'. split; [exact G|]. split; [auto|intros i []].
  - destruct (get bytes_eqb m (op_digest (in_ref i))) as [v|] eqn:E0.
    + apply IH in E; [|exact G]. destruct E as (G' & K & C). split; [exact G'|]. split; [exact K|].
      intros j [->|J]; [|exact (C j J)]. destruct (get bytes_eqb m' (op_digest (in_ref j))) as [w|] eqn:E1.
      * destruct (gmap_get _ _ _ G' E1) as (n' & -> & B'). exists n'. split; [reflexivity|exact B'].
      * exfalso. apply (K (op_digest (in_ref j))); [congruence|exact E1].
    + destruct (generate_node f (op_digest (in_ref i))) as [[n|]| |] eqn:E2; try discriminate.
      assert (B : built (op_digest (in_ref i)) n) by (exists f; exact E2).
      apply IH in E; [|apply gmap_insert; assumption]. destruct E as (G' & K & C). split; [exact G'|]. split.
      * intros k N0. apply K. apply amap_insert_key. left. exact N0.
      * intros j [->|J]; [|exact (C j J)]. destruct (get bytes_eqb m' (op_digest (in_ref j))) as [v|] eqn:E1.
        -- destruct (gmap_get _ _ _ G' E1) as (n' & -> & B'). exists n'. split; [reflexivity|exact B'].
        -- exfalso. apply (K (op_digest (in_ref j))); [apply amap_insert_key; right; reflexivity|exact E1].
Qed.
Lemma generate_from_inv H f l : forall p p', gmap (ap_map p) -> generate_from keep look H f p l = Done (Some p') ->
  gmap (ap_map p') /\ ap_payment p' = rev l ++ ap_payment p /\ (forall k, get bytes_eqb (ap_map p) k <> None -> get bytes_eqb (ap_map p') k <> None) /\
  (forall t, In t l -> dbtx_confirmed (look (tx_id H t)) = false /\ covers (ap_map p') (tx_inputs t)).
Proof.
  induction l as [|t l IH]; intros p p' G E; cbn [generate_from] in E.
  - assert (p = p') by congruence. subst p'. split; [exact G|]. split; [reflexivity|]. split; [auto|intros t []].
  - destruct (dbtx_confirmed (look (tx_id H t))) eqn:CF; [discriminate|].
    destruct (generate_missing f (ap_map p) (tx_inputs t)) as [[m|]| |] eqn:E0; try discriminate.
    apply generate_missing_inv in E0; [|exact G]. destruct E0 as (G0 & K0 & C0).
    apply IH in E; [|exact G0]. cbn [ap_map ap_payment] in E. destruct E as (G1 & P1 & K1 & C1). split; [exact G1|].
    split; [rewrite P1; cbn [rev]; rewrite <- app_assoc; reflexivity|]. split; [intros k N0; apply K1, K0, N0|].
    intros t' [<-|I0]; [|exact (C1 t' I0)]. split; [exact CF|]. exact (covers_weaken _ _ _ G1 K1 C0).
Qed.
Theorem generated_shape H f payment p : generate_proof keep look H f payment = Done (Some p) ->
  ap_payment p = rev payment /\ coherent (ap_map p) /\ (look_keyed look H -> well_keyed H (ap_map p)) /\
  (forall k a, node_in (ap_map p) k a -> x_tx (look k) = Some (n_tx a)) /\
  (forall t, In t payment -> dbtx_confirmed (look (tx_id H t)) = false).
Proof.
  intros E. apply generate_from_inv in E; [|intros k v []]. destruct E as (G & P & _ & C). cbn [ap_payment empty_proof] in P. rewrite app_nil_r in P.
  split; [exact P|]. split; [apply gmap_coherent; exact G|]. split; [intros K; apply gmap_keyed; assumption|].
  split; [intros k a N0; apply (gmap_built _ _ _ G) in N0; apply built_inv in N0; tauto|]. intros t I0. apply (C t I0).
Qed.

Section Validates.
Variable H : bytes -> bytes.
Variable ovf : Z -> Z.
Variable eval : bool -> bytes -> bytes -> itx -> N -> Z -> bool.
Variable known : bytes -> bool.
Variable upgrade : time_limit.
Hypothesis Mined : look_mined look H known.
Notation stands := (stands H ovf eval known upgrade).
Notation spends := (spends H ovf eval known upgrade).

Lemma time_of_look x a : built x a -> time_of a = look_time (look x).
Proof.
  intros B. apply built_inv in B. destruct B as [_ [[C P]|[C (m & P & _)]]]; unfold time_of, look_time; rewrite P, C; reflexivity.
Qed.
Lemma spends_known_of t m : covers m (tx_inputs t) -> spends t m -> spends_known look ovf eval upgrade t.
Proof.
  intros C S0. apply spends_inv in S0. destruct S0 as (os & L & F & A). exists os. split; [exact L|]. split; [exact F|].
  intros n i J. destruct (A n i J) as (a & o & O1 & G & ST & U). exists (n_tx a), o. split; [exact O1|].
  destruct (C i (nth_error_In _ _ J)) as (a' & G' & B). assert (a' = a) by congruence. subst a'. split; [apply built_inv in B; tauto|].
  rewrite <- (time_of_look _ _ B). exact U.
Qed.
Lemma known_spends t m : covers m (tx_inputs t) -> (forall i a, In i (tx_inputs t) -> built (op_digest (in_ref i)) a -> stands a) ->
  spends_known look ovf eval upgrade t -> spends t m.
Proof.
  intros C S0 (os & L & F & A). apply spends_intro with (os := os); [exact L|exact F|]. intros n i J. destruct (A n i J) as (a & o & O1 & X & U).
  destruct (C i (nth_error_In _ _ J)) as (a' & G' & B). exists a', o. split; [exact O1|]. split; [exact G'|]. split; [exact (S0 i a' (nth_error_In _ _ J) B)|].
  rewrite (time_of_look _ _ B). apply built_inv in B. destruct B as [B _]. assert (n_tx a' = a) by congruence. subst a. exact U.
Qed.
Lemma built_stands payment : (forall t, unproved look payment t -> spends_known look ovf eval upgrade t) ->
  forall a x, built x a -> (dbtx_confirmed (look x) = false -> unproved look payment (n_tx a)) -> stands a.
Proof.
  intros A a. induction a as [t c|t m IH] using anode_rec'; intros x B U.
  - apply built_inv in B. cbn [n_proof n_tx] in B. destruct B as [X [[C P]|[C (m & P & _)]]]; [|discriminate].
    assert (c = x_conf (look x)) by congruence. subst c. apply stands_mined. exact (Mined _ _ X C).
  - pose proof B as B0. apply built_inv in B0. cbn [n_proof n_tx] in *. destruct B0 as [X [[C P]|[C (m' & P & G & CV)]]]; [discriminate|].
    assert (m' = m) by congruence. subst m'. specialize (U C). apply stands_spends. apply known_spends; [exact CV| |apply A; exact U].
    intros i a I0 Bi. destruct (CV i I0) as (a' & Ga & Ba). rewrite (built_unique _ _ _ Bi Ba). apply get_In in Ga. refine (IH _ _ Ga _ Ba _).
    intros CF. apply (unproved_spends look payment t i); [exact U|exact I0| |exact CF]. apply built_inv in Ba. tauto.
Qed.
Theorem generated_validates unset f payment p : limit_gt upgrade unset = false ->
  generate_proof keep look H f payment = Done (Some p) ->
  (validate H ovf eval known unset upgrade p = Done true <-> NoDup payment /\ forall t, unproved look payment t -> spends_known look ovf eval upgrade t).
Proof.
  intros U E. destruct (generated_shape _ _ _ _ E) as (P & Coh & _). rewrite (validate_exact _ _ _ _ _ _ _ Coh U), P.
  apply generate_from_inv in E; [|intros k v []]. destruct E as (G & _ & _ & C).
  assert (ND : NoDup (rev payment) <-> NoDup payment).
  { split; intros N0; [rewrite <- (rev_involutive payment)|]; apply NoDup_rev; exact N0. }
  rewrite ND. split.
  - intros [N0 A]. split; [exact N0|]. intros t UN.
    assert (X : exists m, spends t m /\ covers m (tx_inputs t)).
    { induction UN as [t I0|t i a UN (m & S0 & CV) I0 X CF].
      - exists (ap_map p). split; [apply A, (proj1 (in_rev payment t)); exact I0|]. apply C. exact I0.
      - destruct (CV i I0) as (n & Gn & Bn). apply spends_inv in S0. destruct S0 as (os & _ & _ & F).
        destruct (In_nth_error _ _ I0) as [j J]. destruct (F j i J) as (a' & o & _ & G' & ST & _). assert (a' = n) by congruence. subst a'.
        apply built_inv in Bn. destruct Bn as [X' [[C' _]|[_ (m' & P' & _ & CV')]]]; [congruence|]. assert (n_tx n = a) by congruence. subst a.
        exists m'. split; [|exact CV']. destruct n as [tn pn]. cbn [n_proof n_tx] in *. subst pn. inversion ST; subst. assumption. }
    destruct X as (m & S0 & CV). exact (spends_known_of _ _ CV S0).
  - intros [N0 A]. split; [exact N0|]. intros t I0. apply in_rev in I0. destruct (C t I0) as [_ CV]. apply known_spends; [exact CV| |apply A, unproved_pays, I0].
    intros i a Ii B. apply (built_stands payment A a _ B). intros CF. apply (unproved_spends look payment t i); [apply unproved_pays; exact I0|exact Ii| |exact CF].
    apply built_inv in B. tauto.
Qed.
End Validates.

(* ---------------------------------------------------------------- when there is a proof *)
Notation known_inputs := (known_inputs look).
Section Ranked.
Variable rank : bytes -> nat.
Hypothesis Rank : forall x t i, x_tx (look x) = Some t -> dbtx_confirmed (look x) = false -> In i (tx_inputs t) -> (rank (op_digest (in_ref i)) < rank x)%nat.
Lemma generate_inputs_total (g : bytes -> run (option anode)) l : (forall i, In i l -> exists r, g (op_digest (in_ref i)) = Done r) ->
  forall m, exists r, generate_inputs g m l = Done r.
Proof.
  induction l as [|i l IH]; intros T m; cbn [AncModel.generate_inputs]; [eexists; reflexivity|].
  destruct (T i (or_introl eq_refl)) as [[n|] ->]; [|eexists; reflexivity]. apply IH. intros j J. apply T. right. exact J.
Qed.
Lemma generate_total f : forall x, (rank x < f)%nat -> exists r, generate_node f x = Done r.
Proof.
  induction f as [|f IH]; intros x L; [lia|]. cbn [AncModel.generate_node]. cbv zeta. destruct (x_tx (look x)) as [t|] eqn:X; [|eexists; reflexivity].
  destruct (dbtx_confirmed (look x)) eqn:C; [eexists; reflexivity|].
  destruct (generate_inputs_total (generate_node f) (tx_inputs t)) with (m := @nil (bytes * option anode)) as [[m|] E].
  - intros i I0. apply IH. specialize (Rank x t i X C I0). lia.
  - rewrite E. eexists. reflexivity.
  - rewrite E. eexists. reflexivity.
Qed.
Lemma generate_inputs_some (g : bytes -> run (option anode)) l : (forall i, In i l -> exists n, g (op_digest (in_ref i)) = Done (Some n)) ->
  forall m, exists r, generate_inputs g m l = Done (Some r).
Proof.
  induction l as [|i l IH]; intros T m; cbn [AncModel.generate_inputs]; [eexists; reflexivity|].
  destruct (T i (or_introl eq_refl)) as [n ->]. apply IH. intros j J. apply T. right. exact J.
Qed.
Lemma generate_some payment : known_inputs payment -> forall f x t, (rank x < f)%nat -> x_tx (look x) = Some t ->
  (dbtx_confirmed (look x) = false -> unproved look payment t) -> exists n, generate_node f x = Done (Some n).
Proof.
  intros KI. induction f as [|f IH]; intros x t L X U; [lia|]. cbn [AncModel.generate_node]. cbv zeta. rewrite X.
  destruct (dbtx_confirmed (look x)) eqn:C; [eexists; reflexivity|]. specialize (U eq_refl).
  destruct (generate_inputs_some (generate_node f) (tx_inputs t)) with (m := @nil (bytes * option anode)) as [m E].
  - intros i I0. pose proof (KI t i U I0) as V. unfold dbtx_valid in V. destruct (x_tx (look (op_digest (in_ref i)))) as [a|] eqn:XA; [|discriminate].
    apply (IH _ a); [specialize (Rank x t i X C I0); lia|exact XA|]. intros CF. exact (unproved_spends look payment t i a U I0 XA CF).
  - rewrite E. eexists. reflexivity.
Qed.
Lemma missing_total f l : (forall i, In i l -> (rank (op_digest (in_ref i)) < f)%nat) -> forall m, exists r, generate_missing f m l = Done r.
Proof.
  induction l as [|i l IH]; intros T m; cbn [AncModel.generate_missing]; [eexists; reflexivity|].
  assert (T' : forall j, In j l -> (rank (op_digest (in_ref j)) < f)%nat) by (intros j J; apply T; right; exact J).
  destruct (get bytes_eqb m (op_digest (in_ref i))); [apply IH; exact T'|].
  destruct (generate_total f (op_digest (in_ref i))) as [[n|] ->]; [apply T; left; reflexivity|apply IH; exact T'|eexists; reflexivity].
Qed.
Lemma missing_some f l : (forall i, In i l -> exists n, generate_node f (op_digest (in_ref i)) = Done (Some n)) -> forall m, exists r, generate_missing f m l = Done (Some r).
Proof.
  induction l as [|i l IH]; intros T m; cbn [AncModel.generate_missing]; [eexists; reflexivity|].
  assert (T' : forall j, In j l -> exists n, generate_node f (op_digest (in_ref j)) = Done (Some n)) by (intros j J; apply T; right; exact J).
  destruct (get bytes_eqb m (op_digest (in_ref i))); [apply IH; exact T'|].
  destruct (T i (or_introl eq_refl)) as [n ->]. apply IH. exact T'.
Qed.
End Ranked.
Theorem generate_exact H f payment : ranked look f ->
  (exists r, generate_proof keep look H f payment = Done r) /\
  ((exists p, generate_proof keep look H f payment = Done (Some p)) <->
   (forall t, In t payment -> dbtx_confirmed (look (tx_id H t)) = false) /\ known_inputs payment).
Proof.
  intros (rank & RF & R). split.
  - unfold generate_proof. generalize empty_proof. induction payment as [|t l IH]; intros p; cbn [generate_from]; [eexists; reflexivity|].
    destruct (dbtx_confirmed (look (tx_id H t))); [eexists; reflexivity|].
    destruct (missing_total rank R f (tx_inputs t) (fun i _ => RF _) (ap_map p)) as [[m|] ->]; [apply IH|eexists; reflexivity].
  - split.
    + intros [p E]. pose proof (generated_shape _ _ _ _ E) as (_ & _ & _ & _ & CF). split; [exact CF|].
      apply generate_from_inv in E; [|intros k v []]. destruct E as (G & _ & _ & C).
      assert (X : forall t, unproved look payment t -> exists m, covers m (tx_inputs t)).
      { intros t UN. induction UN as [t I0|t i a UN (m & CV) I0 X CF'].
        - exists (ap_map p). apply C. exact I0.
        - destruct (CV i I0) as (n & Gn & Bn). apply built_inv in Bn. destruct Bn as [X' [[C' _]|[_ (m' & P' & _ & CV')]]]; [congruence|].
          exists m'. assert (n_tx n = a) by congruence. subst a. exact CV'. }
      intros t i UN I0. destruct (X t UN) as (m & CV). destruct (CV i I0) as (n & _ & Bn). apply built_inv in Bn. unfold dbtx_valid. destruct Bn as [-> _]. reflexivity.
    + intros [CF KI]. unfold generate_proof. generalize empty_proof.
      assert (Sub : forall t, In t payment -> In t payment) by auto. revert Sub CF. generalize payment at 1 3 4 as l. induction l as [|t l IH]; intros Sub CF p; cbn [generate_from]; [eexists; reflexivity|].
      rewrite (CF t (or_introl eq_refl)).
      destruct (missing_some f (tx_inputs t)) with (m := ap_map p) as [m ->].
      * intros i I0. assert (UN : unproved look payment t) by (apply unproved_pays, Sub; left; reflexivity).
        pose proof (KI t i UN I0) as V. unfold dbtx_valid in V. destruct (x_tx (look (op_digest (in_ref i)))) as [a|] eqn:XA; [|discriminate].
        apply (generate_some rank R payment KI f _ a); [apply RF|exact XA|]. intros C'. exact (unproved_spends look payment t i a UN I0 XA C').
      * apply IH; [intros t' I0; apply Sub; right; exact I0|intros t' I0; apply CF; right; exact I0].
Qed.
End Gen.
