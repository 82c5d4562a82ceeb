From Coq Require Import Lia ZifyBool ZifyNat ZifyN.
From Verif Require Import Base BaseProofs WireModel WireSpec TextModel SecpModel SecpSpec ScriptModel ScriptSpec StackModel StackSpec MachineModel MachineSpec.
From Verif Require Import PatternModel PatternSpec SighashModel SighashSpec ExtModel StraightSpec PayRunSpec PayRunProofs RedeemModel RedeemSpec RedeemProofs SpendProofs.
From Verif Require Import MerkleModel WorkModel BeefModel SpvModel AncModel AncSpec AncProofs AncGenerate SpvRunModel SpvRunSpec.
Local Open Scope N_scope.

Section Run.
Variable w : world.
Variable X : externals.

Lemma passes_exact before ux lx t i v : script_passes w X before ux lx t i v = true <->
  StraightSpec.spends X (redeeming w (c_flags (rules before)) t i v) (rules before) (w_neg1 w) ux lx.
Proof.
  unfold script_passes, StraightSpec.spends, r_verify. destruct (evaluate _ _ _ _ _ _) as [[e b]|e|]; [|split; discriminate|split; discriminate].
  cbn [r_error r_success]. split.
  - destruct e; cbn [serror_is_ok andb]; try discriminate. intros ->. reflexivity.
  - intros E. assert (e = E_OK /\ b = true) as (-> & ->) by (unfold result_of_bool in E; split; congruence). reflexivity.
Qed.

Lemma rules_exact : rules true = {| c_flags := pre_genesis_profile; c_max_ops := 500; c_max_keys := 20; c_max_memory := 2 ^ 63 - 1; c_max_num := 4 |} /\
  rules false = {| c_flags := genesis_profile; c_max_ops := 2 ^ 32 - 1; c_max_keys := 2 ^ 32 - 1; c_max_memory := 2 ^ 63 - 1; c_max_num := 250000 |}.
Proof. split; reflexivity. Qed.
Lemma rules_enough before : enough (rules before) 508 5 /\ c_max_memory (rules before) < 2 ^ 63.
Proof. unfold rules. apply library_enough; [reflexivity|vm_compute; discriminate|destruct before; [right; vm_compute; discriminate|left; reflexivity]]. Qed.
Lemma ready_before i x e : ready w genesis_profile i x e -> ready w pre_genesis_profile i x e.
Proof.
  intros R. destruct R as [R1 R2 R3 R4 (A & B & _) R6 R7 R8]. constructor; try assumption. split; [exact A|split; [exact B|reflexivity]].
Qed.
Lemma ready_rules before i x e : ready w genesis_profile i x e -> ready w (c_flags (rules before)) i x e.
Proof. destruct before; [apply ready_before|exact (fun h => h)]. Qed.

Hypothesis Sw : sound w.
Hypothesis Mw : machine_of w X.
Section Look.
Variable look : bytes -> dbtx.

Lemma redeemed_known ovf upgrade d t : itx_wf (design_incomplete (design_of d)) -> N.of_nat (length (rd_inputs d)) <= 2 ^ 32 ->
  Forall (from_wallet w look) (rd_inputs d) -> design_funded ovf d -> redeem (by_default w) d = Ret t ->
  spends_known look ovf (script_passes w X) upgrade (xtx_plain t).
Proof.
  intros Wf L F B R.
  assert (Fr : forall before, Forall (fun i => exists x e, ready w (c_flags (rules before)) i x e) (rd_inputs d)).
  { intros before. apply (Forall_impl _ (P := from_wallet w look)); [|exact F]. intros i ((x & e & Q) & _). exists x, e. apply ready_rules, Q. }
  assert (A : forall before, all_spend w X (rules before) t).
  { intros before. destruct (rules_enough before) as (En & Mm). destruct (redeemed_spends w X (rules before) Sw Mw Mm d Wf L En (Fr before)) as (t' & R' & _ & _ & A). assert (t' = t) as -> by congruence. exact A. }
  destruct (rules_enough false) as (En & Mm). destruct (redeemed_spends w X (rules false) Sw Mw Mm d Wf L En (Fr false)) as (t' & R' & I1 & P1 & _). assert (t' = t) as -> by congruence. clear R' En Mm.
  exists (map xi_prevout (xt_inputs t)). split; [cbn [xtx_plain tx_inputs]; rewrite !map_length; reflexivity|]. split.
  - unfold funded. assert (O : xt_outputs t = rd_outputs d) by exact (f_equal it_outputs I1). cbn [xtx_plain tx_outputs]. rewrite O, P1, map_map. exact B.
  - intros n i N0. cbn [xtx_plain tx_inputs] in N0. rewrite nth_error_map in N0. destruct (nth_error (xt_inputs t) n) as [xi|] eqn:Nx; [|discriminate]. cbn [option_map] in N0. assert (i = xi_input xi) as -> by congruence. clear N0.
    assert (E : exists ri, nth_error (rd_inputs d) n = Some ri /\ xi_prevout xi = di_prevout (ri_input ri) /\ in_ref (xi_input xi) = ii_ref (di_input (ri_input ri))).
    { assert (E1 := f_equal (fun l => nth_error l n) P1). cbv beta in E1. rewrite !nth_error_map, Nx in E1. cbn [option_map] in E1.
      assert (E2 := f_equal (fun x => nth_error (it_inputs x) n) I1). cbv beta in E2. cbn [itx_of it_inputs xtx_plain tx_inputs design_incomplete design_of ds_inputs] in E2. rewrite !nth_error_map, Nx in E2. cbn [option_map] in E2.
      destruct (nth_error (rd_inputs d) n) as [ri|] eqn:Er; [|discriminate]. cbn [option_map] in E1, E2. exists ri. split; [reflexivity|]. split; [congruence|].
      assert (E3 : iinput_of (xi_input xi) = di_input (ri_input ri)) by congruence. rewrite <- E3. reflexivity. }
    destruct E as (ri & Er & Ep & Ei). rewrite Forall_forall in F. destruct (F ri (nth_error_In _ _ Er)) as (_ & a & Xa & Oa).
    exists a, (xi_prevout xi). rewrite Ei, Ep. split; [rewrite nth_error_map, Nx; cbn [option_map]; congruence|]. split; [exact Xa|].
    split; [rewrite Ei; exact Oa|]. apply passes_exact.
    assert (Ln : N.of_nat n < 2 ^ 32). { assert (Hn := nth_error_Some (rd_inputs d) n). rewrite Er in Hn. assert (n < length (rd_inputs d))%nat by (apply Hn; discriminate). lia. }
    rewrite N.mod_small by exact Ln. rewrite <- Ep. exact (A _ n xi Nx).
Qed.

(* ---- the payment is accepted *)
Theorem payment_accepted ovf known upgrade unset keep f d t :
  itx_wf (design_incomplete (design_of d)) -> N.of_nat (length (rd_inputs d)) <= 2 ^ 32 -> Forall (from_wallet w look) (rd_inputs d) -> design_funded ovf d ->
  redeem (by_default w) d = Ret t -> look_mined look (w_hash w) known -> limit_gt upgrade unset = false -> ranked look f ->
  dbtx_confirmed (look (tx_id (w_hash w) (xtx_plain t))) = false -> known_inputs look [xtx_plain t] -> ancestors_ok w X look ovf upgrade (xtx_plain t) ->
  exists p, generate_proof keep look (w_hash w) f [xtx_plain t] = Done (Some p) /\ ap_payment p = [xtx_plain t] /\
    validate (w_hash w) ovf (script_passes w X) known unset upgrade p = Done true.
Proof.
  intros Wf L F B R Lm Lu Rk Nc Ki An.
  destruct (proj2 (proj2 (generate_exact keep look (w_hash w) f [xtx_plain t] Rk))) as (p & G).
  { split; [|exact Ki]. intros t' [<- |[]]. exact Nc. }
  exists p. split; [exact G|]. split; [exact (proj1 (generated_shape _ _ _ _ _ _ G))|].
  apply (generated_validates keep look (w_hash w) ovf (script_passes w X) known upgrade Lm unset f [xtx_plain t] p Lu G).
  split; [constructor; [intros []|constructor]|]. intros a U. destruct (tx_eqb a (xtx_plain t)) eqn:D; [apply tx_eqb_eq in D; subst a; exact (redeemed_known ovf upgrade d t Wf L F B R)|].
  apply (An a U). intros ->. rewrite (proj2 (tx_eqb_eq _ _) eq_refl) in D. discriminate D.
Qed.
End Look.
(* ---- what is accepted was authorised *)
Theorem accepted_authorised ovf known upgrade unset p : well_keyed (w_hash w) (ap_map p) -> ~ confused (w_hash w) (ap_map p) -> limit_gt upgrade unset = false ->
  validate (w_hash w) ovf (script_passes w X) known unset upgrade p = Done true ->
  forall t n i, In t (ap_payment p) -> nth_error (tx_inputs t) n = Some i -> itx_wf (itx_of t) -> N.of_nat (length (tx_inputs t)) <= 2 ^ 32 -> 70 * len (in_script i) + 220 < 2 ^ 31 ->
  exists a time o, tx_id (w_hash w) a = op_digest (in_ref i) /\ genuine (w_hash w) ovf (script_passes w X) known upgrade a time /\
    at_index (tx_outputs a) (op_index (in_ref i)) = Some o /\ (limit_gt upgrade time = false -> authorised w t n o).
Proof.
  intros K C Lu V t n i It Ni Wt Lt Ls. destruct (validate_sound _ _ _ _ _ _ _ K C Lu V) as (_ & G). specialize (G t It).
  inversion G as [|t' os Lo Fu Sp Et Ep]. subst t'. destruct (Sp n i Ni) as (a & time & o & _ & Ia & Ga & Oa & Ev). exists a, time, o. split; [exact Ia|]. split; [exact Ga|]. split; [exact Oa|].
  intros Lg ad l Iv Pv La Pa Fl So doc Cf. rewrite Lg in Ev. apply passes_exact in Ev.
  assert (Ln : N.of_nat n < 2 ^ 32). { assert (Hn := nth_error_Some (tx_inputs t) n). rewrite Ni in Hn. assert (n < length (tx_inputs t))%nat by (apply Hn; discriminate). lia. }
  rewrite N.mod_small in Ev by exact Ln.
  apply (spend_commits w X (rules false) Sw Mw (proj2 (rules_enough false)) (itx_of t) (N.of_nat n) (out_value o) (iinput_of i) ad (out_script o) (in_script i) l); try assumption; try reflexivity.
  rewrite Nat2N.id. cbn [itx_of it_inputs]. rewrite nth_error_map, Ni. reflexivity.
Qed.

(* ---- before genesis *)
Lemma no_signature_passes lx t i v : plain_lock lx -> script_passes w X true no_signature lx t i v = true.
Proof.
  intros (l & D & V & P & C & L). apply passes_exact. unfold StraightSpec.spends, no_signature.
  apply (anyone_can_spend X _ (rules true) (w_neg1 w) lx l); try assumption; try reflexivity.
  - right. exact P.
  - left. reflexivity.
  - pose proof (sw_neg1 w Sw). change (2 ^ 30) with 1073741824 in L. change (2 ^ 31) with 2147483648. lia.
Qed.
Lemma address_plain a lx : len a = 20 -> p2a_script a = Some lx -> plain_lock lx.
Proof.
  intros L E. destruct (address_decompile (rules true) (proj2 (rules_enough true)) a lx L E) as (D & Lx & P). exists (address_program a). split; [exact D|].
  split; [|split; [exact P|split; [|change (2 ^ 30) with 1073741824; lia]]];
  (do 20 (destruct a as [|? a]; [discriminate L|]); destruct a as [|? a]; [vm_compute; try reflexivity; discriminate|exfalso; unfold len in L; cbn [length] in L; lia]).
Qed.
Lemma single_coherent k a c : coherent [(k, Some (mkanode a (Confirmed c)))].
Proof.
  intros x n m (s1 & S1 & I1) (s2 & S2 & I2).
  assert (S0 : forall s, submap [(k, Some (mkanode a (Confirmed c)))] s -> s = [(k, Some (mkanode a (Confirmed c)))]).
  { intros s SU. induction SU as [|k' t s m' SU IH I0]; [reflexivity|]. subst s. destruct I0 as [E|[]]. exfalso. congruence. }
  rewrite (S0 _ S1) in I1. rewrite (S0 _ S2) in I2. destruct I1 as [E1|[]], I2 as [E2|[]]. congruence.
Qed.
Theorem before_taken ovf known upgrade unset a c k o t : limit_gt upgrade unset = false -> mined (w_hash w) known a c -> limit_gt upgrade (At (h_timestamp (c_header c))) = true ->
  at_index (tx_outputs a) k = Some o -> plain_lock (out_script o) -> takes w t a k -> funded ovf t [o] ->
  validate (w_hash w) ovf (script_passes w X) known unset upgrade (mkaproof [t] [(tx_id (w_hash w) a, Some (mkanode a (Confirmed c)))]) = Done true.
Proof.
  intros Lu Mi Lb Ao Pl (seq & Ti) Fu. apply validate_exact; [apply single_coherent|exact Lu|]. cbn [ap_payment ap_map]. split; [constructor; [intros []|constructor]|].
  intros t' [<- |[]]. apply (spends_intro _ _ _ _ _ t _ [o]); [rewrite Ti; reflexivity|exact Fu|]. intros n i Ni. rewrite Ti in Ni.
  destruct n as [|n]; [|destruct n; discriminate Ni]. cbn [nth_error] in Ni. assert (i = {| in_ref := {| op_digest := tx_id (w_hash w) a; op_index := k |}; in_script := no_signature; in_seq := seq |}) as -> by congruence.
  exists (mkanode a (Confirmed c)), o. cbn [in_ref op_digest]. split; [reflexivity|]. split.
  { cbn [SpvModel.get]. replace (bytes_eqb (tx_id (w_hash w) a) (tx_id (w_hash w) a)) with true by (symmetry; apply bytes_eqb_eq; reflexivity). reflexivity. }
  split; [constructor; exact Mi|]. split; [exact Ao|]. cbn [time_of n_proof]. rewrite Lb. cbn [in_script]. apply no_signature_passes. exact Pl.
Qed.
End Run.
