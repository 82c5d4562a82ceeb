(* Proofs about the original signature-hash preimage, signature::hash, incomplete transactions and the
   ownership of cached hashes. *)
From Verif Require Import Base BaseProofs WireModel WireSpec WireProofs ScriptModel ScriptSpec ScriptProofs ProgramProofs
  MachineModel SighashModel SighashSpec SighashProofs.
From Coq Require Import ZifyBool ZifyNat ZifyN.
Local Open Scope N_scope.
Ltac Zify.zify_post_hook ::= Z.div_mod_to_equations.

(* ---------------------------------------------------------------- the modified transaction *)
Definition seen_as (all : bool) (index : N) (code : bytes) (k : N) (x : iinput) : input :=
  {| in_ref := ii_ref x; in_script := if k =? index then code else [];
     in_seq := if all || (k =? index) then ii_seq x else 0 |}.

Lemma original_inputs_nth all index code l : forall i k,
  nth_error (original_inputs all index code i l) k =
  option_map (seen_as all index code (i + N.of_nat k)) (nth_error l k).
Proof.
  induction l as [|x l IH]; intros i k; destruct k as [|k]; cbn [original_inputs nth_error option_map]; try reflexivity.
  - unfold seen_as. now rewrite N.add_0_r.
  - rewrite IH. do 2 f_equal. lia.
Qed.
Lemma original_inputs_length all index code l : forall i, length (original_inputs all index code i l) = length l.
Proof. induction l as [|x l IH]; intros i; cbn; [reflexivity|now rewrite IH]. Qed.

Lemma nth_ext_opt {A} (l m : list A) : length l = length m ->
  (forall k a b, nth_error l k = Some a -> nth_error m k = Some b -> a = b) -> l = m.
Proof.
  revert m. induction l as [|x l IH]; intros [|y m] L E; try discriminate L; [reflexivity|].
  f_equal; [apply (E O); reflexivity|]. apply IH; [now inversion L|]. intros k a b A1 B1. now apply (E (S k)).
Qed.

Lemma seen_input_fun doc d code k i j j' : seen_input doc d code k i j -> seen_input doc d code k i j' -> j = j'.
Proof.
  intros (R & A & B) (R' & A' & B'). destruct j as [r s q], j' as [r' s' q']; cbn in *.
  destruct (N.eq_dec k (sd_index doc)) as [E|E].
  - destruct (A E), (A' E). congruence.
  - destruct (B E) as (B1 & B2 & B3), (B' E) as (B1' & B2' & B3').
    destruct (N.eq_dec (kind d) 1) as [K|K]; [rewrite (B2 K), (B2' K)|rewrite (B3 K), (B3' K)]; congruence.
Qed.

Lemma seen_as_ok doc d code k i : seen_input doc d code k i (seen_as (kind d =? 1) (sd_index doc) code k i).
Proof.
  unfold seen_input, seen_as. cbn. split; [reflexivity|]. split.
  - intros ->. rewrite N.eqb_refl, orb_true_r. auto.
  - intros E. destruct (k =? sd_index doc) eqn:T; [lia|]. split; [reflexivity|].
    split; intros K; destruct (kind d =? 1) eqn:T1; try lia; reflexivity.
Qed.

Lemma seen_fun doc d code t t' : seen doc d code t -> seen doc d code t' -> t = t'.
Proof.
  intros [V L A I O1 O3 O0] [V' L' A' I' O1' O3' O0'].
  assert (EI : tx_inputs t = tx_inputs t').
  { destruct (is_anyone_can_pay d) eqn:T.
    - apply acp_iff in T. destruct (A T) as (i & j & X & -> & S). destruct (A' T) as (i' & j' & X' & -> & S').
      f_equal. assert (i = i') by congruence. subst i'. eapply seen_input_fun; eauto.
    - apply acp_niff in T. destruct (I T) as (N1 & S1). destruct (I' T) as (N2 & S2).
      apply nth_ext_opt; [congruence|]. intros k a b Ea Eb.
      destruct (nth_error (it_inputs (sd_tx doc)) k) as [i|] eqn:X.
      + eapply seen_input_fun; eauto.
      + apply nth_error_None in X. assert (nth_error (tx_inputs t) k <> None) as Q by congruence.
        apply nth_error_Some in Q. lia. }
  assert (EO : tx_outputs t = tx_outputs t').
  { destruct (N.eq_dec (kind d) 1) as [K1|K1]; [rewrite O1, O1' by exact K1; reflexivity|].
    destruct (N.eq_dec (kind d) 3) as [K3|K3]; [|rewrite O0, O0' by assumption; reflexivity].
    destruct (O3 K3) as (o & Eo & ->), (O3' K3) as (o' & Eo' & ->). congruence. }
  destruct t, t'; cbn in *. congruence.
Qed.

Lemma reconstruct_seen doc d code t : stripped (sd_code doc) code -> reconstruct doc d = Some t -> seen doc d code t.
Proof.
  intros C. unfold reconstruct. rewrite (stripped_compile _ _ C), !base_kind.
  unfold at_index, SH_ALL, SH_SINGLE.
  destruct (if is_anyone_can_pay d then _ else _) as [ins|] eqn:I; [|discriminate].
  destruct (if kind d =? 3 then _ else _) as [outs|] eqn:O; [|discriminate].
  intros E. inversion E; subst t. constructor; cbn [tx_version tx_inputs tx_outputs tx_locktime]; try reflexivity.
  - intros A. apply acp_iff in A. rewrite A in I.
    destruct (nth_error (it_inputs (sd_tx doc)) _) as [x|]; [|discriminate]. inversion I; subst. exists x, (iinput_complete x code).
    split; [reflexivity|]. split; [reflexivity|]. unfold seen_input, iinput_complete. cbn. split; [reflexivity|].
    split; [auto|lia].
  - intros A. apply acp_niff in A. rewrite A in I. inversion I; subst. rewrite original_inputs_length.
    split; [reflexivity|]. intros k i j Ei Ej. rewrite original_inputs_nth, Ei in Ej. cbn [option_map] in Ej.
    inversion Ej. apply seen_as_ok.
  - intros K. rewrite K in O. inversion O. reflexivity.
  - intros K. rewrite K in O. destruct (nth_error (it_outputs (sd_tx doc)) _) as [o|]; [|discriminate].
    inversion O. eauto.
  - intros K1 K3. destruct (kind d =? 3) eqn:T; [lia|]. destruct (kind d =? 1) eqn:T1; [lia|]. now inversion O.
Qed.

Lemma seen_reconstruct doc d code t : stripped (sd_code doc) code -> seen doc d code t -> reconstruct doc d = Some t.
Proof.
  intros C S. destruct (reconstruct doc d) as [t'|] eqn:E.
  - f_equal. eapply seen_fun; [|exact S]. now apply reconstruct_seen.
  - exfalso. revert E. unfold reconstruct. rewrite (stripped_compile _ _ C), !base_kind.
    unfold at_index, SH_ALL, SH_SINGLE. destruct S as [V L A I O1 O3 O0].
    assert (X : exists ins, (if is_anyone_can_pay d then
             match nth_error (it_inputs (sd_tx doc)) (N.to_nat (sd_index doc)) with
             | Some x => Some [iinput_complete x code] | None => None end
           else Some (original_inputs (kind d =? 1) (sd_index doc) code 0 (it_inputs (sd_tx doc)))) = Some ins).
    { destruct (is_anyone_can_pay d) eqn:T; [|eauto]. apply acp_iff in T. destruct (A T) as (i & j & -> & _). eauto. }
    destruct X as (ins & ->).
    destruct (kind d =? 3) eqn:K3.
    + apply N.eqb_eq in K3. destruct (O3 K3) as (o & -> & _). discriminate.
    + destruct (kind d =? 1); discriminate.
Qed.

Lemma seen_wf doc d code t : sdoc_wf doc -> stripped (sd_code doc) code -> seen doc d code t -> tx_wf t.
Proof.
  intros ((W1 & (W2n & W2) & (W3n & W3) & W4) & _ & _) C [V L A I O1 O3 O0].
  pose proof (code_form_u64 _ _ C) as U.
  assert (SI : forall k i j, iinput_wf i -> seen_input doc d code k i j -> input_wf j).
  { intros k i j [Wi1 Wi2] (R & P & Q). unfold input_wf. rewrite R. split; [exact Wi1|].
    destruct (N.eq_dec k (sd_index doc)) as [E|E].
    - destruct (P E) as [-> ->]. auto.
    - destruct (Q E) as (-> & Q1 & Q2). split; [reflexivity|].
      destruct (N.eq_dec (kind d) 1) as [K|K]; [rewrite (Q1 K); exact Wi2|rewrite (Q2 K); reflexivity]. }
  unfold tx_wf. rewrite V, L. split; [exact W1|]. split; [|split; [|exact W4]].
  - destruct (is_anyone_can_pay d) eqn:T.
    + apply acp_iff in T. destruct (A T) as (i & j & X & -> & S). split; [reflexivity|].
      constructor; [|constructor]. eapply SI; eauto. eapply nth_wf; eauto.
    + apply acp_niff in T. destruct (I T) as (N1 & S1). split; [unfold u64 in *; now rewrite N1|].
      apply Forall_forall. intros j J. apply In_nth_error in J as (k & Ek).
      destruct (nth_error (it_inputs (sd_tx doc)) k) as [i|] eqn:X.
      * eapply SI; eauto. eapply nth_wf; eauto.
      * apply nth_error_None in X. assert (nth_error (tx_inputs t) k <> None) as Q by congruence.
        apply nth_error_Some in Q. lia.
  - destruct (N.eq_dec (kind d) 1) as [K1|K1]; [rewrite O1 by exact K1; split; assumption|].
    destruct (N.eq_dec (kind d) 3) as [K3|K3]; [|rewrite O0 by assumption; split; [reflexivity|constructor]].
    destruct (O3 K3) as (o & Eo & ->). split; [reflexivity|]. constructor; [|constructor]. eapply nth_wf; eauto.
Qed.

Lemma sighash_original H doc d : ~ fork_bit d -> sighash_write H doc d = write_original doc d.
Proof.
  intros F. apply fork_niff in F. unfold sighash_write, sighash_write_cached. rewrite F, (clear_fork _ F).
  now destruct (write_original doc d).
Qed.

Theorem original_layout_exact H doc d pre : sdoc_wf doc -> ~ fork_bit d ->
  (sighash_write H doc d = Some pre <-> original_layout doc d pre).
Proof.
  intros W F. rewrite (sighash_original H doc d F). pose proof W as (_ & _ & b & C).
  destruct (stripped_exists _ _ C) as (code & St & _). unfold write_original. split.
  - destruct (reconstruct doc d) as [t|] eqn:E; [|discriminate]. intros K. apply some_eq in K. subst pre.
    pose proof (reconstruct_seen _ _ _ _ St E) as S. apply (original_layout_i doc d code t); auto.
    + apply tx_shortest; [eapply seen_wf; eauto|reflexivity].
    + apply le_form_iff; [apply d_u32|reflexivity].
  - intros L. inversion L as [code' t b' type St' S Sh Ty]; subst.
    assert (code' = code) by (eapply code_form_fun; eauto). subst code'.
    rewrite (seen_reconstruct _ _ _ _ St S). f_equal.
    apply tx_shortest in Sh; [|eapply seen_wf; eauto]. apply le_form_iff in Ty; [|apply d_u32]. now subst.
Qed.

Theorem original_defined H doc d : sdoc_wf doc -> ~ fork_bit d -> in_range d doc ->
  exists pre, sighash_write H doc d = Some pre.
Proof.
  intros W F (R1 & R3). rewrite (sighash_original H doc d F). pose proof W as (_ & _ & b & C).
  destruct (stripped_exists _ _ C) as (code & St & _). unfold write_original, reconstruct.
  rewrite (stripped_compile _ _ St), !base_kind. unfold at_index, SH_ALL, SH_SINGLE.
  destruct (nth_error (it_inputs (sd_tx doc)) (N.to_nat (sd_index doc))) as [x|] eqn:X.
  2:{ apply nth_error_None in X. lia. }
  destruct (kind d =? 3) eqn:K3.
  - destruct (nth_error (it_outputs (sd_tx doc)) _) as [o|] eqn:Eo; [|apply nth_error_None in Eo; lia].
    destruct (is_anyone_can_pay d); eauto.
  - destruct (is_anyone_can_pay d); destruct (kind d =? 1); eauto.
Qed.

(* equal preimages: the same directive and the same modified transaction *)
Theorem original_commits H a b d e pre : sdoc_wf a -> sdoc_wf b -> ~ fork_bit d -> ~ fork_bit e ->
  sighash_write H a d = Some pre -> sighash_write H b e = Some pre ->
  d = e /\ exists ca cb t, stripped (sd_code a) ca /\ stripped (sd_code b) cb /\ seen a d ca t /\ seen b d cb t.
Proof.
  intros Wa Wb Fd Fe Ea Eb.
  apply original_layout_exact in Ea; auto. apply original_layout_exact in Eb; auto.
  inversion Ea as [ca t ba ta Sa SSa Sha Ta]; subst pre.
  inversion Eb as [cb u bb tb Sb SSb Shb Tb Eq].
  apply le_form_iff in Ta; [|apply d_u32]. apply le_form_iff in Tb; [|apply d_u32].
  pose proof (seen_wf _ _ _ _ Wa Sa SSa) as Wt. pose proof (seen_wf _ _ _ _ Wb Sb SSb) as Wu.
  apply tx_shortest in Sha; auto. apply tx_shortest in Shb; auto. subst.
  apply app_inj_len_r in Eq as [Et Ed]; [|now rewrite !le_length].
  assert (D : d = e). { symmetry. apply b2n_inj, (le_inj 4); auto using d_u32. } subst e. apply tx_inj in Et; auto. subst u.
  split; [reflexivity|]. exists ca, cb, t. auto.
Qed.

(* for SIGHASH_ALL without ANYONECANPAY that means: *)
Theorem original_commits_all H a b d pre : sdoc_wf a -> sdoc_wf b -> ~ fork_bit d -> kind d = 1 -> ~ acp_bit d ->
  in_range d a -> in_range d b ->
  sighash_write H a d = Some pre -> sighash_write H b d = Some pre ->
  sd_tx a = sd_tx b /\
  (forall ca cb, stripped (sd_code a) ca -> stripped (sd_code b) cb -> ca <> [] -> sd_index a = sd_index b /\ ca = cb).
Proof.
  intros Wa Wb F K A (Ra & _) (Rb & _) Ea Eb.
  destruct (original_commits H a b d d pre Wa Wb F F Ea Eb) as (_ & ca & cb & t & Ca & Cb & Sa & Sb).
  destruct Sa as [V L _ I O _ _]. destruct Sb as [V' L' _ I' O' _ _].
  destruct (I A) as (N1 & S1). destruct (I' A) as (N2 & S2). specialize (O K). specialize (O' K).
  assert (EI : it_inputs (sd_tx a) = it_inputs (sd_tx b)).
  { apply nth_ext_opt; [congruence|]. intros k x y X Y.
    destruct (nth_error (tx_inputs t) k) as [j|] eqn:J.
    2:{ apply nth_error_None in J. assert (nth_error (it_inputs (sd_tx a)) k <> None) as Q by congruence.
        apply nth_error_Some in Q. lia. }
    specialize (S1 k x j X J). specialize (S2 k y j Y J).
    destruct S1 as (R1 & P1 & Q1), S2 as (R2 & P2 & Q2).
    assert (Q : in_seq j = ii_seq x).
    { destruct (N.eq_dec (N.of_nat k) (sd_index a)) as [E|E]; [now destruct (P1 E)|]. destruct (Q1 E) as (_ & Q & _). auto. }
    assert (Q' : in_seq j = ii_seq y).
    { destruct (N.eq_dec (N.of_nat k) (sd_index b)) as [E|E]; [now destruct (P2 E)|]. destruct (Q2 E) as (_ & Q' & _). auto. }
    destruct x, y; cbn in *; congruence. }
  split; [destruct (sd_tx a), (sd_tx b); cbn in *; congruence|].
  intros ca' cb' Ca' Cb' NE. assert (ca' = ca) by (eapply code_form_fun; eauto). assert (cb' = cb) by (eapply code_form_fun; eauto).
  subst ca' cb'.
  destruct (nth_error (it_inputs (sd_tx a)) (N.to_nat (sd_index a))) as [x|] eqn:X; [|apply nth_error_None in X; lia].
  destruct (nth_error (tx_inputs t) (N.to_nat (sd_index a))) as [j|] eqn:J; [|apply nth_error_None in J; lia].
  pose proof X as Y. rewrite EI in Y.
  destruct (S1 _ _ _ X J) as (_ & P1 & _). destruct (S2 _ _ _ Y J) as (_ & P2 & Q2).
  destruct (P1 ltac:(lia)) as [Ec _].
  destruct (N.eq_dec (N.of_nat (N.to_nat (sd_index a))) (sd_index b)) as [E|E].
  - destruct (P2 E) as [Ec' _]. split; [lia|congruence].
  - destruct (Q2 E) as [Ec' _]. congruence.
Qed.

(* a preimage never serves both algorithms: the last four bytes hold the directive *)
Lemma preimage_tail H doc d pre : sighash_write H doc d = Some pre -> exists p, pre = p ++ le 4 (b2n d).
Proof.
  intros E. destruct (has_fork_id d) eqn:F.
  - unfold sighash_write, sighash_write_cached in E. rewrite F in E. unfold amaury in E.
    destruct (if negb _ then _ else _) as [p c1]. destruct (if _ && _ then _ else _) as [q c2].
    destruct (at_index _ _) as [x|]; [|discriminate]. destruct (compile _) as [code|]; [|discriminate].
    destruct (if sh_base d =? SH_ALL then _ else _) as [[o c3]|]; [|discriminate].
    cbn [option_map fst] in E. apply some_eq in E. subst pre. eexists. rewrite !app_assoc. reflexivity.
  - apply fork_niff in F. rewrite (sighash_original H doc d F) in E. unfold write_original in E.
    destruct (reconstruct doc d); [|discriminate]. apply some_eq in E. subst. eauto.
Qed.

Theorem preimage_determines_directive H a b d e pre :
  sighash_write H a d = Some pre -> sighash_write H b e = Some pre -> d = e.
Proof.
  intros Ea Eb. apply preimage_tail in Ea as (p & ->). apply preimage_tail in Eb as (q & E).
  apply app_inj_len_r in E as [_ E]; [|now rewrite !le_length]. apply b2n_inj, (le_inj 4); auto using d_u32.
Qed.

(* ---------------------------------------------------------------- independence from input scripts *)
Lemma map2_iinput l : forall m, length m = length l -> map iinput_of (map2 iinput_complete l m) = l.
Proof.
  induction l as [|x l IH]; intros [|b m] L; try discriminate L; cbn [map2 map]; [reflexivity|].
  f_equal; [now destruct x|]. apply IH. now inversion L.
Qed.
Theorem scripts_irrelevant H t scripts i v p d : length scripts = length (tx_inputs t) ->
  sighash_write H {| sd_tx := itx_of (with_scripts t scripts); sd_index := i; sd_value := v; sd_code := p |} d =
  sighash_write H {| sd_tx := itx_of t; sd_index := i; sd_value := v; sd_code := p |} d.
Proof.
  intros L. unfold itx_of, with_scripts. cbn. now rewrite map2_iinput by now rewrite map_length.
Qed.

(* ---------------------------------------------------------------- incomplete and complete *)
Theorem complete_exact t scripts u : itx_complete t scripts = Ret u <-> itx_of u = t /\ map in_script (tx_inputs u) = scripts.
Proof.
  unfold itx_complete. split.
  - destruct (Nat.eqb _ _) eqn:E; [|discriminate]. apply Nat.eqb_eq in E. intros K. inversion K; subst u; clear K.
    unfold itx_of; cbn. split.
    + rewrite map2_iinput by exact E. now destruct t.
    + revert E. generalize (it_inputs t). intros l. revert scripts. induction l as [|x l IH]; intros [|s m] L; try discriminate L; [reflexivity|].
      cbn [map2 map]. f_equal. apply IH. now inversion L.
  - intros (<- & <-). unfold itx_of at 1. cbn [it_inputs itx_of]. rewrite !map_length, Nat.eqb_refl. f_equal.
    destruct u as [v ins outs lk]; cbn. f_equal. induction ins as [|x ins IH]; [reflexivity|].
    cbn [map map2]. f_equal; [now destruct x|exact IH].
Qed.
Theorem complete_throws_exact t scripts : itx_complete t scripts = Throw X_logic_error <-> length scripts <> length (it_inputs t).
Proof.
  unfold itx_complete. destruct (Nat.eqb _ _) eqn:E; [apply Nat.eqb_eq in E|apply Nat.eqb_neq in E];
  split; try discriminate; tauto.
Qed.

Lemma itx_bytes_eq t : itx_wf t -> exists u, itx_complete t (map (fun _ => []) (it_inputs t)) = Ret u /\ tx_wf u /\ itx_bytes t = Ret (tx_write u).
Proof.
  intros (W1 & (W2n & W2) & W3 & W4). unfold itx_complete, itx_bytes. rewrite map_length, Nat.eqb_refl.
  assert (E : map2 iinput_complete (it_inputs t) (map (fun _ => []) (it_inputs t)) = map (fun i => iinput_complete i []) (it_inputs t)).
  { induction (it_inputs t) as [|x l IH]; [reflexivity|]. cbn [map map2]. f_equal.
    apply IH; [unfold u64 in *; cbn [length] in W2n; lia|now inversion W2]. }
  rewrite E. eexists. split; [reflexivity|]. split.
  - unfold tx_wf, seq_wf. cbn [tx_version tx_inputs tx_outputs tx_locktime]. rewrite map_length.
    split; [exact W1|]. split; [split; [exact W2n|]|split; assumption].
    apply Forall_map. eapply Forall_impl; [|exact W2]. intros i [A B]. repeat split; auto; apply A.
  - unfold tx_bytes. rewrite WireProofs.buffer_write_exact; [reflexivity|]. apply tx_len. cbn.
    apply Forall_map. eapply Forall_impl; [|exact W2]. intros i [A B]. repeat split; auto; apply A.
Qed.

(* reading back the bytes of an incomplete transaction *)
Theorem incomplete_bytes_exact t b : itx_wf t -> itx_bytes t = Ret b ->
  (forall u, itx_of_bytes b = Ret u -> u = t) /\
  ((exists u, itx_of_bytes b = Ret u) <->
     (exists i, it_inputs t = [i] /\ ii_ref i = outpoint_zero) /\ it_outputs t <> [] /\ Forall (fun o => output_valid o = true) (it_outputs t)) /\
  (~ (exists u, itx_of_bytes b = Ret u) -> itx_of_bytes b = Throw X_invalid_argument).
Proof.
  intros W E. destruct (itx_bytes_eq t W) as (u & Cu & Wu & Eu). rewrite E in Eu. inversion Eu; subst b.
  assert (R : tx_of_slice (tx_write u) = u).
  { unfold tx_of_slice. rewrite <- (app_nil_r (tx_write u)), (c_rt _ _ _ codec_tx) by exact Wu. reflexivity. }
  apply complete_exact in Cu as (Ci & Cs). unfold itx_of_bytes. rewrite R.
  assert (V : tx_valid u = Ret (match it_inputs t, it_outputs t with
     | [i], (_ :: _) as outs => outpoint_eqb (ii_ref i) outpoint_zero && forallb output_valid outs
     | _, _ => false end)).
  { unfold tx_valid. rewrite <- Ci. unfold itx_of. cbn [it_inputs it_outputs]. rewrite <- Ci in Cs. cbn [it_inputs itx_of] in Cs.
    destruct (tx_inputs u) as [|i r]; [reflexivity|]. destruct (tx_outputs u) as [|o os].
    { cbn [map]. destruct r; reflexivity. }
    cbn [map] in Cs. inversion Cs as [[Hs Hr]].
    cbn [inputs_valid]. unfold input_valid. rewrite Hs. change (decompile []) with (@Ret sexn program []). cbn iota beta.
    cbn [map]. destruct r as [|i' r]; cbn [map]; [|reflexivity]. reflexivity. }
  rewrite V. destruct (it_inputs t) as [|i [|i2 r]] eqn:I.
  - split; [discriminate|]. split; [|intros _; reflexivity]. split; [intros (x & K); discriminate K|]. intros ((i & K & _) & _). discriminate K.
  - destruct (it_outputs t) as [|o os] eqn:O.
    { split; [discriminate|]. split; [|intros _; reflexivity]. split; [intros (x & K); discriminate K|]. intros (_ & K & _). contradiction. }
    assert (Q : outpoint_eqb (ii_ref i) outpoint_zero = true <-> ii_ref i = outpoint_zero).
    { unfold outpoint_eqb. destruct (ii_ref i) as [dg ix]. cbn [op_digest op_index]. rewrite andb_true_iff, bytes_eqb_eq, N.eqb_eq.
      split; [intros (-> & ->); reflexivity|]. intros K. inversion K. auto. }
    destruct (outpoint_eqb (ii_ref i) outpoint_zero && forallb output_valid (o :: os)) eqn:T.
    + apply andb_true_iff in T as (T1 & T2). split; [intros x K; inversion K; exact Ci|]. split; [|intros NE; exfalso; apply NE; eauto].
      split; [|eauto]. intros _. split; [exists i; split; [reflexivity|now apply Q]|]. split; [discriminate|].
      apply Forall_forall. intros y Y. rewrite forallb_forall in T2. auto.
    + split; [discriminate|]. split; [|intros _; reflexivity]. split; [intros (x & K); discriminate K|].
      intros ((i' & K & Z) & _ & FV). inversion K; subst i'. apply Q in Z. rewrite Z in T. cbn [andb] in T.
      assert (forallb output_valid (o :: os) = true) as FB by (apply forallb_forall; rewrite Forall_forall in FV; auto). congruence.
  - split; [discriminate|]. split; [|intros _; reflexivity]. split; [intros (x & K); discriminate K|]. intros ((i' & K & _) & _). discriminate K.
Qed.

(* ---------------------------------------------------------------- signature::hash *)
Theorem signature_hash_exact H doc d : sdoc_wf doc -> (0 <= sd_value doc)%Z -> in_range d doc ->
  exists pre, sighash_write H doc d = Some pre /\ signature_hash H doc d = Some (H pre).
Proof.
  intros W V R. assert (D : exists pre, sighash_write H doc d = Some pre).
  { destruct (has_fork_id d) eqn:F; [apply fork_iff in F; now apply fork_defined_exact|].
    apply fork_niff in F. now apply original_defined. }
  destruct D as (pre & E). exists pre. split; [exact E|]. unfold signature_hash. rewrite E, base_kind.
  destruct R as (R1 & R3). unfold sdoc_valid, SH_SINGLE.
  destruct (0 <=? sd_value doc)%Z eqn:T1; [|lia]. destruct (sd_index doc <? _) eqn:T2; [|lia]. cbn [andb negb orb].
  destruct (kind d =? 3) eqn:K; [|reflexivity]. cbn [andb].
  destruct (N.of_nat (length (it_outputs (sd_tx doc))) <=? sd_index doc) eqn:T3; [lia|reflexivity].
Qed.

Theorem signature_hash_zero_exact H doc d : ~ (0 <= sd_value doc)%Z \/ ~ in_range d doc -> signature_hash H doc d = Some zero32.
Proof.
  intros B. unfold signature_hash, sdoc_valid, in_range in *. rewrite base_kind. unfold SH_SINGLE.
  destruct (0 <=? sd_value doc)%Z eqn:T1; [|reflexivity]. cbn [andb].
  destruct (sd_index doc <? _) eqn:T2; [|reflexivity]. cbn [negb orb].
  destruct (kind d =? 3) eqn:K; cbn [andb].
  - destruct (N.of_nat (length (it_outputs (sd_tx doc))) <=? sd_index doc) eqn:T3; [reflexivity|]. lia.
  - lia.
Qed.

(* ---------------------------------------------------------------- the consensus rule *)
Theorem outputs_vs_consensus doc d code t : seen doc d code t -> 
  (tx_outputs t = consensus_outputs d doc <->
   kind d = 1 \/ kind d = 2 \/ (kind d = 3 /\ sd_index doc = 0) \/ (kind d <> 1 /\ kind d <> 2 /\ kind d <> 3 /\ it_outputs (sd_tx doc) = [])).
Proof.
  intros [_ _ _ _ O1 O3 O0]. unfold consensus_outputs.
  destruct (N.eq_dec (kind d) 1) as [K1|K1].
  { rewrite O1, K1 by exact K1. cbn. tauto. }
  destruct (N.eq_dec (kind d) 2) as [K2|K2].
  { rewrite K2. cbn. rewrite O0 by lia. tauto. }
  destruct (N.eq_dec (kind d) 3) as [K3|K3].
  - destruct (O3 K3) as (o & -> & ->). rewrite K3. cbn [N.eqb Pos.eqb].
    split.
    + intros E. apply (f_equal (@length _)) in E. rewrite app_length, repeat_length in E. cbn [length] in E. right; right; left. lia.
    + intros [E|[E|[(_ & E)|E]]]; try lia. rewrite E. reflexivity.
  - rewrite O0 by assumption. destruct (kind d =? 2) eqn:T2; [lia|]. destruct (kind d =? 3) eqn:T3; [lia|].
    split; [intros E; right; right; right; auto|]. intros [E|[E|[E|(_ & _ & _ & E)]]]; try lia. auto.
Qed.

Theorem sequences_vs_consensus doc d code t : seen doc d code t -> ~ acp_bit d -> 1 <= kind d <= 3 ->
  forall k i j, nth_error (it_inputs (sd_tx doc)) k = Some i -> nth_error (tx_inputs t) k = Some j ->
    in_seq j = consensus_sequence d doc (N.of_nat k) i.
Proof.
  intros [_ _ _ I _ _ _] A K k i j X J. destruct (I A) as (_ & S). destruct (S k i j X J) as (_ & P & Q).
  unfold consensus_sequence. destruct (N.of_nat k =? sd_index doc) eqn:T; cbn [negb andb].
  - apply P. lia.
  - destruct (Q ltac:(lia)) as (_ & Q1 & Q2). destruct (kind d =? 2) eqn:T2; cbn [orb]; [apply Q2; lia|].
    destruct (kind d =? 3) eqn:T3; [apply Q2; lia|apply Q1; lia].
Qed.

(* ---------------------------------------------------------------- owners of cached hashes *)
Lemma hp_set_nth l i x k y : nth_error (hp_set l i x) k = Some y ->
  (k = i /\ y = x) \/ (k <> i /\ nth_error l k = Some y).
Proof.
  revert i k. induction l as [|z l IH]; intros [|i] [|k] E; cbn in *; try discriminate E.
  - left. split; [reflexivity|congruence].
  - right. split; [lia|auto].
  - right. split; [lia|auto].
  - destruct (IH i k E) as [(-> & ->)|(N1 & E')]; [left|right]; split; auto; lia.
Qed.
Lemma hp_set_length l i x : length (hp_set l i x) = length l.
Proof. revert i; induction l as [|z l IH]; intros [|i]; cbn; auto. Qed.

Lemma hstep_harmless h o : heap_inv h -> harmless h o -> exists h', hstep h o = Some h' /\ heap_inv h'.
Proof.
  intros (A & B & C) S.
  assert (LIVE : forall i p, nth_error (hp_objects h) i = Some (Some p) -> existsb (Nat.eqb p) (hp_live h) = true).
  { intros i p E. apply existsb_exists. exists p. split; [eauto|apply Nat.eqb_refl]. }
  assert (SNOC : forall i p, nth_error (hp_objects h ++ [None]) i = Some (Some p) -> nth_error (hp_objects h) i = Some (Some p)).
  { intros i p E. destruct (Nat.lt_ge_cases i (length (hp_objects h))) as [L|L]; [now rewrite nth_error_app1 in E|].
    rewrite nth_error_app2 in E by exact L. destruct (i - length (hp_objects h))%nat as [|[|n]]; discriminate E. }
  destruct o as [|i|i|i]; cbn [hstep harmless] in *.
  - eexists. split; [reflexivity|]. unfold heap_inv; cbn. repeat split; eauto.
  - destruct (nth_error (hp_objects h) i) as [[p|]|] eqn:E.
    + rewrite (LIVE i p E). exists h. repeat split; auto.
    + eexists. split; [reflexivity|]. unfold heap_inv; cbn. repeat split.
      * intros k p K. apply hp_set_nth in K as [(_ & K)|(_ & K)]; [left; congruence|right; eauto].
      * intros k j p K J. apply hp_set_nth in K as [(-> & K)|(Nk & K)]; apply hp_set_nth in J as [(-> & J)|(Nj & J)]; auto.
        -- inversion K; subst p. apply A in J. apply C in J. lia.
        -- inversion J; subst p. apply A in K. apply C in K. lia.
        -- eauto.
      * intros p [<-|P]; [lia|]. apply C in P. lia.
    + apply nth_error_None in E. lia.
  - rewrite S. eexists. split; [reflexivity|]. unfold heap_inv; cbn. repeat split; eauto.
  - destruct (nth_error (hp_objects h) i) as [[p|]|] eqn:E.
    + rewrite (LIVE i p E). eexists. split; [reflexivity|]. unfold heap_inv; cbn. repeat split.
      * intros k q K. apply hp_set_nth in K as [(_ & K)|(Nk & K)]; [discriminate K|]. apply filter_In. split; [eauto|].
        apply negb_true_iff, Nat.eqb_neq. intros ->. apply Nk. eauto.
      * intros k j q K J. apply hp_set_nth in K as [(_ & K)|(Nk & K)]; [discriminate K|].
        apply hp_set_nth in J as [(_ & J)|(Nj & J)]; [discriminate J|]. eauto.
      * intros q Q. apply filter_In in Q as (Q & _). auto.
    + exists h. repeat split; auto.
    + apply nth_error_None in E. lia.
Qed.

Lemma hrun_harmless_from h l : heap_inv h -> harmless_run h l -> exists h', hrun h l = Some h'.
Proof.
  intros I R. revert I. induction R as [h|h o l S R IH]; intros I; cbn [hrun]; [eauto|].
  destruct (hstep_harmless h o I S) as (h' & E & I'). rewrite E. apply IH; auto.
Qed.
Theorem hrun_harmless l : harmless_run empty_heap l -> exists h', hrun empty_heap l = Some h'.
Proof.
  apply hrun_harmless_from. unfold heap_inv, empty_heap; cbn. repeat split.
  - intros [|i] p E; discriminate E.
  - intros [|i] j p E; discriminate E.
  - intros p [].
Qed.
(* a filled object that is copied, after which both objects are destroyed *)
Theorem double_free h i : heap_inv h -> (exists p, nth_error (hp_objects h) i = Some (Some p)) ->
  hrun h [HCopy i; HDestroy i; HDestroy (length (hp_objects h))] = None.
Proof.
  intros (A & _) (p & E). cbn [hrun hstep]. rewrite E. cbn [hrun hstep hp_objects hp_live].
  assert (L : (i < length (hp_objects h))%nat) by (apply nth_error_Some; congruence).
  rewrite nth_error_app1, E by exact L.
  assert (X : existsb (Nat.eqb p) (hp_live h) = true).
  { apply existsb_exists. exists p. split; [eapply A; eauto|apply Nat.eqb_refl]. }
  rewrite X. cbn [hp_objects hp_live].
  assert (Y : nth_error (hp_set (hp_objects h ++ [Some p]) i None) (length (hp_objects h)) = Some (Some p)).
  { clear -L. revert i L. induction (hp_objects h) as [|x l IH]; intros i L; cbn [length] in *; [lia|].
    destruct i as [|i]; cbn [app hp_set nth_error].
    - rewrite nth_error_app2, Nat.sub_diag by lia. reflexivity.
    - apply IH. lia. }
  rewrite Y. assert (Z : existsb (Nat.eqb p) (filter (fun q => negb (Nat.eqb p q)) (hp_live h)) = false).
  { apply not_true_iff_false. intros T. apply existsb_exists in T as (q & Q & T). apply filter_In in Q as (_ & Q).
    rewrite T in Q. discriminate Q. }
  now rewrite Z.
Qed.

(* ---- transaction::valid ---- *)
Lemma inputs_valid_true : forall l, inputs_valid l = Ret true <-> Forall (fun i => exists p, decompile (in_script i) = Ret p /\ p <> []) l.
Proof.
  induction l as [|i r IH]; cbn [inputs_valid]; [split; intros; [constructor|reflexivity]|].
  unfold input_valid. split.
  - intros E. destruct (decompile (in_script i)) as [p| |] eqn:D; try discriminate. destruct p as [|x p]; [discriminate|].
    constructor; [exists (x :: p); split; [exact D|discriminate]|apply IH; exact E].
  - intros F. inversion F as [|? ? (p & D & Ne) F']; subst. rewrite D. destruct p; [congruence|]. apply IH; assumption.
Qed.
Lemma outpoint_eqb_eq' : forall a b, outpoint_eqb a b = true <-> a = b.
Proof.
  intros [da ia] [db ib]. unfold outpoint_eqb. cbn [op_digest op_index]. rewrite andb_true_iff, bytes_eqb_eq, N.eqb_eq. split.
  - intros [-> ->]. reflexivity.
  - intros E. split; congruence.
Qed.
Lemma output_valid_iff : forall o, output_valid o = true <->
  (out_value o < 2100000000000000)%Z /\ ((0 < out_value o)%Z \/ provably_unspendable (out_script o) true = true).
Proof. intros o. unfold output_valid. rewrite andb_true_iff, orb_true_iff, !Z.ltb_lt. reflexivity. Qed.
Lemma tx_valid_iff : forall t, tx_valid t = Ret true <->
  tx_outputs t <> [] /\
  Forall (fun o => (out_value o < 2100000000000000)%Z /\ ((0 < out_value o)%Z \/ provably_unspendable (out_script o) true = true)) (tx_outputs t) /\
  ((tx_inputs t <> [] /\ Forall (fun i => exists p, decompile (in_script i) = Ret p /\ p <> []) (tx_inputs t)) \/
   (exists i p, tx_inputs t = [i] /\ in_ref i = outpoint_zero /\ decompile (in_script i) = Ret p)).
Proof.
  intros t. unfold tx_valid.
  assert (FO : forallb output_valid (tx_outputs t) = true <->
    Forall (fun o => (out_value o < 2100000000000000)%Z /\ ((0 < out_value o)%Z \/ provably_unspendable (out_script o) true = true)) (tx_outputs t)).
  { rewrite forallb_forall, Forall_forall. split; intros F o Io; apply output_valid_iff; auto. }
  rewrite <- FO. clear FO. destruct (tx_inputs t) as [|i r].
  - split; [discriminate|]. intros (_ & _ & [[C _]|(i & p & C & _)]); [congruence|discriminate].
  - destruct (tx_outputs t) as [|o os]; [split; [discriminate|intros (C & _); congruence]|].
    split.
    + intros E. split; [discriminate|]. destruct (inputs_valid (i :: r)) as [v| |] eqn:V; try discriminate.
      assert (B : (v || match r with [] => outpoint_eqb (in_ref i) outpoint_zero | _ => false end) && forallb output_valid (o :: os) = true) by congruence.
      apply andb_prop in B. destruct B as [B FB]. split; [exact FB|]. apply orb_prop in B. destruct B as [-> | B].
      * left. split; [discriminate|]. apply inputs_valid_true. exact V.
      * right. destruct r; [|discriminate]. cbn [inputs_valid] in V. unfold input_valid in V.
        destruct (decompile (in_script i)) as [p| |] eqn:D; try discriminate. exists i, p. split; [reflexivity|]. split; [apply outpoint_eqb_eq'; exact B|exact D].
    + intros (_ & FB & [[_ FI]|(i' & p & Ei & Z & D)]).
      * apply inputs_valid_true in FI. rewrite FI, FB. reflexivity.
      * assert (i' = i) by congruence. assert (r = []) by congruence. subst i' r. cbn [inputs_valid]. unfold input_valid. rewrite D.
        assert (outpoint_eqb (in_ref i) outpoint_zero = true) as -> by (apply outpoint_eqb_eq'; exact Z). rewrite FB.
        destruct p; reflexivity.
Qed.
