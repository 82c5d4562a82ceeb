From Verif Require Import Base BaseProofs WireModel WireProofs ScriptModel ScriptSpec ScriptProofs ProgramProofs NumModel NumSpec NumProofs.
From Verif Require Import StackModel StackSpec StackProofs MachineModel MachineSpec MachineProofs OpcodeProofs RunProofs ControlProofs FlowProofs SpendProofs.
From Verif Require Import StraightSpec StraightProofs.
From Coq Require Import Lia ZifyBool ZifyNat ZifyN.
Ltac Zify.zify_post_hook ::= Z.div_mod_to_equations.
Local Open Scope N_scope.

(* ---- scripts that only push ---- *)

Lemma push_op_direct o : is_push_op o = true ->
  impure o = false /\ o <> OP_CODESEPARATOR /\ positional o = false /\ (b2n OP_16 <? b2n o) = false /\ ~ control_op o /\ o <> OP_RETURN.
Proof.
  intros H. assert (Bd : (b2n OP_16 <? b2n o) = false) by (unfold is_push_op in H; change (b2n OP_16) with 96; lia).
  assert (R : forall q, (b2n OP_16 <? b2n q) = true -> o <> q) by (intros q Q ->; congruence).
  assert (C : impure o = false /\ positional o = false) by (revert Bd; clear; destruct o; vm_compute; intros; try discriminate; split; reflexivity).
  destruct C as [C1 C2]. repeat (split; [first [assumption|apply R; reflexivity]|]). split; [|apply R; reflexivity].
  unfold control_op. intros [Q|[Q|[Q|Q]]]; revert Q; apply R; reflexivity.
Qed.
Lemma push_effect X cf i s a : is_push_op (i_op i) = true -> instr_effect X cf i s a = Some (pushed_by i :: s, a).
Proof.
  intros H. unfold instr_effect, pushed_by, push_value.
  assert (Np : is_push_data (i_op i) = (b2n (i_op i) <=? b2n OP_PUSHDATA4)) by (unfold is_push_data; reflexivity).
  assert (Nr : byte_eqb (i_op i) OP_RETURN = false). { apply byte_eqb_neq. now apply push_op_direct. }
  rewrite Np, Nr, H, orb_false_r. cbn [negb].
  destruct (b2n (i_op i) <=? b2n OP_PUSHDATA4) eqn:E; [reflexivity|].
  revert H E. clear. destruct (i_op i); vm_compute; intros; try discriminate; reflexivity.
Qed.

Section Pushes.
Variable X : externals.
Variable cf : config.

Lemma footprint_app s t : footprint (s ++ t) = footprint s + footprint t.
Proof. induction s as [|x s IH]; cbn [app]; [rewrite footprint_nil; lia|]. rewrite !footprint_cons, IH. lia. Qed.
Lemma runs_push B i q s a R : is_push_op (i_op i) = true -> room s a <= B -> runs X cf B q (pushed_by i :: s) a R -> runs X cf B (i :: q) s a R.
Proof.
  intros P L H. destruct (push_op_direct _ P) as (A1 & A2 & A3 & _). eapply runs_on; [assumption| |apply push_effect; assumption|exact H].
  split; [assumption|]. split; [assumption|]. congruence.
Qed.
Lemma runs_pushes B u : forall s a, is_push_program u = true -> room (stack_after u ++ s) a <= B ->
  runs X cf B u s a (Some (stack_after u ++ s, a)).
Proof.
  unfold stack_after. induction u as [|i u IH]; intros s a P L; [apply runs_end; exact L|].
  cbn [is_push_program forallb] in P. apply andb_prop in P as [P1 P2]. fold (is_push_program u) in P2.
  cbn [map rev] in L |- *. rewrite <- app_assoc in L |- *. cbn [app] in L |- *. apply runs_push; [assumption| |apply IH; assumption].
  unfold room in *. rewrite footprint_app, footprint_cons in L. lia.
Qed.
Lemma counted_pushes u : is_push_program u = true -> counted (ops u) = 0.
Proof.
  induction u as [|i u IH]; intros P; [reflexivity|]. cbn [is_push_program forallb] in P. apply andb_prop in P as [P1 P2].
  cbn [ops map]. fold (ops u). rewrite counted_cons, (IH P2). destruct (push_op_direct _ P1) as (_ & _ & _ & -> & _). reflexivity.
Qed.
End Pushes.

(* ---- the check before the run ---- *)

Lemma decompile_loop_verified fuel : forall c b p, decompile_loop fuel c b = Ret p -> Forall (fun i => instr_verify 0 i = E_OK) p.
Proof.
  induction fuel as [|fuel IH]; intros c b p; destruct b as [|x b]; cbn [decompile_loop]; try discriminate; try (intros H; assert (p = []) as -> by congruence; constructor).
  destruct (read_instr (x :: b)) as [[i r]|e|]; try discriminate.
  destruct (instr_verify 0 i) eqn:V; try discriminate. destruct (control_decompile (i_op i) c) as [c'|]; try discriminate.
  destruct (decompile_loop fuel c' r) as [q|e|] eqn:D; try discriminate. intros H. assert (p = i :: q) as -> by congruence.
  constructor; [assumption|]. eapply IH. exact D.
Qed.
Lemma decompile_verified b p : decompile b = Ret p -> Forall (fun i => instr_verify 0 i = E_OK) p.
Proof. apply decompile_loop_verified. Qed.
Lemma verify_minimal f i : instr_verify 0 i = E_OK ->
  (instr_verify f i = E_OK <-> (has_flag FLAG_MINIMALDATA f = true -> is_minimal_instruction i = true)).
Proof.
  unfold instr_verify, is_minimal_instruction. destruct (verify_instruction i); try discriminate. intros _.
  destruct (has_flag FLAG_MINIMALDATA f); cbn [andb]; destruct (is_minimal_push (i_op i) (i_data i)); cbn [negb]; split; try reflexivity; try discriminate; try tauto.
  intros H. now specialize (H eq_refl).
Qed.
Lemma all_verified cf p : Forall (fun i => instr_verify 0 i = E_OK) p ->
  (Forall (fun i => instr_verify (c_flags cf) i = E_OK) p <-> well_pushed cf p).
Proof.
  unfold well_pushed. rewrite !Forall_forall. intros V. split.
  - intros H F i Hi. apply (proj1 (verify_minimal (c_flags cf) i (V i Hi))); auto.
  - intros H i Hi. apply (verify_minimal _ _ (V i Hi)). intros F. exact (H F i Hi).
Qed.
Lemma balanced_plain l : Forall (fun o => ~ control_op o) l -> balanced l.
Proof. induction 1; constructor; assumption. Qed.

Lemma well_pushed_app cf p q : well_pushed cf (p ++ q) <-> well_pushed cf p /\ well_pushed cf q.
Proof.
  unfold well_pushed. split.
  - intros H. split; intros F; specialize (H F); apply Forall_app in H; tauto.
  - intros [H1 H2] F. apply Forall_app. auto.
Qed.

Lemma impure_control o : impure o = false -> ~ control_op o /\ o <> OP_RETURN.
Proof. intros H. split; [intros [-> | [-> | [-> | ->]]]|intros ->]; discriminate. Qed.

Lemma pre_verify_plain cf u q : is_push_program u = true ->
  Forall (fun i => instr_verify 0 i = E_OK) (u ++ q ++ [op_instr OP_CHECKSIG]) ->
  let p := u ++ [op_instr OP_CODESEPARATOR] ++ q ++ [op_instr OP_CHECKSIG] in
  (pre_verify p (c_flags cf) = E_OK -> well_pushed cf (u ++ q ++ [op_instr OP_CHECKSIG])) /\
  (forallb (fun o => negb (impure o)) (ops q) = true -> well_pushed cf (u ++ q ++ [op_instr OP_CHECKSIG]) -> pre_verify p (c_flags cf) = E_OK).
Proof.
  intros Pu V p.
  assert (Cs : instr_verify 0 (op_instr OP_CODESEPARATOR) = E_OK) by reflexivity.
  assert (Vp : Forall (fun i => instr_verify 0 i = E_OK) p).
  { apply Forall_app in V as [V1 V2]. apply Forall_app. split; [assumption|]. constructor; assumption. }
  assert (W : well_pushed cf p <-> well_pushed cf (u ++ q ++ [op_instr OP_CHECKSIG])).
  { unfold p. rewrite !well_pushed_app. split; [tauto|]. intros (A & C & D). repeat split; try assumption.
    intros _. constructor; [reflexivity|constructor]. }
  split.
  - intros H. apply (proj1 (pre_verify_exact _ _)) in H as [(H & _) | [(_ & H) | (_ & j & H & Hj)]].
    + apply W. apply all_verified; assumption.
    + exfalso. apply (f_equal (@length byte)) in H. unfold ops, p in H. rewrite map_length, !app_length in H. cbn in H. lia.
    + exfalso. assert (E : p = (u ++ [op_instr OP_CODESEPARATOR] ++ q) ++ [op_instr OP_CHECKSIG]) by (unfold p; rewrite <- !app_assoc; reflexivity).
      rewrite E in H. change ([op_instr x00; j]) with ([op_instr x00] ++ [j]) in H. apply app_inj_tail in H as [_ H]. subst j. discriminate.
  - intros Pq H. apply pre_verify_exact. left. split; [apply all_verified; [assumption|apply W; assumption]|].
    assert (Np : Forall (fun o => ~ control_op o /\ o <> OP_RETURN) (ops p)).
    { unfold p, ops. rewrite !map_app. apply Forall_app. split.
      - apply Forall_forall. intros o Ho. apply in_map_iff in Ho as (i & <- & Hi). unfold is_push_program in Pu.
        rewrite forallb_forall in Pu. destruct (push_op_direct _ (Pu i Hi)) as (_ & _ & _ & _ & A & C). auto.
      - cbn [map app]. constructor; [cbn [op_instr i_op]; apply impure_control; reflexivity|]. apply Forall_app. split.
        + apply Forall_forall. intros o Ho. rewrite forallb_forall in Pq. specialize (Pq o Ho). apply impure_control. now destruct (impure o).
        + constructor; [|constructor]. cbn [op_instr i_op]. split; [unfold control_op; intuition discriminate|discriminate]. }
    split; [apply balanced_plain; eapply Forall_impl; [|exact Np]; cbn; tauto|].
    intros Hi. exfalso. rewrite Forall_forall in Np. destruct (Np _ Hi) as [_ Q]. now apply Q.
Qed.

(* ---- the run ---- *)

Lemma rest0 cf : c_max_memory cf < 2 ^ 63 -> at_rest cf (machine0 cf) [] [] 0.
Proof.
  intros H. destruct (machine0_sound cf H) as [G _]. unfold at_rest. split; [exact G|]. unfold machine0, limits_of. cbn [m_stack m_exec m_ops].
  destruct (has_flag FLAG_GENESIS_STACK (c_flags cf)); repeat split; reflexivity.
Qed.
Lemma rest_roomy cf : roomy (limits_of cf).
Proof. apply (machine0_roomy cf). Qed.
Lemma verify_true r : r_verify r = true -> r = result_of_bool true.
Proof. destruct r as [e b]. unfold r_verify. cbn [r_error r_success]. destruct e, b; try discriminate. reflexivity. Qed.
Lemma verdict_true cf b rest : verdict cf (sn_bool b :: rest) = result_of_bool true <-> b = true /\ clean cf rest.
Proof.
  unfold verdict, clean. destruct (has_flag FLAG_CLEANSTACK (c_flags cf)); cbn [andb].
  - destruct rest as [|x r].
    + cbn [length]. change (N.of_nat 1 =? 1) with true. cbn [negb]. destruct b; split; try discriminate; try tauto; intros [Q _]; discriminate.
    + replace (N.of_nat (length (sn_bool b :: x :: r)) =? 1) with false by (cbn [length]; lia). cbn [negb].
      split; [discriminate|]. intros [_ Q]. specialize (Q eq_refl). discriminate.
  - destruct b; split; try discriminate; try (intros [Q _]; discriminate); intros; try reflexivity. split; [reflexivity|discriminate].
Qed.

Section Evaluation.
Variable X : externals.
Variable doc : option rdoc.
Variable cf : config.
Variable neg1 : bytes.
Hypothesis Tr : truncating X.
Hypothesis Sh : short_hashes X.
Hypothesis Cm : c_max_memory cf < 2 ^ 63.

(* with SIGPUSHONLY, only an unlocking script that is a list of pushes can spend *)
Lemma push_only ux lx : has_flag FLAG_SIGPUSHONLY (c_flags cf) = true -> 2 * len ux + len lx + len neg1 + 2 < 2 ^ 31 ->
  spends X doc cf neg1 ux lx -> exists u, decompile ux = Ret u /\ is_push_program u = true.
Proof.
  intros F Len Sp.
  assert (Er : forall e, setup_program cf neg1 ux lx <> Ret ([], result_of_error e)).
  { intros e E. unfold spends in Sp. destruct (serror_is_ok e) eqn:Ok.
    - apply serror_ok_iff in Ok. subst e. destruct (eval_run X doc cf neg1 ux lx _ _ E eq_refl Len) as (s & Hs & _ & Ev). rewrite Ev in Sp.
      inversion Hs; subst s. revert Sp. cbn [machine_run concat length]. unfold step. cbn [counter_at pc_next nth]. rewrite end_exact.
      change (s_main (m_stack (machine0 cf))) with (@nil bytes). unfold verdict. cbn [length].
      destruct (has_flag FLAG_CLEANSTACK (c_flags cf)); discriminate.
    - unfold evaluate in Sp. destruct (interpreter_starts cf neg1 ux lx _ _ E Len) as (s & _ & _ & Ei). rewrite Ei in Sp.
      unfold interp_run in Sp. cbn [in_halt in_result result_of_error r_error] in Sp. rewrite Ok in Sp. discriminate. }
  assert (Th : forall e, setup_program cf neg1 ux lx <> Throw e). { intros e E. unfold spends, evaluate, interpreter in Sp. rewrite E in Sp. discriminate. }
  assert (Ud : setup_program cf neg1 ux lx <> Undef). { intros E. unfold spends, evaluate, interpreter in Sp. rewrite E in Sp. discriminate. }
  destruct (setup_program cf neg1 ux lx) as [[p r]|e|] eqn:E; [|now destruct (Th e)|now destruct Ud].
  pose proof E as E'. revert E. unfold setup_program. destruct (decompile ux) as [u|[]|] eqn:Eu; try discriminate.
  2:{ intros E. exfalso. assert (p = []) by congruence. assert (r = result_of_error e) by congruence. subst. eapply Er. reflexivity. }
  destruct (is_push_program u) eqn:Pu; [eauto|]. intros E. exfalso.
  assert (Rs : r = result_of_error E_SIG_PUSHONLY \/ exists e, p = [] /\ r = result_of_error e).
  { destruct (decompile lx) as [l|[]|]; try discriminate; [|right; exists e; split; congruence].
    destruct (full neg1 u l _) as [q|[]|]; try (destruct (is_P2SH_program l); discriminate).
    - destruct (is_P2SH_program l) as [b|]; [|discriminate]. rewrite F in E. cbn [negb andb] in E. left. congruence.
    - right. exists e. destruct (is_P2SH_program l); split; congruence. }
  destruct Rs as [->|(e & -> & ->)]; [|eapply Er; reflexivity].
  unfold spends, evaluate in Sp.
  destruct (interpreter_starts cf neg1 ux lx _ _ E' Len) as (s & _ & _ & Ei). rewrite Ei in Sp. discriminate.
Qed.

(* the end of a locking script, from the signature check on *)
Lemma last_step p s : segments p s -> len (concat s) < 2 ^ 31 -> forall lx l j k fuel m st a n,
  length p = S k -> nth_error p k = Some (op_instr OP_CHECKSIG) -> skipn j p = l -> decompile lx = Ret l ->
  at_rest cf m st a n -> n <= c_max_ops cf ->
  (exists r m' c', machine_run X doc cf (S (S fuel)) (counter_at s j k) m = Ret (r, m', c') /\
     (r_verify r = true -> exists pub sig rest, st = pub :: sig :: rest /\ signed doc l sig pub /\ clean cf rest)) /\
  (forall pub sig rest, st = pub :: sig :: rest -> signed doc l sig pub -> clean cf rest -> n + 1 <= c_max_ops cf ->
     exists m' c', machine_run X doc cf (S (S fuel)) (counter_at s j k) m = Ret (result_of_bool true, m', c')).
Proof.
  intros Hs L lx l j k fuel m st a n Lp Ek Sk El (G & Ll & Em & Ea & Ex & Eo) On.
  destruct (next_op p s Hs L k _ Ek) as (t & En & _). cbn [op_instr i_op] in En.
  assert (R : running m = true) by (unfold running; replace (m_exec m) with (@nil bool) by congruence; reflexivity).
  rewrite (run_S X doc cf p s Hs L), (step_cons _ _ _ _ _ OP_CHECKSIG t) by exact En.
  rewrite R, count_exact, Eo. change (b2n OP_16 <? b2n OP_CHECKSIG) with true. cbv iota.
  assert (Bad : forall (r0 : result) (m0 : mstate) (c0 : counter), r_verify r0 = false -> exists r m' c', @Ret unit _ (r0, m0, c0) = Ret (r, m', c') /\
     (r_verify r = true -> exists pub sig rest, st = pub :: sig :: rest /\ signed doc l sig pub /\ clean cf rest)).
  { intros r0 m0 c0 V. exists r0, m0, c0. split; [reflexivity|]. intros. congruence. }
  destruct (N.leb_spec (n + 1) (c_max_ops cf)) as [Oc|Oc].
  2:{ split; [apply Bad; reflexivity|]. intros. lia. }
  change (b2n OP_CHECKSIG <=? b2n OP_PUSHDATA4) with false. cbv iota. cbn [exec_op].
  set (m1 := with_ops m (n + 1)).
  assert (Short : (length st < 2)%nat -> op_checksig doc (counter_at s j k) false m1 = Stop (result_of_error E_INVALID_STACK_OPERATION) m1).
  { intros Q. unfold op_checksig, mbind at 1, need_stack. rewrite need_exact. unfold size. change (m_stack m1) with (m_stack m). rewrite Em.
    replace (2 <=? N.of_nat (length st)) with false by lia. reflexivity. }
  destruct st as [|pub [|sig rest]].
  1,2: rewrite Short by (cbn; lia); split; [apply Bad; reflexivity|intros; discriminate].
  assert (Rm : roomy (s_lim (m_stack m1))) by (change (m_stack m1) with (m_stack m); rewrite Ll; apply rest_roomy).
  pose proof (checksig_exact doc (counter_at s j k) false m1 pub sig rest G Rm Em) as C.
  assert (Code : script_code (counter_at s j k) = Ret l).
  { unfold script_code, counter_at. cbn [pc_sep pc_script]. rewrite skipn_concat, (segments_write _ _ (segments_skip _ _ Hs j)), Sk.
    destruct (decompile_segments _ _ El) as (s2 & H2 & E2 & _). rewrite <- (segments_write _ _ H2), <- E2. exact El. }
  assert (Sr : sig_result doc (counter_at s j k) sig pub =
    inl (match doc with None => result_of_bool true | Some d => d_verify d (cleanup_script_code l sig) sig pub end)).
  { unfold sig_result. destruct doc; [rewrite Code|]; reflexivity. }
  rewrite Sr in C. set (res := match doc with None => _ | Some d => _ end) in *.
  assert (Sd : signed doc l sig pub <-> res = result_of_bool true) by (unfold signed, res; destruct doc; tauto).
  destruct (serror_is_ok (r_error res)) eqn:Er; cbn [negb] in C.
  - destruct C as (m2 & -> & (B1 & B2 & B3 & B4) & C1 & C2 & C3).
    assert (Ns : nth (S k) s [] = []) by (apply nth_overflow; rewrite (segments_length _ _ Hs); lia).
    assert (Es : step X doc cf (counter_at s (next_sep s j k) (S k)) m2 = Stop (verdict cf (sn_bool (r_success res) :: rest)) m2).
    { unfold step. cbn [counter_at pc_next]. rewrite Ns, end_exact, B2. reflexivity. }
    rewrite (run_S X doc cf p s Hs L), Es.
    pose proof (verdict_true cf (r_success res) rest) as V.
    assert (Rs : res = result_of_bool true <-> r_success res = true).
    { clear - Er. destruct res as [e b]. cbn [r_error r_success] in *. apply serror_ok_iff in Er. subst e. unfold result_of_bool. split; congruence. }
    split.
    + do 3 eexists. split; [reflexivity|]. intros Q. apply verify_true, V in Q as [Q1 Q2]. exists pub, sig, rest.
      split; [reflexivity|]. split; [|assumption]. apply Sd, Rs. exact Q1.
    + intros pub' sig' rest' Q Q1 Q2 _. assert (pub' = pub) by congruence. assert (sig' = sig) by congruence. assert (rest' = rest) by congruence. subst.
      assert (Vt : verdict cf (sn_bool (r_success res) :: rest) = result_of_bool true). { apply V. split; [|assumption]. apply Rs, Sd. exact Q1. }
      rewrite Vt. eauto.
  - rewrite C. split.
    + apply Bad. unfold r_verify, result_of_error. cbn [r_error r_success]. apply andb_false_r.
    + intros pub' sig' rest' Q Q1 Q2 _. assert (pub' = pub) by congruence. assert (sig' = sig) by congruence. subst.
      apply Sd in Q1. rewrite Q1 in Er. discriminate.
Qed.

Theorem checksig_spends B ux lx u q R : B < 2 ^ 31 -> decompile ux = Ret u -> is_push_program u = true ->
  decompile lx = Ret (q ++ [op_instr OP_CHECKSIG]) -> has_flag FLAG_P2SH (c_flags cf) = false \/ is_P2SH lx = false ->
  2 * len ux + len lx + len neg1 + 2 < 2 ^ 31 -> runs X cf B q (stack_after u) [] R ->
  (spends X doc cf neg1 ux lx -> exists pub sig rest a, R = Some (pub :: sig :: rest, a) /\
     signed doc (q ++ [op_instr OP_CHECKSIG]) sig pub /\ clean cf rest /\ well_pushed cf (u ++ q ++ [op_instr OP_CHECKSIG])) /\
  (forall pub sig rest a, R = Some (pub :: sig :: rest, a) -> signed doc (q ++ [op_instr OP_CHECKSIG]) sig pub -> clean cf rest ->
     well_pushed cf (u ++ q ++ [op_instr OP_CHECKSIG]) -> forallb (fun o => negb (impure o)) (ops q) = true ->
     ample B (limits_of cf) -> 2 + counted (ops q) <= c_max_ops cf -> spends X doc cf neg1 ux lx).
Proof.
  intros LB Eu Pu El P2 Len Rq. set (l := q ++ [op_instr OP_CHECKSIG]) in *.
  assert (Lx : len lx < 2 ^ 32) by (change (2 ^ 31) with 2147483648 in Len; change (2 ^ 32) with 4294967296; lia).
  pose proof (setup_plain cf neg1 _ _ _ _ Eu El P2 Lx (or_intror Pu)) as St.
  set (p := u ++ [op_instr OP_CODESEPARATOR] ++ l) in *.
  assert (V : Forall (fun i => instr_verify 0 i = E_OK) (u ++ l)) by (apply Forall_app; split; eapply decompile_verified; eassumption).
  destruct (pre_verify_plain cf u q Pu V) as [Pv1 Pv2]. fold l in Pv1, Pv2. fold p in Pv1, Pv2.
  destruct (serror_is_ok (pre_verify p (c_flags cf))) eqn:Eok.
  2:{ split.
      - intros Sp. exfalso. unfold spends, evaluate in Sp. destruct (interpreter_starts cf neg1 ux lx p _ St Len) as (s & _ & _ & E).
        rewrite E in Sp. unfold interp_run in Sp. cbn [in_halt in_result result_of_error r_error] in Sp. rewrite Eok in Sp. cbn [negb in_result] in Sp.
        discriminate.
      - intros pub sig rest a _ _ _ W Pq _ _. rewrite (Pv2 Pq W) in Eok. discriminate. }
  apply serror_ok_iff in Eok. specialize (Pv1 Eok). rewrite Eok in St. clear Pv2.
  destruct (eval_run X doc cf neg1 ux lx p _ St eq_refl Len) as (s & Hs & Ls & Ev).
  pose proof (segments_length _ _ Hs) as Ln. pose proof (segments_concat_length _ _ Hs) as Lc.
  assert (Lp : length p = (length u + (1 + (length q + 1)))%nat) by (unfold p, l; rewrite !app_length; cbn [length]; lia).
  set (f := (length (concat s) - length p)%nat).
  assert (Ef : S (length (concat s)) = (length u + S (length q + S (S f)))%nat) by (unfold f; lia).
  unfold spends. rewrite Ev, Ef. clear Ev Ef.
  assert (Bu : room (stack_after u ++ []) [] <= B) by (rewrite app_nil_r; eapply runs_room; exact Rq).
  destruct (straight X doc cf Tr Sh p s Hs Ls ([], []) eq_refl B u _ _ _ LB (runs_pushes X cf B u [] [] Pu Bu) 0 0 (S (length q + S (S f))) (machine0 cf) 0
    ([op_instr OP_CODESEPARATOR] ++ l) eq_refl (rest0 cf Cm) ltac:(lia)) as [A1 A2].
  rewrite (counted_pushes u Pu), app_nil_r in *. cbn [Nat.add N.add] in A1, A2.
  set (run := machine_run X doc cf _ _ (machine0 cf)).
  assert (Cn : counted [OP_CODESEPARATOR] = 1) by reflexivity.
  assert (Ec : nth_error p (length u) = Some (op_instr OP_CODESEPARATOR)) by (unfold p; rewrite nth_error_app2, Nat.sub_diag by lia; reflexivity).
  assert (Sq : skipn (S (length u)) p = q ++ [op_instr OP_CHECKSIG]).
  { unfold p. rewrite skipn_app, skipn_all2 by lia. replace (S (length u) - length u)%nat with 1%nat by lia. reflexivity. }
  assert (Ek : nth_error p (S (length u) + length q) = Some (op_instr OP_CHECKSIG)).
  { unfold p. rewrite nth_error_app2 by lia. replace (S (length u) + length q - length u)%nat with (S (length q)) by lia. cbn [app nth_error].
    unfold l. rewrite nth_error_app2, Nat.sub_diag by lia. reflexivity. }
  assert (Sp : next_sep s 0 (length u) = S (length u)) by (rewrite (sep_next p s Hs Ls _ _ _ Ec); reflexivity).
  assert (Noz : positional OP_CODESEPARATOR = true -> no_negative_zero cf OP_CODESEPARATOR (stack_after u)) by discriminate.
  assert (Ef0 : instr_effect X cf (op_instr OP_CODESEPARATOR) (stack_after u) [] = Some (stack_after u, [])) by reflexivity.
  assert (Sm : small (stack_after u)) by (eapply room_small; [eapply runs_room; exact Rq|exact LB]).
  assert (Step2 : forall m, at_rest cf m (stack_after u) [] 0 ->
    (fails X doc cf s (S (length q + S (S f))) 0 (length u) m \/
     arrives X doc cf s ([], []) (S (length q + S (S f))) 0 (length u) m (length q + S (S f)) (S (length u)) (S (length u)) (stack_after u) [] 1) /\
    (1 <= c_max_ops cf -> ample B (limits_of cf) ->
     arrives X doc cf s ([], []) (S (length q + S (S f))) 0 (length u) m (length q + S (S f)) (S (length u)) (S (length u)) (stack_after u) [] 1)).
  { intros m At. destruct (one_step X doc cf Tr Sh p s Hs Ls ([], []) eq_refl (op_instr OP_CODESEPARATOR) (length q + S (S f)) 0 (length u) m _ _ 0 Ec At Sm
      ltac:(lia) eq_refl Noz) as [T1 T2]. cbn [op_instr i_op] in T1, T2. rewrite Cn, Sp in T1, T2. cbn [N.add] in T1, T2. split.
    - destruct T1 as [T1|(s' & a' & E' & T1)]; [now left|]. right. rewrite Ef0 in E'.
      assert (s' = stack_after u) by congruence. assert (a' = []) by congruence. subst. exact T1.
    - intros Q Am. apply (T2 _ _ Ef0); [|assumption]. eapply room_fits; [exact Am|]. eapply runs_room. exact Rq. }
  assert (Step3 : forall m, at_rest cf m (stack_after u) [] 1 -> 1 <= c_max_ops cf -> _) by
    (intros m At O1; exact (straight X doc cf Tr Sh p s Hs Ls ([], []) eq_refl B q _ _ _ LB Rq (S (length u)) (S (length u)) (S (S f)) m 1 [op_instr OP_CHECKSIG] Sq At O1)).
  assert (Step4 : forall m st a n, at_rest cf m st a n -> n <= c_max_ops cf -> _) by
    (intros m st a n At On; exact (last_step p s Hs Ls lx l (S (length u)) (S (length u) + length q) f m st a n ltac:(lia) Ek Sq El At On)).
  assert (Fl : forall fuel j k m, fails X doc cf s fuel j k m ->
    match machine_run X doc cf fuel (counter_at s j k) m with Ret (r, _, _) => Ret r | Throw _ => Throw X_Fuel | Undef => Undef end <> Ret (result_of_bool true)).
  { intros fuel j k m (r & m' & c' & -> & Vr) Q. assert (r = result_of_bool true) as -> by congruence. discriminate. }
  split.
  - intros Q. destruct A1 as [A1|(s1 & a1 & Es & _ & m1 & At1 & E1)]; [exfalso; revert Q; apply Fl; exact A1|].
    assert (s1 = stack_after u) by congruence. assert (a1 = []) by congruence. subst s1 a1.
    unfold run in Q. rewrite E1 in Q. destruct (Step2 m1 At1) as [[F|(O2 & m2 & At2 & E2)] _]; [exfalso; revert Q; apply Fl; exact F|].
    rewrite E2 in Q. destruct (Step3 m2 At2 O2) as [[F|(s3 & a3 & E3 & O3 & m3 & At3 & E4)] _]; [exfalso; revert Q; apply Fl; exact F|].
    rewrite E4 in Q. destruct (Step4 m3 s3 a3 _ At3 O3) as [(r & m4 & c4 & E5 & Vr) _]. rewrite E5 in Q.
    assert (r = result_of_bool true) as -> by congruence. destruct (Vr eq_refl) as (pub & sig & rest & -> & Sg & Cl).
    exists pub, sig, rest, a3. repeat (split; [assumption|]). assumption.
  - intros pub sig rest a ER Sg Cl W Pq Am Oc.
    destruct (A2 _ _ eq_refl Am ltac:(lia)) as (_ & m1 & At1 & E1). unfold run. rewrite E1.
    destruct (Step2 m1 At1) as [_ T2]. destruct (T2 ltac:(lia) Am) as (O2 & m2 & At2 & E2). rewrite E2.
    destruct (Step3 m2 At2 O2) as [_ T3]. destruct (T3 _ _ ER Am ltac:(lia)) as (O3 & m3 & At3 & E3). rewrite E3.
    destruct (Step4 m3 _ _ _ At3 O3) as [_ T4]. destruct (T4 pub sig rest eq_refl Sg Cl ltac:(lia)) as (m4 & c4 & E4). rewrite E4. reflexivity.
Qed.
End Evaluation.
