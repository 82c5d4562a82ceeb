From Verif Require Import Base BaseProofs WireModel WireProofs ScriptModel ScriptSpec ScriptProofs ProgramProofs NumModel NumSpec NumProofs.
From Verif Require Import StackModel StackSpec StackProofs MachineModel MachineSpec MachineProofs OpcodeProofs RunProofs ControlProofs FlowProofs SpendProofs.
From Verif Require Import PatternModel StraightSpec StraightProofs StraightEval PayRunSpec PayRunProofs MultiSpec MultiProofs MultiRunSpec.
From Coq Require Import Lia ZifyBool ZifyNat ZifyN.
Ltac Zify.zify_post_hook ::= Z.div_mod_to_equations.
Local Open Scope N_scope.

(* ---- scripts that end with OP_CHECKMULTISIG ---- *)

Lemma pre_verify_multi cf u q : is_push_program u = true ->
  Forall (fun i => instr_verify 0 i = E_OK) (u ++ q ++ [op_instr OP_CHECKMULTISIG]) ->
  let p := u ++ [op_instr OP_CODESEPARATOR] ++ q ++ [op_instr OP_CHECKMULTISIG] in
  (pre_verify p (c_flags cf) = E_OK -> well_pushed cf (u ++ q ++ [op_instr OP_CHECKMULTISIG])) /\
  (forallb (fun o => negb (impure o)) (ops q) = true -> well_pushed cf (u ++ q ++ [op_instr OP_CHECKMULTISIG]) -> pre_verify p (c_flags cf) = E_OK).
Proof.
  intros Pu V p.
  assert (Cs : instr_verify 0 (op_instr OP_CODESEPARATOR) = E_OK) by reflexivity.
  assert (Vp : Forall (fun i => instr_verify 0 i = E_OK) p).
  { apply Forall_app in V as [V1 V2]. apply Forall_app. split; [assumption|]. constructor; assumption. }
  assert (W : well_pushed cf p <-> well_pushed cf (u ++ q ++ [op_instr OP_CHECKMULTISIG])).
  { unfold p. rewrite !well_pushed_app. split; [tauto|]. intros (A & C & D). repeat split; try assumption.
    intros _. constructor; [reflexivity|constructor]. }
  split.
  - intros H. apply (proj1 (pre_verify_exact _ _)) in H as [(H & _) | [(_ & H) | (_ & j & H & Hj)]].
    + apply W. apply all_verified; assumption.
    + exfalso. apply (f_equal (@length byte)) in H. unfold ops, p in H. rewrite map_length, !app_length in H. cbn in H. lia.
    + exfalso. assert (E : p = (u ++ [op_instr OP_CODESEPARATOR] ++ q) ++ [op_instr OP_CHECKMULTISIG]) by (unfold p; rewrite <- !app_assoc; reflexivity).
      rewrite E in H. change ([op_instr x00; j]) with ([op_instr x00] ++ [j]) in H. apply app_inj_tail in H as [_ H]. subst j. discriminate.
  - intros Pq H. apply pre_verify_exact. left. split; [apply all_verified; [assumption|apply W; assumption]|].
    assert (Np : Forall (fun o => ~ control_op o /\ o <> OP_RETURN) (ops p)).
    { unfold p, ops. rewrite !map_app. apply Forall_app. split.
      - apply Forall_forall. intros o Ho. apply in_map_iff in Ho as (i & <- & Hi). unfold is_push_program in Pu.
        rewrite forallb_forall in Pu. destruct (push_op_direct _ (Pu i Hi)) as (_ & _ & _ & _ & A & C). auto.
      - cbn [map app]. constructor; [cbn [op_instr i_op]; apply impure_control; reflexivity|]. apply Forall_app. split.
        + apply Forall_forall. intros o Ho. rewrite forallb_forall in Pq. specialize (Pq o Ho). apply impure_control. now destruct (impure o).
        + constructor; [|constructor]. cbn [op_instr i_op]. split; [unfold control_op; intuition discriminate|discriminate]. }
    split; [apply balanced_plain; eapply Forall_impl; [|exact Np]; cbn; tauto|].
    intros Hi. exfalso. rewrite Forall_forall in Np. destruct (Np _ Hi) as [_ Q]. now apply Q.
Qed.

(* what the stack must be, n operations having been counted *)
Definition multi_yes (doc : option rdoc) (cf : config) (l : program) (st : list bytes) (n : N) : Prop :=
  exists nk ns pubs sigs dummy rest, st = nk :: pubs ++ ns :: sigs ++ dummy :: rest /\
    (sn_val nk = Z.of_nat (length pubs) /\ len nk <= 4 /\ (minimal cf = true -> is_minimal_number nk = true)) /\
    (sn_val ns = Z.of_nat (length sigs) /\ len ns <= 4 /\ (minimal cf = true -> is_minimal_number ns = true)) /\
    N.of_nat (length pubs) <= c_max_keys cf /\ n + 1 + N.of_nat (length pubs) <= c_max_ops cf /\
    tried (multi_check doc l st (length sigs)) sigs pubs (inr true) /\
    (has_flag FLAG_NULLDUMMY (c_flags cf) = true -> dummy = []) /\ clean cf rest.

Lemma app_same {A} (a b c d : list A) : length a = length b -> a ++ c = b ++ d -> a = b /\ c = d.
Proof.
  revert b. induction a as [|x a IH]; intros [|y b] L E; try discriminate L; [split; [reflexivity|exact E]|].
  cbn [app] in E. destruct (IH b) as [-> ->]; [cbn in L; lia|congruence|]. split; [congruence|reflexivity].
Qed.
Lemma tried_length ver sigs pubs : tried ver sigs pubs (inr true) -> (length sigs <= length pubs)%nat.
Proof.
  remember (inr true : serror + bool) as o eqn:O. induction 1 as [| |s sigs k pubs L E|s sigs k pubs o L E S T IH|s sigs k pubs o L E S T IH]; try discriminate O; cbn [length] in *; lia.
Qed.

Section Evaluation.
Variable X : externals.
Variable doc : option rdoc.
Variable cf : config.
Variable neg1 : bytes.
Hypothesis Tr : truncating X.
Hypothesis Sh : short_hashes X.
Hypothesis Cm : c_max_memory cf < 2 ^ 63.

Lemma last_multi p s : segments p s -> len (concat s) < 2 ^ 31 -> forall lx l j k fuel m st a n,
  length p = S k -> nth_error p k = Some (op_instr OP_CHECKMULTISIG) -> skipn j p = l -> decompile lx = Ret l ->
  at_rest cf m st a n -> small st -> n <= c_max_ops cf ->
  exists r m' c', machine_run X doc cf (S (S fuel)) (counter_at s j k) m = Ret (r, m', c') /\ (r_verify r = true <-> multi_yes doc cf l st n).
Proof.
  intros Hs L lx l j k fuel m st a n Lp Ek Sk El (G & Ll & Em & Ea & Ex & Eo) Sm On.
  destruct (next_op p s Hs L k _ Ek) as (t & En & _). cbn [op_instr i_op] in En.
  assert (R : running m = true) by (unfold running; replace (m_exec m) with (@nil bool) by congruence; reflexivity).
  rewrite (run_S X doc cf p s Hs L), (step_cons _ _ _ _ _ OP_CHECKMULTISIG t) by exact En.
  rewrite R, count_exact, Eo. change (b2n OP_16 <? b2n OP_CHECKMULTISIG) with true. cbv iota.
  assert (Bad : forall (r0 : result) (m0 : mstate) (c0 : counter), r_verify r0 = false -> ~ multi_yes doc cf l st n ->
     exists r m' c', @Ret unit _ (r0, m0, c0) = Ret (r, m', c') /\ (r_verify r = true <-> multi_yes doc cf l st n)).
  { intros r0 m0 c0 V N. exists r0, m0, c0. split; [reflexivity|]. split; [congruence|]. intros. contradiction. }
  destruct (N.leb_spec (n + 1) (c_max_ops cf)) as [Oc|Oc].
  2:{ apply Bad; [reflexivity|]. intros (nk & ns & pubs & sigs & dummy & rest & _ & _ & _ & _ & A & _). lia. }
  change (b2n OP_CHECKMULTISIG <=? b2n OP_PUSHDATA4) with false. cbv iota.
  set (m1 := with_ops m (n + 1)).
  assert (E1 : s_main (m_stack m1) = st) by exact Em. assert (O1 : m_ops m1 = n + 1) by reflexivity.
  assert (Sm1 : small (s_main (m_stack m1))) by (rewrite E1; exact Sm).
  assert (Args : multi_yes doc cf l st n -> exists pubs sigs dummy rest, multi_args cf m1 pubs sigs dummy rest /\
    tried (multi_check doc l st (length sigs)) sigs pubs (inr true) /\
    (has_flag FLAG_NULLDUMMY (c_flags cf) = true -> dummy = []) /\ clean cf rest).
  { intros (nk & ns & pubs & sigs & dummy & rest & A1 & A2 & A3 & A4 & A5 & A6 & A7 & A8). exists pubs, sigs, dummy, rest. split; [|auto].
    split; [exists nk, ns; rewrite E1; auto|exact A4|rewrite O1; exact A5|apply tried_length in A6; exact A6]. }
  assert (Er : forall e, r_verify (result_of_error e) = false) by (intros e; unfold r_verify, result_of_error; cbn [r_error r_success]; apply andb_false_r).
  pose proof (refused_ops X doc cf (counter_at s j k) m1 Sm1) as Rf.
  destruct (multi_refused cf (m_ops m1) (s_main (m_stack m1))) as [[b e]|] eqn:Er1.
  { assert (Ny : ~ multi_yes doc cf l st n).
    { intros Y. destruct (Args Y) as (pubs & sigs & dummy & rest & A & _). apply args_unrefused in A. congruence. }
    destruct b; destruct Rf as [(m' & ->) _]; apply Bad; auto. }
  destruct Rf as (pubs & sigs & dummy & rest & A).
  assert (Uni : forall pubs' sigs' dummy' rest', multi_args cf m1 pubs' sigs' dummy' rest' -> pubs' = pubs /\ sigs' = sigs /\ dummy' = dummy /\ rest' = rest).
  { intros pubs' sigs' dummy' rest' [(nk' & ns' & F1 & (F2 & _) & (F3 & _)) _ _ _].
    destruct A as [(nk & ns & H1 & (H2 & _) & (H3 & _)) _ _ _]. rewrite H1 in F1.
    assert (nk = nk') by congruence. subst nk'.
    assert (F1' : pubs ++ ns :: sigs ++ dummy :: rest = pubs' ++ ns' :: sigs' ++ dummy' :: rest') by congruence.
    assert (Lk : length pubs = length pubs') by lia.
    apply app_same in F1' as [-> F4]; [|exact Lk]. assert (ns = ns') by congruence. subst ns'.
    assert (F5 : sigs ++ dummy :: rest = sigs' ++ dummy' :: rest') by congruence.
    apply app_same in F5 as [-> F6]; [|lia]. split; [reflexivity|]. split; [reflexivity|]. split; congruence. }
  assert (Code : script_code (counter_at s j k) = Ret l).
  { unfold script_code, counter_at. cbn [pc_sep pc_script]. rewrite skipn_concat, (segments_write _ _ (segments_skip _ _ Hs j)), Sk.
    destruct (decompile_segments _ _ El) as (s2 & H2 & E2 & _). rewrite <- (segments_write _ _ H2), <- E2. exact El. }
  assert (Rm : roomy (s_lim (m_stack m1))) by (change (m_stack m1) with (m_stack m); rewrite Ll; apply rest_roomy).
  destruct (tried_one (multi_check doc l (s_main (m_stack m1)) (length sigs)) sigs pubs) as (o & To & Tu).
  pose proof (multisig_ops X doc cf (counter_at s j k) l m1 pubs sigs dummy rest o G Rm Sm1 A (fun _ => Code) To) as C.
  assert (Yes : multi_yes doc cf l st n <-> o = inr true /\ (has_flag FLAG_NULLDUMMY (c_flags cf) = true -> dummy = []) /\ clean cf rest).
  { split.
    - intros Y. destruct (Args Y) as (pubs' & sigs' & dummy' & rest' & A1 & A2 & A3 & A4). destruct (Uni _ _ _ _ A1) as (-> & -> & -> & ->).
      split; [|auto]. symmetry. apply Tu. rewrite E1. exact A2.
    - intros (-> & A2 & A3). destruct A as [(nk & ns & H1 & H2 & H3) H4 H5 H6]. rewrite E1 in H1. rewrite O1 in H5. rewrite E1 in To.
      exists nk, ns, pubs, sigs, dummy, rest. repeat (split; [assumption|]). assumption. }
  destruct o as [e|ok].
  { destruct C as [(m' & ->) _]. apply Bad; [apply Er|]. intros Y. apply Yes in Y. destruct Y as [Y _]. discriminate. }
  destruct C as [C _]. unfold multi_end in C.
  destruct (negb ok && has_flag FLAG_NULLFAIL (c_flags cf) && existsb (fun s0 => negb (len s0 =? 0)) sigs) eqn:Nf.
  { destruct C as (m' & ->). apply Bad; [apply Er|]. intros Y. apply Yes in Y. destruct Y as [Y _].
    assert (ok = true) as -> by congruence. discriminate Nf. }
  destruct (has_flag FLAG_NULLDUMMY (c_flags cf)) eqn:Fd; cbn [andb] in C.
  - destruct (len dummy =? 0) eqn:Ld; cbn [negb] in C.
    2:{ destruct C as (m' & ->). apply Bad; [apply Er|]. intros Y. apply Yes in Y. destruct Y as (_ & Y & _). specialize (Y eq_refl). subst dummy. discriminate Ld. }
    destruct C as (m2 & -> & (_ & B2 & _) & _).
    assert (Ns : nth (S k) s [] = []) by (apply nth_overflow; rewrite (segments_length _ _ Hs); lia).
    assert (Es : step X doc cf (counter_at s (next_sep s j k) (S k)) m2 = Stop (verdict cf (sn_bool ok :: rest)) m2).
    { unfold step. cbn [counter_at pc_next]. rewrite Ns, end_exact, B2. destruct ok; reflexivity. }
    rewrite (run_S X doc cf p s Hs L), Es. do 3 eexists. split; [reflexivity|].
    pose proof (verdict_true cf ok rest) as V. split.
    + intros Q. apply verify_true, V in Q as [-> Q2]. apply Yes. split; [reflexivity|]. split; [|exact Q2].
      intros _. destruct dummy; [reflexivity|]. rewrite len_cons in Ld. lia.
    + intros Y. apply Yes in Y as (Y1 & _ & Y3). rewrite (proj2 V); [reflexivity|]. split; [congruence|exact Y3].
  - destruct C as (m2 & -> & (_ & B2 & _) & _).
    assert (Ns : nth (S k) s [] = []) by (apply nth_overflow; rewrite (segments_length _ _ Hs); lia).
    assert (Es : step X doc cf (counter_at s (next_sep s j k) (S k)) m2 = Stop (verdict cf (sn_bool ok :: rest)) m2).
    { unfold step. cbn [counter_at pc_next]. rewrite Ns, end_exact, B2. destruct ok; reflexivity. }
    rewrite (run_S X doc cf p s Hs L), Es. do 3 eexists. split; [reflexivity|].
    pose proof (verdict_true cf ok rest) as V. split.
    + intros Q. apply verify_true, V in Q as [-> Q2]. apply Yes. split; [reflexivity|]. split; [discriminate|exact Q2].
    + intros Y. apply Yes in Y as (Y1 & _ & Y3). rewrite (proj2 V); [reflexivity|]. split; [congruence|exact Y3].
Qed.

Lemma runs_final B q s a R : runs X cf B q s a R -> forall s' a', R = Some (s', a') -> room s' a' <= B.
Proof. induction 1; intros s2 a2 E; [|auto|discriminate]. assert (s = s2) by congruence. assert (a = a2) by congruence. subst. assumption. Qed.

Theorem multi_spends B ux lx u q R : B < 2 ^ 31 -> decompile ux = Ret u -> is_push_program u = true ->
  decompile lx = Ret (q ++ [op_instr OP_CHECKMULTISIG]) -> has_flag FLAG_P2SH (c_flags cf) = false \/ is_P2SH lx = false ->
  2 * len ux + len lx + len neg1 + 2 < 2 ^ 31 -> runs X cf B q (stack_after u) [] R ->
  (spends X doc cf neg1 ux lx -> exists st a, R = Some (st, a) /\
     multi_yes doc cf (q ++ [op_instr OP_CHECKMULTISIG]) st (1 + counted (ops q)) /\ well_pushed cf (u ++ q ++ [op_instr OP_CHECKMULTISIG])) /\
  (forall st a, R = Some (st, a) -> multi_yes doc cf (q ++ [op_instr OP_CHECKMULTISIG]) st (1 + counted (ops q)) ->
     well_pushed cf (u ++ q ++ [op_instr OP_CHECKMULTISIG]) -> forallb (fun o => negb (impure o)) (ops q) = true ->
     ample B (limits_of cf) -> spends X doc cf neg1 ux lx).
Proof.
  intros LB Eu Pu El P2 Len Rq. set (l := q ++ [op_instr OP_CHECKMULTISIG]) in *.
  assert (Lx : len lx < 2 ^ 32) by (change (2 ^ 31) with 2147483648 in Len; change (2 ^ 32) with 4294967296; lia).
  pose proof (setup_plain cf neg1 _ _ _ _ Eu El P2 Lx (or_intror Pu)) as St.
  set (p := u ++ [op_instr OP_CODESEPARATOR] ++ l) in *.
  assert (V : Forall (fun i => instr_verify 0 i = E_OK) (u ++ l)) by (apply Forall_app; split; eapply decompile_verified; eassumption).
  destruct (pre_verify_multi cf u q Pu V) as [Pv1 Pv2]. fold l in Pv1, Pv2. fold p in Pv1, Pv2.
  destruct (serror_is_ok (pre_verify p (c_flags cf))) eqn:Eok.
  2:{ split.
      - intros Sp. exfalso. unfold spends, evaluate in Sp. destruct (interpreter_starts cf neg1 ux lx p _ St Len) as (s & _ & _ & E).
        rewrite E in Sp. unfold interp_run in Sp. cbn [in_halt in_result result_of_error r_error] in Sp. rewrite Eok in Sp. cbn [negb in_result] in Sp.
        discriminate.
      - intros st a _ _ W Pq _. rewrite (Pv2 Pq W) in Eok. discriminate. }
  apply serror_ok_iff in Eok. specialize (Pv1 Eok). rewrite Eok in St. clear Pv2.
  destruct (eval_run X doc cf neg1 ux lx p _ St eq_refl Len) as (s & Hs & Ls & Ev).
  pose proof (segments_length _ _ Hs) as Ln. pose proof (segments_concat_length _ _ Hs) as Lc.
  assert (Lp : length p = (length u + (1 + (length q + 1)))%nat) by (unfold p, l; rewrite !app_length; cbn [length]; lia).
  set (f := (length (concat s) - length p)%nat).
  assert (Ef : S (length (concat s)) = (length u + S (length q + S (S f)))%nat) by (unfold f; lia).
  unfold spends. rewrite Ev, Ef. clear Ev Ef.
  assert (Bu : room (stack_after u ++ []) [] <= B) by (rewrite app_nil_r; eapply runs_room; exact Rq).
  destruct (straight X doc cf Tr Sh p s Hs Ls ([], []) eq_refl B u _ _ _ LB (runs_pushes X cf B u [] [] Pu Bu) 0 0 (S (length q + S (S f))) (machine0 cf) 0
    ([op_instr OP_CODESEPARATOR] ++ l) eq_refl (rest0 cf Cm) ltac:(lia)) as [A1 A2].
  rewrite (counted_pushes u Pu), app_nil_r in *. cbn [Nat.add N.add] in A1, A2.
  set (run := machine_run X doc cf _ _ (machine0 cf)).
  assert (Cn : counted [OP_CODESEPARATOR] = 1) by reflexivity.
  assert (Ec : nth_error p (length u) = Some (op_instr OP_CODESEPARATOR)) by (unfold p; rewrite nth_error_app2, Nat.sub_diag by lia; reflexivity).
  assert (Sq : skipn (S (length u)) p = q ++ [op_instr OP_CHECKMULTISIG]).
  { unfold p. rewrite skipn_app, skipn_all2 by lia. replace (S (length u) - length u)%nat with 1%nat by lia. reflexivity. }
  assert (Ek : nth_error p (S (length u) + length q) = Some (op_instr OP_CHECKMULTISIG)).
  { unfold p. rewrite nth_error_app2 by lia. replace (S (length u) + length q - length u)%nat with (S (length q)) by lia. cbn [app nth_error].
    unfold l. rewrite nth_error_app2, Nat.sub_diag by lia. reflexivity. }
  assert (Sp : next_sep s 0 (length u) = S (length u)) by (rewrite (sep_next p s Hs Ls _ _ _ Ec); reflexivity).
  assert (Noz : positional OP_CODESEPARATOR = true -> no_negative_zero cf OP_CODESEPARATOR (stack_after u)) by discriminate.
  assert (Ef0 : instr_effect X cf (op_instr OP_CODESEPARATOR) (stack_after u) [] = Some (stack_after u, [])) by reflexivity.
  assert (Sm : small (stack_after u)) by (eapply room_small; [eapply runs_room; exact Rq|exact LB]).
  assert (Step2 : forall m, at_rest cf m (stack_after u) [] 0 ->
    (fails X doc cf s (S (length q + S (S f))) 0 (length u) m \/
     arrives X doc cf s ([], []) (S (length q + S (S f))) 0 (length u) m (length q + S (S f)) (S (length u)) (S (length u)) (stack_after u) [] 1) /\
    (1 <= c_max_ops cf -> ample B (limits_of cf) ->
     arrives X doc cf s ([], []) (S (length q + S (S f))) 0 (length u) m (length q + S (S f)) (S (length u)) (S (length u)) (stack_after u) [] 1)).
  { intros m At. destruct (one_step X doc cf Tr Sh p s Hs Ls ([], []) eq_refl (op_instr OP_CODESEPARATOR) (length q + S (S f)) 0 (length u) m _ _ 0 Ec At Sm
      ltac:(lia) eq_refl Noz) as [T1 T2]. cbn [op_instr i_op] in T1, T2. rewrite Cn, Sp in T1, T2. cbn [N.add] in T1, T2. split.
    - destruct T1 as [T1|(s' & a' & E' & T1)]; [now left|]. right. rewrite Ef0 in E'.
      assert (s' = stack_after u) by congruence. assert (a' = []) by congruence. subst. exact T1.
    - intros Q Am. apply (T2 _ _ Ef0); [|assumption]. eapply room_fits; [exact Am|]. eapply runs_room. exact Rq. }
  assert (Step3 : forall m, at_rest cf m (stack_after u) [] 1 -> 1 <= c_max_ops cf -> _) by
    (intros m At O1; exact (straight X doc cf Tr Sh p s Hs Ls ([], []) eq_refl B q _ _ _ LB Rq (S (length u)) (S (length u)) (S (S f)) m 1 [op_instr OP_CHECKMULTISIG] Sq At O1)).
  assert (Step4 : forall m st a n, R = Some (st, a) -> at_rest cf m st a n -> n <= c_max_ops cf -> _) by
    (intros m st a n ER At On; exact (last_multi p s Hs Ls lx l (S (length u)) (S (length u) + length q) f m st a n ltac:(lia) Ek Sq El At
       (room_small _ _ _ (runs_final _ _ _ _ _ Rq _ _ ER) LB) On)).
  assert (Fl : forall fuel j k m, fails X doc cf s fuel j k m ->
    match machine_run X doc cf fuel (counter_at s j k) m with Ret (r, _, _) => Ret r | Throw _ => Throw X_Fuel | Undef => Undef end <> Ret (result_of_bool true)).
  { intros fuel j k m (r & m' & c' & -> & Vr) Q. assert (r = result_of_bool true) as -> by congruence. discriminate. }
  split.
  - intros Q. destruct A1 as [A1|(s1 & a1 & Es & _ & m1 & At1 & E1)]; [exfalso; revert Q; apply Fl; exact A1|].
    assert (s1 = stack_after u) by congruence. assert (a1 = []) by congruence. subst s1 a1.
    unfold run in Q. rewrite E1 in Q. destruct (Step2 m1 At1) as [[F|(O2 & m2 & At2 & E2)] _]; [exfalso; revert Q; apply Fl; exact F|].
    rewrite E2 in Q. destruct (Step3 m2 At2 O2) as [[F|(s3 & a3 & E3 & O3 & m3 & At3 & E4)] _]; [exfalso; revert Q; apply Fl; exact F|].
    rewrite E4 in Q. destruct (Step4 m3 s3 a3 _ E3 At3 O3) as (r & m4 & c4 & E5 & Vr). rewrite E5 in Q.
    assert (r = result_of_bool true) as -> by congruence. exists s3, a3. split; [exact E3|]. split; [|exact Pv1]. apply Vr. reflexivity.
  - intros st a ER Y W Pq Am.
    assert (Oc : 2 + counted (ops q) <= c_max_ops cf) by (destruct Y as (nk & ns & pubs & sigs & dummy & rest & _ & _ & _ & _ & A & _); lia).
    destruct (A2 _ _ eq_refl Am ltac:(lia)) as (_ & m1 & At1 & E1). unfold run. rewrite E1.
    destruct (Step2 m1 At1) as [_ T2]. destruct (T2 ltac:(lia) Am) as (O2 & m2 & At2 & E2). rewrite E2.
    destruct (Step3 m2 At2 O2) as [_ T3]. destruct (T3 _ _ ER Am ltac:(lia)) as (O3 & m3 & At3 & E3). rewrite E3.
    destruct (Step4 m3 _ _ _ ER At3 O3) as (r & m4 & c4 & E4 & Vr). rewrite E4. apply (proj2 Vr), verify_true in Y. rewrite Y. reflexivity.
Qed.
End Evaluation.

(* ---- outputs that ask for several signatures ---- *)

Lemma rev_pushed m keys : rev (multi_pushed m keys) = sn_enc (Z.of_nat (length keys)) :: rev keys ++ [sn_enc (Z.of_nat m)].
Proof. unfold multi_pushed. cbn [rev]. rewrite rev_app_distr. reflexivity. Qed.
Lemma count_len n : N.of_nat n < 2 ^ 31 -> len (sn_enc (Z.of_nat n)) <= 4.
Proof.
  intros L. unfold len. rewrite sn_enc_length. destruct (Z.eq_dec (Z.of_nat n) 0) as [->|Nz]; [vm_compute; discriminate|].
  destruct (sn_size_pos _ Nz) as (k & E & _ & B). rewrite E. destruct (Nat.le_gt_cases k 3) as [|G]; [lia|].
  destruct k as [|k]; [lia|]. specialize (B k eq_refl). pose proof (pow256_mono 3 k ltac:(lia)) as P.
  change (pow256 3) with 16777216 in P. change (2 ^ 31) with 2147483648 in L. lia.
Qed.
Lemma footprint_length s : 32 * N.of_nat (length s) <= footprint s.
Proof. induction s as [|x s IH]; [vm_compute; discriminate|]. rewrite footprint_cons. cbn [length]. lia. Qed.
Lemma pushes_written ds : Forall (fun d => len d < 2 ^ 31) ds -> Forall written (map push ds).
Proof. induction 1; constructor; [apply written_push; assumption|assumption]. Qed.
Lemma written_len p : Forall written p -> len (program_write p) <= 5 * N.of_nat (length p) + fold_right (fun i n => len (i_data i) + n) 0 p.
Proof.
  induction 1 as [|i p [H _] _ IH]; [vm_compute; discriminate|]. unfold program_write in *. cbn [map concat fold_right length]. rewrite len_app.
  pose proof (inst_len _ _ H). lia.
Qed.
Lemma pushes_len ds : Forall (fun d => len d < 2 ^ 31) ds -> len (program_write (map push ds)) <= footprint ds.
Proof.
  intros F. pose proof (written_len _ (pushes_written ds F)) as L.
  assert (A : fold_right (fun i n => len (i_data i) + n) 0 (map push ds) + 5 * N.of_nat (length (map push ds)) <= footprint ds); [|lia].
  clear L. induction F as [|d ds H F IH]; [vm_compute; discriminate|]. cbn [map fold_right length]. rewrite footprint_cons. pose proof (ScriptProofs.push_data_len d H). lia.
Qed.
Lemma pushes_program ds : Forall (fun d => len d < 2 ^ 31) ds -> is_push_program (map push ds) = true /\ stack_after (map push ds) = rev ds.
Proof.
  intros L. split.
  - unfold is_push_program. rewrite forallb_forall. intros i Hi. apply in_map_iff in Hi as (d & <- & Hd). rewrite Forall_forall in L. apply push_is_push; auto.
  - unfold stack_after. f_equal. rewrite map_map. clear - L. induction L; cbn [map]; [reflexivity|]. rewrite pushed_push, IHL by assumption. reflexivity.
Qed.
Lemma pushes_pure p : is_push_program p = true -> forallb (fun o => negb (impure o)) (ops p) = true.
Proof.
  intros P. unfold ops. rewrite forallb_forall. intros o Ho. apply in_map_iff in Ho as (i & <- & Hi). unfold is_push_program in P.
  rewrite forallb_forall in P. destruct (push_op_direct _ (P i Hi)) as (-> & _). reflexivity.
Qed.

Section Multi.
Variable X : externals.
Variable doc : option rdoc.
Variable cf : config.
Variable neg1 : bytes.
Hypothesis St : standard X.
Hypothesis Cm : c_max_memory cf < 2 ^ 63.

Theorem multi_output m keys lx ux u : compile (multi_program m keys) = Some lx -> N.of_nat m < 2 ^ 31 ->
  decompile ux = Ret u -> is_push_program u = true -> 70 * len ux + 2 * footprint keys + len neg1 + 200 < 2 ^ 31 ->
  (spends X doc cf neg1 ux lx -> multi_unlocked doc cf m keys u) /\
  (enough cf (footprint (stack_after u) + footprint keys + 72) (N.of_nat (length keys) + 2) -> N.of_nat (length keys) <= c_max_keys cf ->
   well_pushed cf (map push keys) -> multi_unlocked doc cf m keys u -> spends X doc cf neg1 ux lx).
Proof.
  intros E Lm Eu Pu Len. destruct (standard_short X St) as [Tr Sh].
  pose proof (stack_room ux u Eu Pu) as Rm. pose proof (footprint_length keys) as Fl.
  change (2 ^ 31) with 2147483648 in Len.
  assert (Ln : N.of_nat (length keys) < 2 ^ 31) by (change (2 ^ 31) with 2147483648; lia).
  pose proof (count_len m Lm) as Cl1. pose proof (count_len (length keys) Ln) as Cl2.
  set (ds := multi_pushed m keys).
  assert (Fd : footprint ds <= footprint keys + 72).
  { unfold ds, multi_pushed. rewrite footprint_cons, footprint_app, footprint_cons, footprint_nil. lia. }
  assert (Ld : Forall (fun d => len d < 2 ^ 31) ds).
  { apply Forall_forall. intros d Hd. destruct (footprint_bound ds) as [_ Q]. rewrite Forall_forall in Q. specialize (Q d Hd). cbn in Q.
    change (2 ^ 31) with 2147483648. lia. }
  assert (W : Forall written (multi_program m keys)).
  { unfold multi_program. fold ds. apply Forall_app. split; [apply pushes_written, Ld|]. written_ops. }
  assert (Lp : len (program_write (multi_program m keys)) <= footprint keys + 73).
  { unfold multi_program, program_write. fold ds. rewrite map_app, concat_app, len_app. change (len (concat (map instr_write [op_instr OP_CHECKMULTISIG]))) with 1.
    pose proof (pushes_len ds Ld) as Q. unfold program_write in Q. lia. }
  assert (L32 : len (program_write (multi_program m keys)) < 2 ^ 32) by (change (2 ^ 32) with 4294967296; lia).
  pose proof (written_compile _ _ W L32 E) as El.
  pose proof (compile_segments _ _ (written_segments _ W) L32) as E'. change (concat (map instr_write ?p)) with (program_write p) in E'.
  assert (Ex : lx = program_write (multi_program m keys)) by congruence.
  assert (Ld0 : len (sn_enc (Z.of_nat m)) < 2 ^ 31) by (change (2 ^ 31) with 2147483648; lia).
  assert (P2 : is_P2SH lx = false).
  { rewrite Ex. unfold is_P2SH. match goal with |- ?b = false => destruct b eqn:Q; [|reflexivity] end. exfalso. revert Q. rewrite !andb_true_iff.
    set (k := sn_enc (Z.of_nat m)) in *.
    destruct (push_inst k Ld0) as [Ip Fp]. unfold program_write, multi_program, multi_pushed. fold k. cbn [map app concat]. intros Q.
    match type of Q with context [nth 0 (instr_write (push k) ++ ?r) x00] =>
      assert (Hd : nth 0 (instr_write (push k) ++ r) x00 = i_op (push k)) end.
    { destruct (instr_write (push k)) as [|o t] eqn:Ew; [inversion Ip|]. cbn [app nth]. inversion Ip; subst; congruence. }
    rewrite Hd in Q. destruct (push_is_push k Ld0) as [Po _]. apply push_op_direct in Po as (_ & _ & _ & Po & _).
    assert (Q1 : byte_eqb (i_op (push k)) OP_HASH160 = true) by tauto. apply byte_eqb_eq in Q1. rewrite Q1 in Po. discriminate. }
  set (B := footprint (stack_after u) + footprint keys + 72).
  assert (LB : B < 2 ^ 31) by (unfold B; change (2 ^ 31) with 2147483648; lia).
  destruct (pushes_program ds Ld) as [Pd Sd].
  assert (R : runs X cf B (map push ds) (stack_after u) [] (Some (rev ds ++ stack_after u, []))).
  { rewrite <- Sd. apply runs_pushes; [exact Pd|]. rewrite Sd. unfold room. rewrite footprint_app, footprint_rev, footprint_nil. unfold B. lia. }
  assert (Lx : 2 * len ux + len lx + len neg1 + 2 < 2 ^ 31) by (rewrite Ex; change (2 ^ 31) with 2147483648; lia).
  destruct (multi_spends X doc cf neg1 Tr Sh Cm B ux lx u _ _ LB Eu Pu El (or_intror P2) Lx R) as [A1 A2].
  fold ds in A1, A2. change (map push ds ++ [op_instr OP_CHECKMULTISIG]) with (multi_program m keys) in A1, A2.
  rewrite (counted_pushes _ Pd) in A1, A2.
  assert (Shape : rev ds ++ stack_after u = sn_enc (Z.of_nat (length keys)) :: rev keys ++ sn_enc (Z.of_nat m) :: stack_after u).
  { unfold ds. rewrite rev_pushed. cbn [app]. rewrite <- app_assoc. reflexivity. }
  split.
  - intros Sp. destruct (A1 Sp) as (st & a & Er & (nk & ns & pubs & sigs & dummy & rest & Y1 & (Y2 & _) & (Y3 & _) & Y4 & Y5 & Y6 & Y7 & Y8) & Wp).
    assert (st = rev ds ++ stack_after u) as -> by congruence. clear Er. pose proof Y1 as Y1'. rewrite Shape in Y1.
    assert (N1 : nk = sn_enc (Z.of_nat (length keys))) by congruence. rewrite N1, sn_val_enc in Y2.
    assert (Z1 : rev keys ++ sn_enc (Z.of_nat m) :: stack_after u = pubs ++ ns :: sigs ++ dummy :: rest) by congruence.
    apply app_same in Z1 as [Z1 Z2]; [|rewrite rev_length; lia].
    assert (N2 : ns = sn_enc (Z.of_nat m)) by congruence. rewrite N2, sn_val_enc in Y3.
    assert (Z3 : stack_after u = sigs ++ dummy :: rest) by congruence.
    apply well_pushed_app in Wp as [Wp _].
    assert (Ls : length sigs = m) by lia.
    exists (rev sigs), dummy, rest. rewrite rev_involutive, rev_length. split; [exact Z3|]. split; [exact Ls|].
    split; [|auto]. rewrite Z1. rewrite Ls in Y6. exact Y6.
  - intros [Am Oc] Kc Wk (sigs & dummy & rest & Z3 & Ls & T & Nd & Cl & Wp).
    apply (A2 _ [] eq_refl); [| | |exact Am].
    + exists (sn_enc (Z.of_nat (length keys))), (sn_enc (Z.of_nat m)), (rev keys), (rev sigs), dummy, rest. rewrite !rev_length, !sn_val_enc.
      split; [rewrite Shape, Z3; reflexivity|].
      split; [split; [reflexivity|split; [exact Cl2|intros _; apply sn_enc_minimal]]|].
      split; [split; [lia|split; [exact Cl1|intros _; apply sn_enc_minimal]]|].
      split; [exact Kc|]. split; [lia|]. split; [|auto]. rewrite Ls. exact T.
    + apply well_pushed_app. split; [exact Wp|]. unfold multi_program, multi_pushed. rewrite map_cons, map_app. intros F. specialize (Wk F).
      cbn [app]. constructor; [apply (push_well cf Cm); lia|]. rewrite <- app_assoc. apply Forall_app. split; [exact Wk|].
      cbn [map app]. constructor; [apply (push_well cf Cm); [change (2 ^ 31) with 2147483648; lia|lia|lia]|]. constructor; [reflexivity|constructor].
    + apply pushes_pure, Pd.
Qed.

(* with SIGPUSHONLY there is no other way *)
Theorem multi_protected m keys lx ux : has_flag FLAG_SIGPUSHONLY (c_flags cf) = true -> compile (multi_program m keys) = Some lx -> N.of_nat m < 2 ^ 31 ->
  70 * len ux + 2 * footprint keys + len neg1 + 200 < 2 ^ 31 -> 2 * len ux + len lx + len neg1 + 2 < 2 ^ 31 -> spends X doc cf neg1 ux lx ->
  exists u, decompile ux = Ret u /\ is_push_program u = true /\ multi_unlocked doc cf m keys u.
Proof.
  intros F E Lm Len Len2 Sp. destruct (push_only X doc cf neg1 ux lx F Len2 Sp) as (u & Eu & Pu).
  exists u. repeat (split; [assumption|]). apply (multi_output m keys lx ux u E Lm Eu Pu Len). exact Sp.
Qed.

(* ---- signatures in the order of the keys ---- *)
Lemma matching_last ver s sigs k pubs : r_success (ver s k) = true -> matching ver sigs pubs -> matching ver (sigs ++ [s]) (pubs ++ [k]).
Proof.
  intros H M. induction M as [pubs|s' sigs k' pubs H' M IH|sigs k' pubs M IH]; cbn [app].
  - induction pubs as [|p pubs IH]; cbn [app]; [apply match_this; [exact H|apply match_none]|apply match_later; exact IH].
  - apply match_this; assumption.
  - apply match_later, IH.
Qed.
Lemma matching_more ver sigs k pubs : matching ver sigs pubs -> matching ver sigs (pubs ++ [k]).
Proof.
  intros M. induction M as [pubs|s' sigs k' pubs H' M IH|sigs k' pubs M IH]; cbn [app]; [apply match_none|apply match_this; assumption|apply match_later, IH].
Qed.
Lemma matching_rev1 ver sigs pubs : matching ver sigs pubs -> matching ver (rev sigs) (rev pubs).
Proof.
  intros M. induction M as [pubs|s' sigs k' pubs H' M IH|sigs k' pubs M IH]; cbn [rev]; [apply match_none|apply matching_last; assumption|apply matching_more, IH].
Qed.
Lemma matching_rev ver sigs pubs : matching ver (rev sigs) (rev pubs) <-> matching ver sigs pubs.
Proof. split; [|apply matching_rev1]. intros M. apply matching_rev1 in M. rewrite !rev_involutive in M. exact M. Qed.

Lemma check_verify m keys sigs dummy : length sigs = m ->
  multi_check doc (multi_program m keys) (rev (multi_pushed m keys) ++ rev sigs ++ [dummy]) m = multi_verify doc m keys sigs.
Proof.
  intros L. unfold multi_check, multi_verify. destruct doc as [d|]; [|reflexivity]. f_equal. f_equal.
  rewrite rev_pushed. cbn [app]. rewrite <- app_assoc. cbn [app].
  rewrite <- L at 2. rewrite <- (rev_length sigs). rewrite removed_signatures. apply rev_involutive.
Qed.

(* an empty element and the signatures, in the order of the keys *)
Theorem multi_redeemed m keys sigs lx ux : compile (multi_program m keys) = Some lx -> compile (map push ([] :: sigs)) = Some ux ->
  length sigs = m -> 210 * footprint sigs + 2 * footprint keys + len neg1 + 7000 < 2 ^ 31 ->
  (forall s k, In s sigs -> In k keys -> r_error (multi_verify doc m keys sigs s k) = E_OK) ->
  (spends X doc cf neg1 ux lx -> matching (multi_verify doc m keys sigs) sigs keys) /\
  (enough cf (footprint sigs + footprint keys + 104) (N.of_nat (length keys) + 2) -> N.of_nat (length keys) <= c_max_keys cf ->
   well_pushed cf (map push (keys ++ sigs)) -> matching (multi_verify doc m keys sigs) sigs keys -> spends X doc cf neg1 ux lx).
Proof.
  intros E Eu Lm Len NoErr. pose proof (footprint_length sigs) as Fl. change (2 ^ 31) with 2147483648 in Len.
  assert (Fd : footprint ([] :: sigs) = footprint sigs + 32) by (rewrite footprint_cons; change (len []) with 0; lia).
  assert (Ld : Forall (fun d => len d < 2 ^ 31) ([] :: sigs)).
  { apply Forall_forall. intros d Hd. destruct (footprint_bound ([] :: sigs)) as [_ Q]. rewrite Forall_forall in Q. specialize (Q d Hd). cbn in Q.
    change (2 ^ 31) with 2147483648. lia. }
  pose proof (pushes_len _ Ld) as Lw. rewrite Fd in Lw.
  assert (L32 : len (program_write (map push ([] :: sigs))) < 2 ^ 32) by (change (2 ^ 32) with 4294967296; lia).
  destruct (redeem_decompile _ _ Ld L32 Eu) as (D & P & Sa).
  assert (Lu : len ux <= footprint sigs + 32).
  { pose proof (compile_segments _ _ (written_segments _ (pushes_written _ Ld)) L32) as E'. change (concat (map instr_write ?p)) with (program_write p) in E'.
    assert (ux = program_write (map push ([] :: sigs))) as -> by congruence. exact Lw. }
  change (rev ([] :: sigs)) with (rev sigs ++ [[]]) in Sa.
  destruct (multi_output m keys lx ux _ E ltac:(change (2 ^ 31) with 2147483648; lia) D P ltac:(change (2 ^ 31) with 2147483648; lia)) as [A1 A2].
  pose proof (check_verify m keys sigs [] Lm) as Cv. rewrite <- Sa in Cv.
  assert (Tm : tried (multi_verify doc m keys sigs) (rev sigs) (rev keys) (inr true) <-> matching (multi_verify doc m keys sigs) sigs keys).
  { rewrite <- matching_rev. apply tried_matching. intros s k Hs Hk. apply NoErr; [now apply in_rev|now apply in_rev]. }
  split.
  - intros Sp. destruct (A1 Sp) as (sigs' & dummy & rest & Z1 & Z2 & T & _). rewrite Sa in Z1.
    apply app_same in Z1 as [Z1 _]; [|rewrite !rev_length; lia].
    assert (sigs' = sigs) as -> by (apply (f_equal (@rev bytes)) in Z1; rewrite !rev_involutive in Z1; congruence).
    rewrite Cv in T. apply Tm, T.
  - intros [Am Oc] Kc Wk M. rewrite map_app in Wk. apply well_pushed_app in Wk as [Wk Ws]. apply A2; [|exact Kc|exact Wk|].
    + split; [|exact Oc]. rewrite Sa, footprint_app, footprint_rev, footprint_cons, footprint_nil. change (len []) with 0.
      match goal with |- ample ?b _ => replace b with (footprint sigs + footprint keys + 104) by lia end. exact Am.
    + exists sigs, [], []. split; [exact Sa|]. split; [exact Lm|]. rewrite Cv. split; [apply Tm, M|]. split; [reflexivity|].
      split; [intros _; reflexivity|]. intros F. cbn [map]. constructor; [reflexivity|exact (Ws F)].
Qed.
End Multi.

(* ---- documents of the library with NULLFAIL ---- *)
Lemma tried_strict ver : (forall s k, r_error (ver s k) = E_OK -> r_success (ver s k) = true) -> forall sigs pubs,
  tried ver sigs pubs (inr true) <-> (length sigs <= length pubs)%nat /\
    Forall2 (fun s k => ver s k = result_of_bool true) sigs (firstn (length sigs) pubs).
Proof.
  intros Str sigs pubs. split.
  - intros T. split; [eapply tried_length, T|]. remember (inr true : serror + bool) as o eqn:O.
    induction T as [pubs|sigs pubs L|s sigs k pubs L E|s sigs k pubs o L E S T IH|s sigs k pubs o L E S T IH]; try discriminate O.
    + constructor.
    + cbn [length firstn]. constructor; [|apply IH, O]. destruct (ver s k) as [e b]. cbn [r_error r_success] in *. subst. reflexivity.
    + exfalso. rewrite (Str s k E) in S. discriminate.
  - revert pubs. induction sigs as [|s sigs IH]; intros pubs [L F]; [apply tried_all|].
    destruct pubs as [|k pubs]; [cbn in L; lia|]. cbn [length firstn] in F. inversion F as [|? ? ? ? F1 F2]; subst. cbn [length] in L.
    apply tried_good; [lia|rewrite F1; reflexivity|rewrite F1; reflexivity|]. apply IH. split; [lia|exact F2].
Qed.
Lemma forall2_rev {A B} (P : A -> B -> Prop) a b : Forall2 P a b -> Forall2 P (rev a) (rev b).
Proof. induction 1; cbn [rev]; [constructor|]. apply Forall2_app; [assumption|]. constructor; [assumption|constructor]. Qed.
Lemma forall2_left {A B} (P : A -> B -> Prop) (Q : A -> Prop) a b : (forall x y, P x y -> Q x) -> Forall2 P a b -> Forall Q a.
Proof. intros H. induction 1; constructor; eauto. Qed.
Lemma forall2_impl {A B} (P Q : A -> B -> Prop) a b : (forall x y, P x y -> Q x y) -> Forall2 P a b -> Forall2 Q a b.
Proof. intros H. induction 1; constructor; eauto. Qed.
Lemma forall2_length {A B} (P : A -> B -> Prop) a b : Forall2 P a b -> length a = length b.
Proof. induction 1; cbn [length]; lia. Qed.
Lemma cleanup_none l sigs : Forall (fun s => N.testbit (b2n (last s x00)) 6 = true) sigs -> fold_left cleanup_script_code sigs l = l.
Proof.
  intros F. revert l. induction F as [|s sigs H F IH]; intros l; [reflexivity|]. cbn [fold_left].
  assert (C : cleanup_script_code l s = l) by (unfold cleanup_script_code, has_fork_id, sig_directive; rewrite H; reflexivity).
  rewrite C. apply IH.
Qed.

Section Strict.
Variable X : externals.
Variable cf : config.
Variable neg1 : bytes.
Hypothesis St : standard X.
Hypothesis Cm : c_max_memory cf < 2 ^ 63.

Theorem multi_strict K f v lt sq m keys sigs lx ux : has_flag FLAG_NULLFAIL f = true -> has_flag FLAG_REQUIRE_FORKID f = true ->
  compile (multi_program m keys) = Some lx -> compile (map push ([] :: sigs)) = Some ux ->
  length sigs = m -> 210 * footprint sigs + 2 * footprint keys + len neg1 + 7000 < 2 ^ 31 ->
  (spends X (Some (document K f v lt sq)) cf neg1 ux lx ->
     Forall2 (signature_fine K f (multi_program m keys)) sigs (skipn (length keys - m) keys)) /\
  (enough cf (footprint sigs + footprint keys + 104) (N.of_nat (length keys) + 2) -> N.of_nat (length keys) <= c_max_keys cf ->
   well_pushed cf (map push (keys ++ sigs)) -> Forall2 (signature_fine K f (multi_program m keys)) sigs (skipn (length keys - m) keys) ->
   spends X (Some (document K f v lt sq)) cf neg1 ux lx).
Proof.
  intros Nf Rf E Eu Lm Len. set (doc := Some (document K f v lt sq)).
  pose proof (footprint_length sigs) as Fl. change (2 ^ 31) with 2147483648 in Len.
  assert (Fd : footprint ([] :: sigs) = footprint sigs + 32) by (rewrite footprint_cons; change (len []) with 0; lia).
  assert (Ld : Forall (fun d => len d < 2 ^ 31) ([] :: sigs)).
  { apply Forall_forall. intros d Hd. destruct (footprint_bound ([] :: sigs)) as [_ Q]. rewrite Forall_forall in Q. specialize (Q d Hd). cbn in Q.
    change (2 ^ 31) with 2147483648. lia. }
  pose proof (pushes_len _ Ld) as Lw. rewrite Fd in Lw.
  assert (L32 : len (program_write (map push ([] :: sigs))) < 2 ^ 32) by (change (2 ^ 32) with 4294967296; lia).
  destruct (redeem_decompile _ _ Ld L32 Eu) as (D & P & Sa).
  assert (Lu : len ux <= footprint sigs + 32).
  { pose proof (compile_segments _ _ (written_segments _ (pushes_written _ Ld)) L32) as E'. change (concat (map instr_write ?p)) with (program_write p) in E'.
    assert (ux = program_write (map push ([] :: sigs))) as -> by congruence. exact Lw. }
  change (rev ([] :: sigs)) with (rev sigs ++ [[]]) in Sa.
  destruct (multi_output X doc cf neg1 St Cm m keys lx ux _ E ltac:(change (2 ^ 31) with 2147483648; lia) D P ltac:(change (2 ^ 31) with 2147483648; lia)) as [A1 A2].
  pose proof (check_verify doc m keys sigs [] Lm) as Cv. rewrite <- Sa in Cv.
  set (ver := multi_verify doc m keys sigs) in *.
  assert (Vf : forall s k, ver s k = result_of_bool true <-> signature_fine K f (fold_left cleanup_script_code sigs (multi_program m keys)) s k).
  { intros s k. unfold ver, multi_verify, doc, document. cbn [d_verify]. apply verify_signature_exact. }
  assert (Str : forall s k, r_error (ver s k) = E_OK -> r_success (ver s k) = true).
  { intros s k He. destruct (r_success (ver s k)) eqn:Hs; [reflexivity|]. exfalso.
    assert (Hv : ver s k = result_of_bool false) by (destruct (ver s k) as [e b]; cbn [r_error r_success] in *; subst; reflexivity).
    unfold ver, multi_verify, doc in Hv. destruct (profiles_strict K f v lt sq Nf Rf (fold_left cleanup_script_code sigs (multi_program m keys)) s k) as [Q|Q].
    - rewrite Hv in Q. discriminate.
    - rewrite Hv in Q. cbn in Q. congruence. }
  assert (Tm : tried ver (rev sigs) (rev keys) (inr true) <-> Forall2 (signature_fine K f (multi_program m keys)) sigs (skipn (length keys - m) keys)).
  { rewrite (tried_strict ver Str), !rev_length, firstn_rev, Lm. split.
    - intros [L F]. apply forall2_rev in F. rewrite !rev_involutive in F.
      assert (Fk : Forall (fun s => N.testbit (b2n (last s x00)) 6 = true) sigs).
      { eapply forall2_left; [|exact F]. intros s k H. apply Vf in H. apply H, Rf. }
      pose proof (cleanup_none (multi_program m keys) sigs Fk) as Cl. rewrite Cl in Vf.
      eapply forall2_impl; [|exact F]. intros s k. apply Vf.
    - intros F. assert (Fk : Forall (fun s => N.testbit (b2n (last s x00)) 6 = true) sigs).
      { eapply forall2_left; [|exact F]. intros s k H. apply H, Rf. }
      pose proof (cleanup_none (multi_program m keys) sigs Fk) as Cl. rewrite Cl in Vf.
      pose proof (forall2_length _ _ _ F) as Lf. rewrite skipn_length in Lf. split; [lia|]. apply forall2_rev.
      eapply forall2_impl; [|exact F]. intros s k. apply Vf. }
  split.
  - intros Sp. destruct (A1 Sp) as (sigs' & dummy & rest & Z1 & Z2 & T & _). rewrite Sa in Z1.
    apply app_same in Z1 as [Z1 _]; [|rewrite !rev_length; lia].
    assert (sigs' = sigs) as -> by (apply (f_equal (@rev bytes)) in Z1; rewrite !rev_involutive in Z1; congruence).
    rewrite Cv in T. apply Tm, T.
  - intros [Am Oc] Kc Wk M. rewrite map_app in Wk. apply well_pushed_app in Wk as [Wk Ws]. apply A2; [|exact Kc|exact Wk|].
    + split; [|exact Oc]. rewrite Sa, footprint_app, footprint_rev, footprint_cons, footprint_nil. change (len []) with 0.
      match goal with |- ample ?b _ => replace b with (footprint sigs + footprint keys + 104) by lia end. exact Am.
    + exists sigs, [], []. split; [exact Sa|]. split; [exact Lm|]. rewrite Cv. split; [apply Tm, M|]. split; [reflexivity|].
      split; [intros _; reflexivity|]. intros F. cbn [map]. constructor; [reflexivity|exact (Ws F)].
Qed.
End Strict.
