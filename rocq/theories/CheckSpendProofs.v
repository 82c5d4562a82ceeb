From Verif Require Import Base BaseProofs WireModel WireProofs ScriptModel ScriptSpec ScriptProofs ProgramProofs NumModel NumSpec NumProofs.
From Verif Require Import StackModel StackSpec StackProofs MachineModel MachineSpec MachineProofs OpcodeProofs RunProofs ControlProofs FlowProofs SpendProofs.
From Verif Require Import PatternModel PatternTemplates StraightSpec StraightProofs StraightEval PayRunSpec PayRunProofs MultiSpec MultiProofs MultiRunSpec MultiRunProofs CheckRunSpec CheckRunProofs.
From Coq Require Import Lia ZifyBool ZifyNat ZifyN.
Ltac Zify.zify_post_hook ::= Z.div_mod_to_equations.
Local Open Scope N_scope.

Lemma balanced_app a b : balanced a -> balanced b -> balanced (a ++ b).
Proof.
  intros A Hb. induction A as [|o p H _ IH|o x p H Hx _ _ IH|o x y p H Hx _ Hy _ _ IH]; cbn [app]; [exact Hb|constructor; assumption| |].
  - rewrite <- app_assoc. cbn [app]. apply bal_if; assumption.
  - rewrite <- app_assoc. cbn [app]. rewrite <- app_assoc. cbn [app]. apply bal_else; assumption.
Qed.

(* ---- the check before the run ---- *)
Lemma pre_verify_separated cf u l : is_push_program u = true -> Forall (fun i => instr_verify 0 i = E_OK) (u ++ l) ->
  let p := u ++ [op_instr OP_CODESEPARATOR] ++ l in
  (pre_verify p (c_flags cf) = E_OK -> well_pushed cf (u ++ l)) /\
  (plain_ops l -> well_pushed cf (u ++ l) -> pre_verify p (c_flags cf) = E_OK).
Proof.
  intros Pu V p.
  assert (Cs : instr_verify 0 (op_instr OP_CODESEPARATOR) = E_OK) by reflexivity.
  assert (Vp : Forall (fun i => instr_verify 0 i = E_OK) p).
  { apply Forall_app in V as [V1 V2]. apply Forall_app. split; [assumption|]. constructor; assumption. }
  assert (W : well_pushed cf p <-> well_pushed cf (u ++ l)).
  { unfold p. rewrite !well_pushed_app. split; [tauto|]. intros (A & C). split; [assumption|]. split; [|assumption].
    intros _. constructor; [reflexivity|constructor]. }
  assert (Ip : In OP_CODESEPARATOR (ops p)) by (unfold p, ops; rewrite !map_app; apply in_app_iff; right; left; reflexivity).
  split.
  - intros H. apply (proj1 (pre_verify_exact _ _)) in H as [(H & _) | [(_ & H) | (_ & j & H & Hj)]].
    + apply W. apply all_verified; assumption.
    + exfalso. rewrite H in Ip. destruct Ip as [Q|[]]. discriminate.
    + exfalso. rewrite H in Ip. unfold ops in Ip. cbn [map op_instr i_op] in Ip. destruct Ip as [Q|[Q|[]]]; [discriminate|congruence].
  - intros Pq H. apply pre_verify_exact. left. split; [apply all_verified; [assumption|apply W; assumption]|].
    assert (Np : Forall (fun o => ~ control_op o /\ o <> OP_RETURN) (ops p)).
    { unfold p, ops. rewrite !map_app. apply Forall_app. split.
      - apply Forall_forall. intros o Ho. apply in_map_iff in Ho as (i & <- & Hi). unfold is_push_program in Pu.
        rewrite forallb_forall in Pu. destruct (push_op_direct _ (Pu i Hi)) as (_ & _ & _ & _ & A & C). auto.
      - cbn [map app]. constructor; [cbn [op_instr i_op]; apply impure_control; reflexivity|]. exact Pq. }
    split; [apply balanced_plain; eapply Forall_impl; [|exact Np]; cbn; tauto|].
    intros Hi. exfalso. rewrite Forall_forall in Np. destruct (Np _ Hi) as [_ Q]. now apply Q.
Qed.

Section Spending.
Variable X : externals.
Variable doc : option rdoc.
Variable cf : config.
Variable neg1 : bytes.
Hypothesis St : standard X.
Hypothesis Cm : c_max_memory cf < 2 ^ 63.

(* ---- a program of pushes, a separator and the rest ---- *)
(* G is what the rest of the program asks for, with so many operations *)
Theorem separated_general (G : N -> Prop) B ux lx p r u l : B < 2 ^ 31 -> setup_program cf neg1 ux lx = Ret (p, r) -> r_error r = E_OK ->
  p = u ++ [op_instr OP_CODESEPARATOR] ++ l -> is_push_program u = true -> (forall s, segments l s -> decompile (concat s) = Ret l) ->
  2 * len ux + len lx + len neg1 + 2 < 2 ^ 31 -> room (stack_after u) [] <= B ->
  (forall s f m, segments p s -> len (concat s) < 2 ^ 31 -> (forall k, script_code (counter_at s (S (length u)) k) = Ret l) ->
     at_rest cf m (stack_after u) [] 1 -> 1 <= c_max_ops cf ->
     (fails X doc cf s (length l + S f) (S (length u)) (S (length u)) m \/
      accepts X doc cf s (S (length u)) (length l + S f) (S (length u)) m /\ exists x, G x /\ 1 + x <= c_max_ops cf) /\
     (forall x, G x -> ample B (limits_of cf) -> 1 + x <= c_max_ops cf -> accepts X doc cf s (S (length u)) (length l + S f) (S (length u)) m)) ->
  (spends X doc cf neg1 ux lx -> exists x, G x /\ 1 + x <= c_max_ops cf) /\
  (forall x, G x -> ample B (limits_of cf) -> 1 + x <= c_max_ops cf -> spends X doc cf neg1 ux lx).
Proof.
  intros LB Es Er Ep Pu Dl Len Ru H. destruct (standard_short X St) as [Tr Sh].
  destruct (eval_run X doc cf neg1 ux lx p _ Es Er Len) as (s & Hs & Ls & Ev).
  pose proof (segments_length _ _ Hs) as Ln. pose proof (segments_concat_length _ _ Hs) as Lc.
  assert (Lp : length p = (length u + (1 + length l))%nat) by (rewrite Ep, !app_length; cbn [length]; lia).
  set (f := (length (concat s) - length p)%nat).
  assert (Ef : S (length (concat s)) = (length u + S (length l + S f))%nat) by (unfold f; lia).
  unfold spends. rewrite Ev, Ef. clear Ev Ef.
  assert (Bu : room (stack_after u ++ []) [] <= B) by (rewrite app_nil_r; exact Ru).
  destruct (straight X doc cf Tr Sh p s Hs Ls ([], []) eq_refl B u _ _ _ LB (runs_pushes X cf B u [] [] Pu Bu) 0 0 (S (length l + S f)) (machine0 cf) 0
    ([op_instr OP_CODESEPARATOR] ++ l) Ep (rest0 cf Cm) ltac:(lia)) as [A1 A2].
  rewrite (counted_pushes u Pu), app_nil_r in *. cbn [Nat.add N.add] in A1, A2.
  assert (Ec : nth_error p (length u) = Some (op_instr OP_CODESEPARATOR)) by (rewrite Ep, nth_error_app2, Nat.sub_diag by lia; reflexivity).
  assert (Sq : skipn (S (length u)) p = l).
  { rewrite Ep, skipn_app, skipn_all2 by lia. replace (S (length u) - length u)%nat with 1%nat by lia. reflexivity. }
  assert (Sp : next_sep s 0 (length u) = S (length u)) by (rewrite (sep_next p s Hs Ls _ _ _ Ec); reflexivity).
  assert (Code : forall k, script_code (counter_at s (S (length u)) k) = Ret l).
  { intros k. unfold script_code, counter_at. cbn [pc_sep pc_script]. rewrite skipn_concat. apply Dl. rewrite <- Sq at 1. now apply segments_skip. }
  assert (Cn : counted [OP_CODESEPARATOR] = 1) by reflexivity.
  assert (Noz : positional OP_CODESEPARATOR = true -> no_negative_zero cf OP_CODESEPARATOR (stack_after u)) by discriminate.
  assert (Ef0 : instr_effect X cf (op_instr OP_CODESEPARATOR) (stack_after u) [] = Some (stack_after u, [])) by reflexivity.
  assert (Sm : small (stack_after u)) by (eapply room_small; [exact Ru|exact LB]).
  assert (Step2 : forall m, at_rest cf m (stack_after u) [] 0 ->
    (fails X doc cf s (S (length l + S f)) 0 (length u) m \/
     arrives X doc cf s ([], []) (S (length l + S f)) 0 (length u) m (length l + S f) (S (length u)) (S (length u)) (stack_after u) [] 1) /\
    (1 <= c_max_ops cf -> ample B (limits_of cf) ->
     arrives X doc cf s ([], []) (S (length l + S f)) 0 (length u) m (length l + S f) (S (length u)) (S (length u)) (stack_after u) [] 1)).
  { intros m At. destruct (one_step X doc cf Tr Sh p s Hs Ls ([], []) eq_refl (op_instr OP_CODESEPARATOR) (length l + S f) 0 (length u) m _ _ 0 Ec At Sm
      ltac:(lia) eq_refl Noz) as [T1 T2]. cbn [op_instr i_op] in T1, T2. rewrite Cn, Sp in T1, T2. cbn [N.add] in T1, T2. split.
    - destruct T1 as [T1|(s' & a' & E' & T1)]; [now left|]. right. rewrite Ef0 in E'.
      assert (s' = stack_after u) by congruence. assert (a' = []) by congruence. subst. exact T1.
    - intros Q Am. apply (T2 _ _ Ef0); [|assumption]. eapply room_fits; [exact Am|]. exact Ru. }
  assert (Step3 : forall m, at_rest cf m (stack_after u) [] 1 -> 1 <= c_max_ops cf -> _) by
    (intros m At O1; exact (H s f m Hs Ls Code At O1)).
  assert (Fl : forall fuel j k m, fails X doc cf s fuel j k m ->
    match machine_run X doc cf fuel (counter_at s j k) m with Ret (r, _, _) => Ret r | Throw _ => Throw X_Fuel | Undef => Undef end <> Ret (result_of_bool true)).
  { intros fuel j k m (r0 & m' & c' & -> & Vr) Q. assert (r0 = result_of_bool true) as -> by congruence. discriminate. }
  split.
  - intros Q. destruct A1 as [A1|(s1 & a1 & E1' & _ & m1 & At1 & E1)]; [exfalso; revert Q; apply Fl; exact A1|].
    assert (s1 = stack_after u) by congruence. assert (a1 = []) by congruence. subst s1 a1.
    rewrite E1 in Q. destruct (Step2 m1 At1) as [[F|(O2 & m2 & At2 & E2)] _]; [exfalso; revert Q; apply Fl; exact F|].
    rewrite E2 in Q. destruct (Step3 m2 At2 O2) as [[F|(_ & x & S3)] _]; [exfalso; revert Q; apply Fl; exact F|]. exists x. exact S3.
  - intros x Sx Am Oc. destruct (A2 _ _ eq_refl Am ltac:(lia)) as (_ & m1 & At1 & E1). rewrite E1.
    destruct (Step2 m1 At1) as [_ T2]. destruct (T2 ltac:(lia) Am) as (O2 & m2 & At2 & E2). rewrite E2.
    destruct (Step3 m2 At2 O2) as [_ T3]. destruct (T3 x Sx Am Oc) as (m3 & c3 & ->). reflexivity.
Qed.

Theorem separated_spends B ux lx p r u l e : B < 2 ^ 31 -> setup_program cf neg1 ux lx = Ret (p, r) -> r_error r = E_OK ->
  p = u ++ [op_instr OP_CODESEPARATOR] ++ l -> is_push_program u = true -> (forall s, segments l s -> decompile (concat s) = Ret l) ->
  2 * len ux + len lx + len neg1 + 2 < 2 ^ 31 -> check_runs X doc cf l B l (stack_after u) [] e ->
  (spends X doc cf neg1 ux lx -> exists x, satisfied cf e x /\ 1 + x <= c_max_ops cf) /\
  (forall x, satisfied cf e x -> ample B (limits_of cf) -> 1 + x <= c_max_ops cf -> spends X doc cf neg1 ux lx).
Proof.
  intros LB Es Er Ep Pu Dl Len H. destruct (standard_short X St) as [Tr Sh].
  apply (separated_general (satisfied cf e) B ux lx p r u l LB Es Er Ep Pu Dl Len (runs_room_check _ _ _ _ _ _ _ _ _ H)).
  intros s f m Hs Ls Code At O1. eapply (check_verdict X doc cf Tr Sh p s Hs Ls l _ Code ([], []) eq_refl); try eassumption.
  - rewrite Ep, skipn_app, skipn_all2 by lia. replace (S (length u) - length u)%nat with 1%nat by lia. reflexivity.
  - rewrite Ep, !app_length. cbn [length]. lia.
Qed.

(* ---- outputs with the script itself ---- *)
Theorem check_spends B ux lx u l e : B < 2 ^ 31 -> decompile ux = Ret u -> is_push_program u = true -> decompile lx = Ret l ->
  has_flag FLAG_P2SH (c_flags cf) = false \/ is_P2SH lx = false -> 2 * len ux + len lx + len neg1 + 2 < 2 ^ 31 ->
  check_runs X doc cf l B l (stack_after u) [] e ->
  (spends X doc cf neg1 ux lx -> well_pushed cf (u ++ l) /\ exists x, satisfied cf e x /\ 1 + x <= c_max_ops cf) /\
  (forall x, satisfied cf e x -> enough cf B (1 + x) -> plain_ops l -> well_pushed cf (u ++ l) -> spends X doc cf neg1 ux lx).
Proof.
  intros LB Eu Pu El P2 Len H.
  assert (Lx : len lx < 2 ^ 32) by (change (2 ^ 31) with 2147483648 in Len; change (2 ^ 32) with 4294967296; lia).
  pose proof (setup_plain cf neg1 _ _ _ _ Eu El P2 Lx (or_intror Pu)) as Es.
  assert (V : Forall (fun i => instr_verify 0 i = E_OK) (u ++ l)) by (apply Forall_app; split; eapply decompile_verified; eassumption).
  destruct (pre_verify_separated cf u l Pu V) as [Pv1 Pv2].
  assert (Dl : forall s, segments l s -> decompile (concat s) = Ret l).
  { intros s Hl. destruct (decompile_segments _ _ El) as (s2 & H2 & E2 & _). rewrite (segments_write _ _ Hl), <- (segments_write _ _ H2), <- E2. exact El. }
  destruct (serror_is_ok (pre_verify (u ++ [op_instr OP_CODESEPARATOR] ++ l) (c_flags cf))) eqn:Eok.
  2:{ split.
      - intros Sp. exfalso. unfold spends, evaluate in Sp. destruct (interpreter_starts cf neg1 ux lx _ _ Es Len) as (s & _ & _ & E).
        rewrite E in Sp. unfold interp_run in Sp. cbn [in_halt in_result result_of_error r_error] in Sp. rewrite Eok in Sp. cbn [negb in_result] in Sp.
        discriminate.
      - intros x _ _ Pq W. rewrite (Pv2 Pq W) in Eok. discriminate. }
  apply serror_ok_iff in Eok.
  destruct (separated_spends B ux lx _ _ u l e LB Es Eok eq_refl Pu Dl Len H) as [A1 A2]. split.
  - intros Sp. split; [exact (Pv1 Eok)|exact (A1 Sp)].
  - intros x Sx [Am Oc] _ _. exact (A2 x Sx Am Oc).
Qed.

(* ---- outputs with the hash of the script ---- *)
Lemma runs_after B code q t s a s' a' x e : check_runs X doc cf code B q s a (Goes s' a' x) -> check_runs X doc cf code B t s' a' e ->
  check_runs X doc cf code B (q ++ t) s a (after x e).
Proof.
  intros H Ht. remember (Goes s' a' x) as g eqn:Eg. revert x Eg. induction H as [s a A|i q s a s1 a1 k g A C H IH|i q s a A C|i q s a k A C]; intros x Eg; try discriminate.
  - assert (s = s') by congruence. assert (a = a') by congruence. assert (x = 0) by congruence. subst. cbn [app].
    replace (after 0 e) with e; [exact Ht|]. destruct e; reflexivity.
  - destruct g as [s2 a2 y| |y]; try discriminate. cbn [after] in Eg. assert (s2 = s') by congruence. assert (a2 = a') by congruence. assert (x = k + y) by congruence. subst.
    cbn [app]. replace (after (k + y) e) with (after k (after y e)); [|destruct e; cbn [after]; rewrite ?N.add_assoc; reflexivity].
    eapply check_on; [exact A|exact C|]. apply IH. reflexivity.
Qed.
Lemma runs_ended B code q t s a e : check_runs X doc cf code B q s a e -> (forall s' a' x, e <> Goes s' a' x) -> check_runs X doc cf code B (q ++ t) s a e.
Proof.
  induction 1 as [s a A|i q s a s1 a1 k g A C H IH|i q s a A C|i q s a k A C]; intros N; cbn [app].
  - exfalso. eapply N. reflexivity.
  - eapply check_on; [exact A|exact C|]. apply IH. intros s' a' x Q. subst g. eapply N. reflexivity.
  - apply check_refused; assumption.
  - apply check_satisfied; assumption.
Qed.

Lemma direct_step B code i q s a s' a' e : impure (i_op i) = false -> i_op i <> OP_CODESEPARATOR -> positional (i_op i) = false ->
  instr_effect X cf i s a = Some (s', a') -> room s a <= B -> check_runs X doc cf code B q s' a' e -> check_runs X doc cf code B (i :: q) s a (after (counted [i_op i]) e).
Proof.
  intros I1 I2 I3 E R H. eapply check_on; [exact R| |exact H]. apply step_table; [|exact E]. split; [exact I1|]. split; [exact I2|]. congruence.
Qed.

Lemma runs_hash B code pr d st a : is_push_op (i_op pr) = true -> len d = 20 -> room (d :: d :: pushed_by pr :: st) a <= B ->
  check_runs X doc cf code B [op_instr OP_VERIFY; pr; op_instr OP_HASH160; push d; op_instr OP_EQUAL] st a (hash_end X pr d st a).
Proof.
  intros P Ld R. unfold hash_end.
  assert (R0 : room st a <= B) by (unfold room in *; rewrite !footprint_cons in R; lia).
  assert (Direct : forall s, direct cf (op_instr OP_VERIFY) s) by (intros s; split; [reflexivity|]; split; [discriminate|discriminate]).
  destruct st as [|top rest]; [apply check_refused; [exact R0|apply step_wrong; [apply Direct|reflexivity]]|].
  destruct (nonzeroZ (sn_val top)) eqn:T.
  2:{ apply check_refused; [exact R0|]. apply step_wrong; [apply Direct|]. change (instr_effect X cf (op_instr OP_VERIFY) (top :: rest) a) with
        (if nonzeroZ (sn_val top) then Some (rest, a) else None). rewrite T. reflexivity. }
  set (v := pushed_by pr) in *. set (h := x_ripemd160 X (x_sha256 X v)).
  assert (Lh : len h = 20) by (unfold h; apply St).
  assert (Fp : footprint [h] = footprint [d]) by (rewrite !footprint_cons, Lh, Ld; reflexivity).
  destruct (push_op_direct _ P) as (Q1 & Q2 & Q3 & Q4 & _).
  assert (Ld31 : len d < 2 ^ 31) by (rewrite Ld; reflexivity).
  destruct (push_is_push d Ld31) as [Pd _]. destruct (push_op_direct _ Pd) as (D1 & D2 & D3 & D4 & _).
  assert (Cp : counted [i_op pr] = 0) by (rewrite counted_cons, Q4; reflexivity).
  assert (Cd : counted [i_op (push d)] = 0) by (rewrite counted_cons, D4; reflexivity).
  assert (Pv : pushed_by (push d) = d).
  { now apply pushed_push. }
  unfold room in *. repeat rewrite footprint_cons in R. rewrite footprint_cons in R0. rewrite !footprint_cons, footprint_nil in Fp.
  change 3 with (1 + (0 + (1 + (0 + (1 + 0))))).
  assert (G : forall k s' a' n, after k (Goes s' a' n) = Goes s' a' (k + n)) by reflexivity.
  rewrite <- Cp at 1. rewrite <- Cd at 1. rewrite <- !G.
  apply (direct_step B code (op_instr OP_VERIFY) _ (top :: rest) a rest a); [reflexivity|discriminate|reflexivity| |unfold room; rewrite !footprint_cons; lia|].
  { change (instr_effect X cf (op_instr OP_VERIFY) (top :: rest) a) with (if nonzeroZ (sn_val top) then Some (rest, a) else None). rewrite T. reflexivity. }
  apply (direct_step B code pr _ rest a (v :: rest) a); [assumption|assumption|assumption|apply push_effect; exact P|unfold room; lia|].
  apply (direct_step B code (op_instr OP_HASH160) _ (v :: rest) a (h :: rest) a); [reflexivity|discriminate|reflexivity|reflexivity|unfold room; rewrite !footprint_cons; lia|].
  apply (direct_step B code (push d) _ (h :: rest) a (d :: h :: rest) a); [assumption|assumption|assumption| |unfold room; rewrite !footprint_cons; lia|].
  { rewrite push_effect by exact Pd. rewrite Pv. reflexivity. }
  apply (direct_step B code (op_instr OP_EQUAL) _ (d :: h :: rest) a (sn_bool (bytes_eqb h d) :: rest) a); [reflexivity|discriminate|reflexivity| |unfold room; rewrite !footprint_cons; lia|].
  { change (instr_effect X cf (op_instr OP_EQUAL) (d :: h :: rest) a) with (Some (sn_enc (if bytes_eqb h d then 1 else 0)%Z :: rest, a)). destruct (bytes_eqb h d); reflexivity. }
  apply check_end. unfold room. rewrite footprint_cons. assert (len (sn_bool (bytes_eqb h d)) <= 1) by (destruct (bytes_eqb h d); vm_compute; discriminate). lia.
Qed.

Theorem script_hash_spends B ux lx u pr d redeem e : B < 2 ^ 31 -> has_flag FLAG_P2SH (c_flags cf) = true -> len d = 20 -> p2sh_script d = Some lx ->
  decompile ux = Ret (u ++ [pr]) -> is_push_program (u ++ [pr]) = true -> i_op pr <> OP_1NEGATE ->
  decompile (pushed_by pr) = Ret redeem -> balanced (ops redeem) -> 2 * len ux + len neg1 + 25 < 2 ^ 31 ->
  check_runs X doc cf (by_hash redeem pr d) B redeem (stack_after u) [] e ->
  (forall st a x, e = Goes st a x -> room (d :: d :: pushed_by pr :: st) a <= B) ->
  (spends X doc cf neg1 ux lx -> exists x, hash_satisfied X cf pr d e x /\ 1 + x <= c_max_ops cf) /\
  (forall x, hash_satisfied X cf pr d e x -> enough cf B (1 + x) -> spends X doc cf neg1 ux lx).
Proof.
  intros LB Fp Ld El Eu Pu N1 Er Br Len H Rm.
  assert (Ld31 : len d < 2 ^ 31) by (rewrite Ld; reflexivity).
  set (lk := [op_instr OP_HASH160; push d; op_instr OP_EQUAL]).
  assert (Wr : Forall written lk).
  { constructor; [apply written_op; [reflexivity|repeat split; discriminate|unfold control_op; intuition discriminate]|].
    constructor; [now apply written_push|]. constructor; [apply written_op; [reflexivity|repeat split; discriminate|unfold control_op; intuition discriminate]|constructor]. }
  destruct (scripts_built d Ld) as (_ & _ & Eb). rewrite Eb in El. assert (Lx : len lx = 23).
  { match type of El with Some ?z = Some _ => assert (lx = z) as -> by congruence end. rewrite ?len_app, ?len_cons, ?Ld. cbn [app]. rewrite ?len_cons, ?len_app, ?Ld. reflexivity. }
  rewrite <- Eb in El.
  assert (Ip : is_P2SH lx = true) by (apply p2sh_test; eauto).
  assert (Dl : decompile lx = Ret lk).
  { apply (written_compile lk lx Wr); [|exact El]. pose proof (written_len _ Wr) as Lw. cbn [lk fold_right length op_instr i_data] in Lw. change (len []) with 0 in Lw.
    pose proof (ScriptProofs.push_data_len d ltac:(lia)). change (2 ^ 32) with 4294967296. lia. }
  assert (C : is_P2SH_program lk = Some true).
  { unfold is_P2SH_program. rewrite (compile_decompile lx lk Dl) by (rewrite Lx; reflexivity). cbn [option_map]. rewrite Ip. reflexivity. }
  assert (Pr : is_push_program u = true /\ is_push_op (i_op pr) = true).
  { unfold is_push_program in *. rewrite forallb_app in Pu. apply andb_prop in Pu as [Pu1 Pu2]. cbn [forallb] in Pu2. rewrite andb_true_r in Pu2. auto. }
  destruct Pr as [Pu1 Pp].
  assert (Pv : push_value neg1 pr = pushed_by pr).
  { unfold pushed_by, push_value. replace (byte_eqb (i_op pr) OP_1NEGATE) with false by (symmetry; apply byte_eqb_neq, N1). reflexivity. }
  set (l := by_hash redeem pr d) in *.
  assert (Es : setup_program cf neg1 ux lx = Ret (u ++ [op_instr OP_CODESEPARATOR] ++ l, result_of_bool false)).
  { unfold setup_program. rewrite Eu, Dl. unfold full. rewrite C, Fp. cbn [negb]. rewrite rev_app_distr. cbn [rev app]. rewrite Pv, Er, rev_involutive, Pu.
    cbn [negb andb]. rewrite andb_false_r. destruct (u ++ [pr]) as [|i0 v0] eqn:Q; [destruct u; discriminate|].
    do 4 f_equal. unfold l, by_hash, lk. rewrite <- !app_assoc. reflexivity. }
  assert (Seg : forall s, segments l s -> decompile (concat s) = Ret l).
  { intros s Hl. destruct (decompile_segments _ _ Er) as (s2 & _ & _ & Kr). apply (decompile_of_segments _ _ Hl).
    - unfold l, by_hash, ops. rewrite map_app. apply Forall_app. split; [exact Kr|]. cbn [map op_instr i_op].
      destruct (decompile_segments _ _ Eu) as (s3 & _ & _ & Ku). unfold ops in Ku. rewrite map_app in Ku. apply Forall_app in Ku as [_ Ku]. cbn [map] in Ku.
      constructor; [repeat split; discriminate|]. constructor; [now inversion Ku|]. constructor; [repeat split; discriminate|].
      constructor; [now apply push_is_push|]. constructor; [repeat split; discriminate|constructor].
    - unfold l, by_hash, ops. rewrite map_app. apply balanced_app; [exact Br|]. cbn [map op_instr i_op]. apply balanced_plain.
      assert (Pc : forall o, is_push_op o = true -> ~ control_op o) by (intros o Ho; now apply push_op_direct in Ho).
      constructor; [unfold control_op; intuition discriminate|]. constructor; [now apply Pc|]. constructor; [unfold control_op; intuition discriminate|].
      constructor; [apply Pc; now apply push_is_push|]. constructor; [unfold control_op; intuition discriminate|constructor]. }
  assert (Len' : 2 * len ux + len lx + len neg1 + 2 < 2 ^ 31) by lia.
  assert (Whole : check_runs X doc cf l B l (stack_after u) [] (match e with Goes st a x => after x (hash_end X pr d st a) | _ => e end)).
  { unfold l at 2, by_hash. destruct e as [st a x| |x].
    - eapply runs_after; [exact H|]. apply runs_hash; [exact Pp|exact Ld|]. eapply Rm. reflexivity.
    - apply runs_ended; [exact H|discriminate].
    - apply runs_ended; [exact H|discriminate]. }
  destruct (separated_spends B ux lx _ _ u l _ LB Es eq_refl eq_refl Pu1 Seg Len' Whole) as [A1 A2].
  assert (Sat : forall x, hash_satisfied X cf pr d e x <-> satisfied cf (match e with Goes st a x => after x (hash_end X pr d st a) | _ => e end) x).
  { intros x. unfold hash_satisfied, satisfied. destruct e as [st a y| |y].
    - unfold hash_end. destruct st as [|top rest]; cbn [after].
      { split; intros [Q|Q]; try discriminate; [destruct Q as (? & ? & ? & ? & Q & _)|destruct Q as (? & ? & ? & Q & _)]; discriminate. }
      destruct (nonzeroZ (sn_val top)) eqn:T; cbn [after].
      2:{ split; intros [Q|Q]; try discriminate; [|destruct Q as (? & ? & ? & Q & _); discriminate].
          destruct Q as (t & ? & ? & ? & Q & _ & Q2 & _). assert (t = top) by congruence. subst. congruence. }
      assert (Nz : forall b, nonzeroZ (sn_val (sn_bool b)) = b) by (intros []; reflexivity). split.
      + intros [Q|(t & r & a1 & n & Q & -> & _ & Q2 & Q3)]; [discriminate|]. right.
        assert (t = top) by congruence. assert (r = rest) by congruence. assert (n = y) by congruence. subst t r n.
        exists (sn_bool (bytes_eqb (x_ripemd160 X (x_sha256 X (pushed_by pr))) d)), rest, a. split; [reflexivity|]. rewrite Nz. split; [|exact Q3]. now apply bytes_eqb_eq.
      + intros [Q|(t & r & a1 & Q & Q2 & Q3)]; [discriminate|]. right.
        assert (r = rest) by congruence. assert (x = y + 3) by congruence.
        assert (t = sn_bool (bytes_eqb (x_ripemd160 X (x_sha256 X (pushed_by pr))) d)) by congruence. subst t r x. rewrite Nz in Q2.
        exists top, rest, a, y. split; [reflexivity|]. split; [reflexivity|]. split; [exact T|]. split; [now apply bytes_eqb_eq|exact Q3].
    - split; intros [Q|Q]; try discriminate; [destruct Q as (? & ? & ? & ? & Q & _)|destruct Q as (? & ? & ? & Q & _)]; discriminate.
    - split; (intros [Q|Q]; [left; exact Q|]); [destruct Q as (? & ? & ? & ? & Q & _)|destruct Q as (? & ? & ? & Q & _)]; discriminate. }
  split.
  - intros Sp. destruct (A1 Sp) as (x & Sx & Ox). exists x. split; [now apply Sat|exact Ox].
  - intros x Sx [Am Oc]. apply Sat in Sx. exact (A2 x Sx Am Oc).
Qed.

(* ---- what follows a signature check that verifies ---- *)
Lemma signed_check code sig key : signed doc code sig key <-> r_error (check_one doc code sig key) = E_OK /\ r_success (check_one doc code sig key) = true.
Proof.
  unfold signed, check_one. destruct doc as [dc|]; [|split; [intros _; split; reflexivity|auto]].
  destruct (d_verify dc (cleanup_script_code code sig) sig key) as [er b]. cbn [r_error r_success]. unfold result_of_bool. split; [intros Q|intros [-> ->]; reflexivity].
  split; congruence.
Qed.
Lemma push_runs B code dt q s a e : len dt < 2 ^ 31 -> room s a <= B -> check_runs X doc cf code B q (dt :: s) a e -> check_runs X doc cf code B (push dt :: q) s a e.
Proof.
  intros Ld R H. destruct (push_is_push dt Ld) as [Pd _]. destruct (push_op_direct _ Pd) as (D1 & D2 & D3 & D4 & _).
  assert (Cd : counted [i_op (push dt)] = 0) by (rewrite counted_cons, D4; reflexivity).
  replace e with (after (counted [i_op (push dt)]) e) by (rewrite Cd; destruct e; reflexivity).
  eapply direct_step; [assumption|assumption|assumption| |exact R|exact H]. rewrite push_effect by exact Pd. now rewrite pushed_push.
Qed.
Lemma check_progress o code B q key sig s a : o = OP_CHECKSIG \/ o = OP_CHECKSIGVERIFY -> room (key :: sig :: s) a <= B ->
  let c := check_one doc code sig key in
  (~ signed doc code sig key -> o = OP_CHECKSIGVERIFY -> check_runs X doc cf code B (op_instr o :: q) (key :: sig :: s) a Refused) /\
  (r_error c <> E_OK -> check_runs X doc cf code B (op_instr o :: q) (key :: sig :: s) a Refused) /\
  (signed doc code sig key -> o = OP_CHECKSIGVERIFY -> check_runs X doc cf code B (op_instr o :: q) (key :: sig :: s) a (Satisfied 1)).
Proof.
  intros Ho R c.
  assert (E2 : r_error c <> E_OK -> check_runs X doc cf code B (op_instr o :: q) (key :: sig :: s) a Refused).
  { intros N. apply check_refused; [exact R|]. now apply step_error. }
  split; [|split; [exact E2|]].
  - intros N Ev. destruct (serror_is_ok (r_error c)) eqn:Q.
    + apply serror_ok_iff in Q. apply check_refused; [exact R|]. pose proof (step_sig_verify X doc cf code key sig s a Q) as T. fold c in T.
      destruct (r_success c) eqn:Sc; [|rewrite Ev; exact T]. exfalso. apply N, signed_check. auto.
    + apply E2. intros Q'. apply serror_ok_iff in Q'. congruence.
  - intros Sg Ev. apply signed_check in Sg as [Q Sc]. apply check_satisfied; [exact R|]. pose proof (step_sig_verify X doc cf code key sig s a Q) as T. rewrite Sc in T. rewrite Ev. exact T.
Qed.

Theorem rest_ignored ux lx sig key rest : len sig < 2 ^ 31 -> len key < 2 ^ 31 -> len sig + len key + 64 < 2 ^ 31 ->
  decompile ux = Ret [push sig] -> decompile lx = Ret (verify_then key rest) ->
  has_flag FLAG_P2SH (c_flags cf) = false \/ is_P2SH lx = false -> 2 * len ux + len lx + len neg1 + 2 < 2 ^ 31 ->
  (spends X doc cf neg1 ux lx -> signed doc (verify_then key rest) sig key) /\
  (enough cf (len sig + len key + 64) 2 -> plain_ops rest -> well_pushed cf (push sig :: verify_then key rest) -> signed doc (verify_then key rest) sig key ->
   spends X doc cf neg1 ux lx).
Proof.
  intros Ls Lk Lb Eu El P2 Len. set (l := verify_then key rest) in *. set (B := len sig + len key + 64).
  assert (Pu : is_push_program [push sig] = true) by (cbn [is_push_program forallb]; rewrite andb_true_r; now apply push_is_push).
  assert (Sa : stack_after [push sig] = [sig]) by (unfold stack_after; cbn [map rev app]; now rewrite pushed_push).
  assert (R0 : room [sig] [] <= B) by (unfold room, B; repeat rewrite footprint_cons; rewrite !footprint_nil; lia).
  assert (R1 : room [key; sig] [] <= B) by (unfold room, B; repeat rewrite footprint_cons; rewrite !footprint_nil; lia).
  assert (Push : forall e, check_runs X doc cf l B (op_instr OP_CHECKSIGVERIFY :: rest) [key; sig] [] e -> check_runs X doc cf l B l (stack_after [push sig]) [] e).
  { intros e H. rewrite Sa. apply push_runs; assumption. }
  destruct (check_progress OP_CHECKSIGVERIFY l B rest key sig [] [] (or_intror eq_refl) R1) as (P1 & _ & P3).
  assert (LB : B < 2 ^ 31) by exact Lb.
  split.
  - intros Sp. destruct (serror_is_ok (r_error (check_one doc l sig key)) && r_success (check_one doc l sig key)) eqn:Q.
    + apply andb_prop in Q as [Q1 Q2]. apply serror_ok_iff in Q1. apply signed_check. auto.
    + exfalso. assert (N : ~ signed doc l sig key).
      { intros Sg. apply signed_check in Sg as [Q1 Q2]. rewrite Q1, Q2 in Q. discriminate. }
      destruct (check_spends B ux lx _ l _ LB Eu Pu El P2 Len (Push _ (P1 N eq_refl))) as [A _]. destruct (A Sp) as (_ & x & [Z|(? & ? & ? & Z & _)] & _); discriminate.
  - intros En Pr Wp Sg. destruct (check_spends B ux lx _ l _ LB Eu Pu El P2 Len (Push _ (P3 Sg eq_refl))) as [_ A]. apply (A 1); [now left|exact En| |exact Wp].
    unfold plain_ops, l, verify_then. cbn [map op_instr i_op]. destruct (push_is_push key Lk) as [Pk _]. destruct (push_op_direct _ Pk) as (_ & _ & _ & _ & K1 & K2).
    constructor; [auto|]. constructor; [split; [unfold control_op; intuition discriminate|discriminate]|exact Pr].
Qed.

(* ---- every output with the hash of a script ---- *)
Theorem anyone_spends lx : has_flag FLAG_P2SH (c_flags cf) = true -> is_P2SH lx = true -> enough cf 96 2 -> len neg1 + 40 < 2 ^ 31 ->
  spends X doc cf neg1 [x04; x00; x00; x00; xaf] lx.
Proof.
  intros Fp Ip En Ln. apply p2sh_test in Ip as (d & Ld & El).
  set (rx := [x00; x00; x00; xaf]). set (pr := push rx).
  set (redeem := [op_instr OP_0; op_instr OP_0; op_instr OP_0; op_instr OP_CHECKMULTISIGVERIFY]).
  set (code := by_hash redeem pr d).
  assert (H : check_runs X doc cf code 96 redeem (stack_after []) [] (Satisfied 1)).
  { unfold redeem. assert (P0 : forall q s e, room s [] <= 96 -> check_runs X doc cf code 96 q ([] :: s) [] e -> check_runs X doc cf code 96 (op_instr OP_0 :: q) s [] e).
    { intros q s e R Hq. replace e with (after (counted [i_op (op_instr OP_0)]) e) by (destruct e; reflexivity).
      eapply direct_step; [reflexivity|discriminate|reflexivity|reflexivity|exact R|exact Hq]. }
    do 3 (apply P0; [vm_compute; discriminate|]). apply check_satisfied; [vm_compute; discriminate|].
    assert (Ly : layout cf [[]; []; []] [] [] [] []).
    { exists [], []. split; [reflexivity|]. assert (Z : count_of (minimal cf) [] = inr (Z.of_nat (@length bytes []))) by (destruct (minimal cf); reflexivity).
      split; [exact Z|]. split; [exact Z|]. split; [apply N.le_0_l|apply le_n]. }
    refine (step_multi_verify X doc cf code [[]; []; []] [] [] [] [] [] true Ly _ _).
    - constructor.
    - unfold nulls_wrong. cbn [negb andb orb len length]. change (len [] =? 0) with true. cbn [negb]. apply andb_false_r. }
  destruct (script_hash_spends 96 [x04; x00; x00; x00; xaf] lx [] pr d redeem (Satisfied 1) ltac:(reflexivity) Fp Ld El eq_refl eq_refl ltac:(discriminate) eq_refl) as [_ A].
  - apply balanced_plain. repeat (constructor; [unfold control_op; cbn [op_instr i_op]; intuition discriminate|]). constructor.
  - change (len [x04; x00; x00; x00; xaf]) with 5. lia.
  - exact H.
  - discriminate.
  - apply (A 1); [now left|exact En].
Qed.

(* ---- an output with the hash of a script that asks for one signature ---- *)
Theorem key_by_hash sig key rx ux lx d : compile [push key; op_instr OP_CHECKSIG] = Some rx -> compile [push sig; push rx] = Some ux ->
  has_flag FLAG_P2SH (c_flags cf) = true -> len d = 20 -> p2sh_script d = Some lx -> 3 * footprint [sig; key] + len neg1 + 300 < 2 ^ 31 ->
  let code := by_hash [push key; op_instr OP_CHECKSIG] (push rx) d in
  (spends X doc cf neg1 ux lx -> x_ripemd160 X (x_sha256 X rx) = d /\ signed doc code sig key) /\
  (enough cf (2 * footprint [sig; key] + 200) 5 -> x_ripemd160 X (x_sha256 X rx) = d -> signed doc code sig key -> spends X doc cf neg1 ux lx).
Proof.
  intros Er Eu Fp Ld El Len code. repeat rewrite footprint_cons in Len. repeat rewrite footprint_cons. rewrite footprint_nil in *. change (2 ^ 31) with 2147483648 in Len.
  assert (Lk : len key < 2 ^ 31) by (change (2 ^ 31) with 2147483648; lia).
  assert (Ls : len sig < 2 ^ 31) by (change (2 ^ 31) with 2147483648; lia).
  set (redeem := [push key; op_instr OP_CHECKSIG]) in *.
  assert (Wr : Forall written redeem).
  { constructor; [now apply written_push|]. constructor; [apply written_op; [reflexivity|repeat split; discriminate|unfold control_op; intuition discriminate]|constructor]. }
  assert (Lw : len (program_write redeem) <= 10 + (len (i_data (push key)) + 0)) by exact (written_len _ Wr).
  pose proof (ScriptProofs.push_data_len key Lk) as Pk.
  assert (L32 : len (program_write redeem) < 2 ^ 32) by (change (2 ^ 32) with 4294967296; lia).
  pose proof (written_compile _ _ Wr L32 Er) as Dr.
  assert (Xr : rx = program_write redeem).
  { pose proof (compile_segments _ _ (written_segments _ Wr) L32) as E'. change (concat (map instr_write redeem)) with (program_write redeem) in E'. congruence. }
  assert (Lr : len rx <= len key + 10) by (rewrite Xr; lia).
  assert (Lr31 : len rx < 2 ^ 31) by (change (2 ^ 31) with 2147483648; lia).
  set (up := [push sig; push rx]) in *.
  assert (Wu : Forall written up) by (constructor; [now apply written_push|]; constructor; [now apply written_push|constructor]).
  assert (Lv : len (program_write up) <= 10 + (len (i_data (push sig)) + (len (i_data (push rx)) + 0))) by exact (written_len _ Wu).
  pose proof (ScriptProofs.push_data_len sig Ls) as Ps. pose proof (ScriptProofs.push_data_len rx Lr31) as Pr.
  assert (L32u : len (program_write up) < 2 ^ 32) by (change (2 ^ 32) with 4294967296; lia).
  pose proof (written_compile _ _ Wu L32u Eu) as Du.
  assert (Xu : ux = program_write up).
  { pose proof (compile_segments _ _ (written_segments _ Wu) L32u) as E'. change (concat (map instr_write up)) with (program_write up) in E'. congruence. }
  assert (Lu : len ux <= len sig + len key + 20) by (rewrite Xu; lia).
  change up with ([push sig] ++ [push rx]) in Du.
  assert (Pu : is_push_program ([push sig] ++ [push rx]) = true).
  { cbn [app is_push_program forallb]. rewrite (proj1 (push_is_push sig Ls)), (proj1 (push_is_push rx Lr31)). reflexivity. }
  assert (Pv : pushed_by (push rx) = rx) by now apply pushed_push.
  assert (N1 : i_op (push rx) <> OP_1NEGATE).
  { intros Q. unfold pushed_by, push_value in Pv. rewrite Q in Pv. change (is_push_data OP_1NEGATE || byte_eqb OP_1NEGATE OP_RETURN) with false in Pv.
    change (negb (is_push_op OP_1NEGATE)) with false in Pv. change (byte_eqb OP_1NEGATE OP_1NEGATE) with true in Pv. cbv iota in Pv. rewrite <- Pv in Dr.
    assert (D81 : decompile [x81] = Ret [op_instr x81]) by (vm_compute; reflexivity). rewrite D81 in Dr. assert (E : [op_instr x81] = redeem) by congruence.
    apply (f_equal (@length instr)) in E. discriminate. }
  assert (Br : balanced (ops redeem)).
  { apply balanced_plain. unfold ops. apply Forall_map. eapply Forall_impl; [|exact Wr]. intros i Hi. apply Hi. }
  rewrite <- Pv in Dr at 1. set (B := 2 * (len sig + 32 + (len key + 32 + 0)) + 200) in *.
  assert (LB : B < 2 ^ 31) by (change (2 ^ 31) with 2147483648; lia).
  assert (Sa : stack_after [push sig] = [sig]) by (unfold stack_after; cbn [map rev app]; now rewrite pushed_push).
  assert (R0 : room [sig] [] <= B) by (unfold room, B; repeat rewrite footprint_cons; rewrite !footprint_nil; lia).
  assert (R1 : room [key; sig] [] <= B) by (unfold room, B; repeat rewrite footprint_cons; rewrite !footprint_nil; lia).
  assert (R2 : forall b, room (d :: d :: rx :: [sn_bool b]) [] <= B).
  { intros b. assert (len (sn_bool b) <= 1) by (destruct b; vm_compute; discriminate). unfold room, B. repeat rewrite footprint_cons. rewrite !footprint_nil, Ld. lia. }
  assert (R3 : forall b, room [sn_bool b] [] <= B) by (intros b; specialize (R2 b); unfold room in *; repeat rewrite footprint_cons in R2; rewrite footprint_cons; lia).
  assert (Len2 : 2 * len ux + len neg1 + 25 < 2 ^ 31) by (change (2 ^ 31) with 2147483648; lia).
  set (c := check_one doc code sig key).
  assert (H : check_runs X doc cf code B redeem (stack_after [push sig]) [] (if serror_is_ok (r_error c) then Goes [sn_bool (r_success c)] [] 1 else Refused)).
  { rewrite Sa. apply push_runs; [exact Lk|exact R0|]. destruct (serror_is_ok (r_error c)) eqn:Q.
    - apply serror_ok_iff in Q. change (Goes [sn_bool (r_success c)] [] 1) with (after 1 (Goes [sn_bool (r_success c)] [] 0)).
      eapply check_on; [exact R1|apply step_sig; exact Q|]. apply check_end, R3.
    - apply (check_progress OP_CHECKSIG code B [] key sig [] [] (or_introl eq_refl) R1). intros Q'. apply serror_ok_iff in Q'. fold c in Q'. congruence. }
  destruct (script_hash_spends B ux lx [push sig] (push rx) d redeem _ LB Fp Ld El Du Pu N1 Dr Br Len2 H) as [A1 A2].
  { intros st a x Q. destruct (serror_is_ok (r_error c)); [|discriminate]. assert (st = [sn_bool (r_success c)]) as -> by congruence. assert (a = []) as -> by congruence.
    rewrite Pv. apply R2. }
  assert (Nz : forall b, nonzeroZ (sn_val (sn_bool b)) = b) by (intros []; reflexivity).
  split.
  - intros Sp. destruct (A1 Sp) as (x & [Q|(t & r & a & n & Q & _ & Q2 & Q3 & _)] & _).
    + destruct (serror_is_ok (r_error c)); discriminate.
    + rewrite Pv in Q3. split; [exact Q3|]. destruct (serror_is_ok (r_error c)) eqn:Qe; [|discriminate]. apply serror_ok_iff in Qe. apply signed_check. fold c. split; [exact Qe|].
      assert (t = sn_bool (r_success c)) by congruence. subst t. now rewrite Nz in Q2.
  - intros En Hd Sg. apply signed_check in Sg as [Q1 Q2]. fold c in Q1, Q2. rewrite Q1 in A2. cbn [serror_is_ok] in A2. apply (A2 4); [|exact En].
    right. exists (sn_bool (r_success c)), [], [], 1. rewrite Nz, Pv. split; [reflexivity|]. split; [reflexivity|]. split; [exact Q2|]. split; [exact Hd|]. intros _. reflexivity.
Qed.
End Spending.
