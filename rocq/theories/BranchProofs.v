From Verif Require Import Base BaseProofs WireModel WireProofs ScriptModel ScriptSpec ScriptProofs ProgramProofs NumModel NumSpec NumProofs.
From Verif Require Import StackModel StackSpec StackProofs MachineModel MachineSpec MachineProofs OpcodeProofs RunProofs ControlProofs FlowProofs SpendProofs.
From Verif Require Import PatternModel PatternTemplates StraightSpec StraightProofs StraightEval PayRunSpec PayRunProofs MultiRunProofs CheckRunSpec CheckRunProofs CheckSpendProofs.
From Coq Require Import Lia ZifyBool ZifyNat ZifyN.
Ltac Zify.zify_post_hook ::= Z.div_mod_to_equations.
Local Open Scope N_scope.

Lemma balanced_tail o p : ~ control_op o -> balanced (o :: p) <-> balanced p.
Proof.
  intros No. split; [|now apply bal_op]. intros B.
  inversion B as [|o' p' _ Bp|o' a p' Ho _ _|o' a b p' Ho _ _ _]; subst; [assumption|exfalso; apply No; unfold control_op; tauto..].
Qed.
Lemma balanced_prefix u p : Forall (fun o => ~ control_op o) u -> balanced (u ++ p) <-> balanced p.
Proof. induction 1 as [|o u H F IH]; [reflexivity|]. cbn [app]. now rewrite balanced_tail. Qed.

(* what is checked before the run, exactly *)
Lemma pre_verify_formed cf u l : is_push_program u = true -> Forall (fun i => instr_verify 0 i = E_OK) (u ++ l) ->
  pre_verify (u ++ [op_instr OP_CODESEPARATOR] ++ l) (c_flags cf) = E_OK <-> well_pushed cf (u ++ l) /\ well_formed cf l.
Proof.
  intros Pu V. set (p := u ++ [op_instr OP_CODESEPARATOR] ++ l).
  assert (Cs : instr_verify 0 (op_instr OP_CODESEPARATOR) = E_OK) by reflexivity.
  assert (Vp : Forall (fun i => instr_verify 0 i = E_OK) p).
  { apply Forall_app in V as [V1 V2]. apply Forall_app. split; [assumption|]. constructor; assumption. }
  assert (W : well_pushed cf p <-> well_pushed cf (u ++ l)).
  { unfold p. rewrite !well_pushed_app. split; [tauto|]. intros (A & C). split; [assumption|]. split; [|assumption].
    intros _. constructor; [reflexivity|constructor]. }
  assert (Ip : In OP_CODESEPARATOR (ops p)) by (unfold p, ops; rewrite !map_app; apply in_app_iff; right; left; reflexivity).
  assert (Np : Forall (fun o => ~ control_op o /\ o <> OP_RETURN) (ops u)).
  { apply Forall_forall. intros o Ho. apply in_map_iff in Ho as (i & <- & Hi). unfold is_push_program in Pu.
    rewrite forallb_forall in Pu. destruct (push_op_direct _ (Pu i Hi)) as (_ & _ & _ & _ & A & C). auto. }
  assert (Op : ops p = ops u ++ OP_CODESEPARATOR :: ops l) by (unfold p, ops; rewrite !map_app; reflexivity).
  assert (Bl : balanced (ops p) <-> balanced (ops l)).
  { rewrite Op, balanced_prefix by (eapply Forall_impl; [|exact Np]; cbn; tauto). apply balanced_tail. unfold control_op. intuition discriminate. }
  assert (Rt : In OP_RETURN (ops p) <-> In OP_RETURN (ops l)).
  { rewrite Op, in_app_iff. split; [|intros H; right; now right]. intros [H|[H|H]]; [|discriminate|exact H].
    exfalso. rewrite Forall_forall in Np. destruct (Np _ H) as [_ Q]. now apply Q. }
  unfold well_formed. rewrite pre_verify_exact, (all_verified cf p Vp), W, Bl, Rt. split; [|now left].
  intros [H | [(_ & H) | (_ & j & H & Hj)]]; [exact H|exfalso..].
  - rewrite H in Ip. destruct Ip as [Q|[]]. discriminate.
  - rewrite H in Ip. unfold ops in Ip. cbn [map op_instr i_op] in Ip. destruct Ip as [Q|[Q|[]]]; [discriminate|congruence].
Qed.

Section Branches.
Variable X : externals.
Variable doc : option rdoc.
Variable cf : config.
Variable neg1 : bytes.
Hypothesis St : standard X.
Hypothesis Cm : c_max_memory cf < 2 ^ 63.

Theorem falls_spends B ux lx u q o rest v r a n : let l := q ++ op_instr o :: rest in
  B < 2 ^ 31 -> decompile ux = Ret u -> is_push_program u = true -> decompile lx = Ret l ->
  has_flag FLAG_P2SH (c_flags cf) = false \/ is_P2SH lx = false -> 2 * len ux + len lx + len neg1 + 2 < 2 ^ 31 ->
  check_runs X doc cf l B q (stack_after u) [] (Goes (v :: r) a n) -> falls cf o v ->
  let total := 1 + (n + counted (o :: ops rest)) in
  (spends X doc cf neg1 ux lx -> well_pushed cf (u ++ l) /\ well_formed cf l /\ good_end cf r /\ total <= c_max_ops cf) /\
  (enough cf B total -> well_pushed cf (u ++ l) -> well_formed cf l -> good_end cf r -> spends X doc cf neg1 ux lx).
Proof.
  intros l LB Eu Pu El P2 Len H Fa total. destruct (standard_short X St) as [Tr Sh].
  assert (Lx : len lx < 2 ^ 32) by (change (2 ^ 31) with 2147483648 in Len; change (2 ^ 32) with 4294967296; lia).
  pose proof (setup_plain cf neg1 _ _ _ _ Eu El P2 Lx (or_intror Pu)) as Es.
  assert (V : Forall (fun i => instr_verify 0 i = E_OK) (u ++ l)) by (apply Forall_app; split; eapply decompile_verified; eassumption).
  pose proof (pre_verify_formed cf u l Pu V) as Pv.
  assert (Dl : forall s, segments l s -> decompile (concat s) = Ret l).
  { intros s Hl. destruct (decompile_segments _ _ El) as (s2 & H2 & E2 & _). rewrite (segments_write _ _ Hl), <- (segments_write _ _ H2), <- E2. exact El. }
  destruct (serror_is_ok (pre_verify (u ++ [op_instr OP_CODESEPARATOR] ++ l) (c_flags cf))) eqn:Eok.
  2:{ split.
      - intros Sp. exfalso. unfold spends, evaluate in Sp. destruct (interpreter_starts cf neg1 ux lx _ _ Es Len) as (s & _ & _ & E).
        rewrite E in Sp. unfold interp_run in Sp. cbn [in_halt in_result result_of_error r_error] in Sp. rewrite Eok in Sp. cbn [negb in_result] in Sp.
        discriminate.
      - intros _ W F. rewrite (proj2 Pv (conj W F)) in Eok. discriminate. }
  apply serror_ok_iff in Eok. destruct (proj1 Pv Eok) as [Wp Wf].
  set (p := u ++ [op_instr OP_CODESEPARATOR] ++ l) in *.
  set (x := n + counted (o :: ops rest)) in *.
  destruct (separated_general X doc cf neg1 St Cm (fun y => y = x /\ good_end cf r) B ux lx p _ u l LB Es Eok eq_refl Pu Dl Len (runs_room_check _ _ _ _ _ _ _ _ _ H)) as [A1 A2].
  { intros s f m Hs Ls Code At O1.
    assert (Sq : skipn (S (length u)) p = q ++ op_instr o :: rest).
    { unfold p. rewrite skipn_app, skipn_all2 by lia. replace (S (length u) - length u)%nat with 1%nat by lia. reflexivity. }
    assert (Sr : skipn (S (length u) + length q) p = op_instr o :: rest).
    { assert (Ep : p = (u ++ [op_instr OP_CODESEPARATOR] ++ q) ++ op_instr o :: rest) by (unfold p, l; rewrite <- !app_assoc; reflexivity).
      rewrite Ep, skipn_app, skipn_all2 by (rewrite !app_length; cbn [length]; lia). rewrite !app_length. cbn [length app].
      match goal with |- skipn ?z _ = _ => replace z with 0%nat by lia end. reflexivity. }
    set (k := (S (length u) + length q)%nat) in *.
    assert (Lp : length p = (k + S (length rest))%nat) by (unfold p, l, k; rewrite !app_length; cbn [length]; lia).
    replace (length l + S f)%nat with (length q + (S (length rest) + S f))%nat by (unfold l; rewrite app_length; cbn [length]; lia).
    set (g := (S (length rest) + S f)%nat) in *.
    pose proof (check_straight X doc cf Tr Sh p s Hs Ls l (S (length u)) Code ([], []) eq_refl B q _ _ _ LB H (S (length u)) g m 1 _ Sq At O1) as T.
    fold k in T. cbn [outcome_of] in T. destruct T as [T1 T2].
    assert (No : nth_error (ops p) k = Some (if byte_eqb o OP_NOTIF then OP_NOTIF else OP_IF)).
    { unfold ops. rewrite nth_error_map. destruct (skipn_next p _ _ _ Sr) as [-> _]. cbn [option_map op_instr i_op]. f_equal. destruct Fa as [[-> | ->] _]; reflexivity. }
    assert (So : skipn k (ops p) = o :: ops rest) by (unfold ops; rewrite skipn_map, Sr; reflexivity).
    assert (End : forall m1, at_rest cf m1 (v :: r) a (1 + n) -> 1 + n <= c_max_ops cf ->
      exists m' c', machine_run X doc cf g (counter_at s (S (length u)) k) m1 = Ret (if 1 + x <=? c_max_ops cf then verdict cf r else result_of_error E_OP_COUNT, m', c')).
    { intros m1 (G1 & _ & M1 & _ & X1 & N1) On. destruct Fa as (_ & Mi & Nv).
      destruct (if_not_taken X doc cf p s Hs Ls (byte_eqb o OP_NOTIF) g (S (length u)) k m1 v r No ltac:(unfold g; lia) G1 ltac:(unfold running; replace (m_exec m1) with (@nil bool) by congruence; reflexivity)
        ltac:(rewrite N1; exact On) M1 Mi Nv) as (m' & c' & E). exists m', c'. rewrite E. unfold skipped. rewrite So, N1. unfold x.
      replace (1 + n + counted (o :: ops rest)) with (1 + (n + counted (o :: ops rest))) by lia. reflexivity. }
    split.
    - destruct T1 as [F|(N1 & m1 & At1 & E1)]; [now left|]. destruct (End m1 At1 N1) as (m' & c' & E). destruct (1 + x <=? c_max_ops cf) eqn:Ox.
      + destruct (r_verify (verdict cf r)) eqn:Vr.
        * apply verify_true in Vr. right. split; [exists m', c'; rewrite E1, E, Vr; reflexivity|]. exists x. split; [|apply N.leb_le; exact Ox]. split; [reflexivity|].
          apply (verdict_iff cf s Ls l _ Code ([], []) eq_refl) in Vr as (tp & bl & Q). exists tp, bl. exact Q.
        * left. do 3 eexists. split; [rewrite E1; exact E|exact Vr].
      + left. do 3 eexists. split; [rewrite E1; exact E|apply error_fails].
    - intros y [-> (tp & bl & Q)] Am Ox. destruct (T2 Am ltac:(unfold x in Ox; lia)) as (N1 & m1 & At1 & E1). destruct (End m1 At1 N1) as (m' & c' & E).
      exists m', c'. rewrite E1, E, (proj2 (N.leb_le _ _) Ox). replace (verdict cf r) with (result_of_bool true); [reflexivity|]. symmetry. apply (verdict_iff cf s Ls l _ Code ([], []) eq_refl). exists tp, bl. exact Q. }
  split.
  - intros Sp. destruct (A1 Sp) as (y & [-> Ge] & Oy). auto.
  - intros [Am Oc] _ _ Ge. apply (A2 x); auto.
Qed.

(* ---- outputs whose script starts with a condition ---- *)
Theorem first_condition o rest lx : o = OP_IF \/ o = OP_NOTIF -> decompile lx = Ret (op_instr o :: rest) ->
  has_flag FLAG_P2SH (c_flags cf) = false \/ is_P2SH lx = false -> len lx + len neg1 + 10 < 2 ^ 31 ->
  enough cf 66 (1 + counted (o :: ops rest)) -> well_pushed cf (op_instr o :: rest) -> well_formed cf (op_instr o :: rest) ->
  spends X doc cf neg1 [OP_1; if byte_eqb o OP_NOTIF then OP_1 else OP_0] lx.
Proof.
  intros Ho El P2 Len En Wp Wf. set (b := if byte_eqb o OP_NOTIF then OP_1 else OP_0).
  set (u := [op_instr OP_1; op_instr b]). set (v := if byte_eqb o OP_NOTIF then [x01] else []).
  assert (Eu : decompile [OP_1; b] = Ret u) by (unfold u, b; destruct (byte_eqb o OP_NOTIF); vm_compute; reflexivity).
  assert (Pu : is_push_program u = true) by (unfold u, b; destruct (byte_eqb o OP_NOTIF); reflexivity).
  assert (Sa : stack_after u = [v; [x01]]) by (unfold u, v, b; destruct (byte_eqb o OP_NOTIF); reflexivity).
  assert (R : room [v; [x01]] [] <= 66) by (unfold v; destruct (byte_eqb o OP_NOTIF); vm_compute; discriminate).
  assert (H : check_runs X doc cf (op_instr o :: rest) 66 [] (stack_after u) [] (Goes (v :: [[x01]]) [] 0)) by (rewrite Sa; apply check_end, R).
  assert (Fa : falls cf o v).
  { split; [exact Ho|]. unfold v. destruct (byte_eqb o OP_NOTIF); split; auto. }
  assert (Len2 : 2 * len [OP_1; b] + len lx + len neg1 + 2 < 2 ^ 31) by (change (len [OP_1; b]) with 2; lia).
  destruct (falls_spends 66 [OP_1; b] lx u [] o rest v [[x01]] [] 0 ltac:(reflexivity) Eu Pu El P2 Len2 H Fa) as [_ A].
  apply A; [exact En| |exact Wf|].
  - apply well_pushed_app. split; [|exact Wp]. intros _. unfold u, b. destruct (byte_eqb o OP_NOTIF); repeat constructor.
  - exists [x01], []. split; [reflexivity|]. split; [reflexivity|]. intros _. reflexivity.
Qed.
End Branches.
