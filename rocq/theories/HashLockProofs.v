From Verif Require Import Base BaseProofs WireModel WireProofs ScriptModel ScriptSpec ScriptProofs ProgramProofs NumModel NumSpec NumProofs.
From Verif Require Import StackModel StackSpec StackProofs MachineModel MachineSpec MachineProofs OpcodeProofs RunProofs ControlProofs FlowProofs SpendProofs.
From Verif Require Import PatternModel PatternTemplates StraightSpec StraightProofs StraightEval PayRunSpec PayRunProofs MultiRunProofs CheckRunSpec CheckRunProofs CheckSpendProofs BranchProofs ConditionProofs HashLockSpec.
From Coq Require Import Lia ZifyBool ZifyNat ZifyN.
Ltac Zify.zify_post_hook ::= Z.div_mod_to_equations.
Local Open Scope N_scope.

Section HashLock.
Variable X : externals.
Variable doc : option rdoc.
Variable cf : config.
Variable neg1 : bytes.
Hypothesis St : standard X.
Hypothesis Cm : c_max_memory cf < 2 ^ 63.

Lemma cond_direct B code d i q s a s' a' e : impure (i_op i) = false -> i_op i <> OP_CODESEPARATOR -> positional (i_op i) = false ->
  instr_effect X cf i s a = Some (s', a') -> room s a <= B -> cond_runs X doc cf B code d q s' a' e ->
  cond_runs X doc cf B code d (i :: q) s a (after (counted [i_op i]) e).
Proof.
  intros I1 I2 I3 E R H. eapply cond_on; [exact R| |exact H]. apply step_table; [|exact E]. split; [exact I1|]. split; [exact I2|]. congruence.
Qed.
Lemma cond_push B code d v q s a e : len v < 2 ^ 31 -> room s a <= B -> cond_runs X doc cf B code d q (v :: s) a e ->
  cond_runs X doc cf B code d (push v :: q) s a (after 0 e).
Proof.
  intros Lv R H. destruct (push_is_push v Lv) as [Pv _]. destruct (push_op_direct _ Pv) as (D1 & D2 & D3 & D4 & _).
  assert (Cv : counted [i_op (push v)] = 0) by (rewrite counted_cons, D4; reflexivity). rewrite <- Cv.
  apply (cond_direct B code d (push v) q s a (v :: s) a); [exact D1|exact D2|exact D3| |exact R|exact H].
  rewrite (push_effect X cf _ s a Pv), (pushed_push _ Lv). reflexivity.
Qed.

Theorem hash_spends x h k rest ux lx : let l := hash_lock h k rest in let u := [push x; op_instr OP_1] in
  len h = 32 -> nonzeroZ (sn_val k) = true -> decompile ux = Ret u -> decompile lx = Ret l ->
  has_flag FLAG_P2SH (c_flags cf) = false \/ is_P2SH lx = false -> 2 * len ux + len lx + len neg1 + 2 < 2 ^ 31 -> len x + len k + 200 < 2 ^ 31 ->
  (spends X doc cf neg1 ux lx -> x_sha256 X x = h) /\
  (x_sha256 X x = h -> enough cf (len x + len k + 200) (4 + counted (OP_ELSE :: ops rest)) -> well_pushed cf (u ++ l) -> well_formed cf l ->
   spends X doc cf neg1 ux lx).
Proof.
  intros l u Lh Nk Eu El P2 Len Lb.
  assert (Lx : len x < 2 ^ 31) by lia. assert (Lk : len k < 2 ^ 31) by lia. assert (Lh31 : len h < 2 ^ 31) by (rewrite Lh; reflexivity).
  assert (Pu : is_push_program u = true).
  { unfold u. cbn [is_push_program forallb]. destruct (push_is_push x Lx) as [Q _]. rewrite Q. reflexivity. }
  assert (Es : stack_after u = [[x01]; x]).
  { unfold u, stack_after. cbn [map rev app]. rewrite (pushed_push _ Lx). reflexivity. }
  set (B := len x + len k + 200) in *.
  assert (Hs : len (x_sha256 X x) = 32) by apply St.
  assert (F0 : footprint [] = 0) by reflexivity.
  assert (Rm : forall s, footprint s <= B -> room s [] <= B) by (intros s; unfold room; rewrite F0; lia).
  assert (H : cond_runs X doc cf B l 0 l (stack_after u) [] (if bytes_eqb (x_sha256 X x) h then after 1 (after 1 (after 0 (after 1 (after 0 (Goes [k] [] (counted (OP_ELSE :: ops rest))))))) else Refused)).
  { rewrite Es.
    assert (R1 : footprint [[x01]; x] <= B) by (rewrite !footprint_cons; change (len [x01]) with 1; rewrite F0; lia).
    assert (R2 : footprint [x] <= B) by (rewrite !footprint_cons, F0; lia).
    assert (R3 : footprint [x_sha256 X x] <= B) by (rewrite !footprint_cons, F0, Hs; lia).
    assert (R4 : footprint [h; x_sha256 X x] <= B) by (rewrite !footprint_cons, F0, Hs, Lh; lia).
    assert (R5 : footprint [k] <= B) by (rewrite !footprint_cons, F0; lia).
    assert (M : meets cf OP_IF [x01]) by (split; [left; reflexivity|split; [right; right; reflexivity|reflexivity]]).
    assert (E : instr_effect X cf (op_instr OP_EQUALVERIFY) [h; x_sha256 X x] [] = if bytes_eqb (x_sha256 X x) h then Some ([], []) else None) by reflexivity.
    assert (Last : cond_runs X doc cf B l 1 (op_instr OP_EQUALVERIFY :: push k :: op_instr OP_ELSE :: rest) [h; x_sha256 X x] []
      (if bytes_eqb (x_sha256 X x) h then after 1 (after 0 (Goes [k] [] (counted (OP_ELSE :: ops rest)))) else Refused)).
    { destruct (bytes_eqb (x_sha256 X x) h).
      - apply (cond_direct B l 1 (op_instr OP_EQUALVERIFY) _ [h; x_sha256 X x] [] [] []); [reflexivity|discriminate|reflexivity|exact E|apply Rm, R4|].
        apply cond_push; [exact Lk|apply Rm; rewrite F0; lia|]. apply cond_else. apply Rm, R5.
      - apply cond_refused; [apply Rm, R4|]. apply step_wrong; [|exact E]. split; [reflexivity|]. split; [discriminate|discriminate]. }
    assert (All : forall g, cond_runs X doc cf B l 1 (op_instr OP_EQUALVERIFY :: push k :: op_instr OP_ELSE :: rest) [h; x_sha256 X x] [] g ->
      cond_runs X doc cf B l 0 l [[x01]; x] [] (after 1 (after 1 (after 0 g)))).
    { intros g Hg. apply cond_meets; [apply Rm, R1|exact M|].
      apply (cond_direct B l 1 (op_instr OP_SHA256) _ [x] [] [x_sha256 X x] []); [reflexivity|discriminate|reflexivity|reflexivity|apply Rm, R2|].
      apply cond_push; [exact Lh31|apply Rm, R3|exact Hg]. }
    apply All in Last. destruct (bytes_eqb (x_sha256 X x) h); exact Last. }
  destruct (cond_spends X doc cf neg1 St Cm B ux lx u l _ Lb Eu Pu El P2 Len H) as [A1 A2]. split.
  - intros Sp. destruct (A1 Sp) as (_ & _ & y & Sy & _). destruct (bytes_eqb (x_sha256 X x) h) eqn:Eh; [now apply bytes_eqb_eq|destruct (never cf y Sy)].
  - intros Eh En Wp Wf. assert (Q : bytes_eqb (x_sha256 X x) h = true) by now apply bytes_eqb_eq. rewrite Q in A2.
    apply (A2 (3 + counted (OP_ELSE :: ops rest))); [|replace (1 + (3 + counted (OP_ELSE :: ops rest))) with (4 + counted (OP_ELSE :: ops rest)) by lia; exact En|exact Wf|exact Wp].
    cbn [after]. apply sat_goes. split; [lia|]. exists k, []. split; [reflexivity|]. split; [exact Nk|]. intros _. reflexivity.
Qed.
Theorem hash_anyone h k rest lx : decompile lx = Ret (hash_lock h k rest) ->
  has_flag FLAG_P2SH (c_flags cf) = false \/ is_P2SH lx = false -> len lx + len neg1 + 10 < 2 ^ 31 ->
  enough cf 66 (1 + counted (ops (hash_lock h k rest))) -> well_pushed cf (hash_lock h k rest) -> well_formed cf (hash_lock h k rest) ->
  spends X doc cf neg1 [OP_1; OP_0] lx.
Proof. intros El P2 Len En Wp Wf. exact (first_condition X doc cf neg1 St Cm OP_IF _ lx (or_introl eq_refl) El P2 Len En Wp Wf). Qed.

Theorem signed_lock_spends x sig h k rest ux lx : let l := signed_lock h k rest in let u := [push sig; push x; op_instr OP_1] in
  let B := len x + len sig + len k + 250 in
  len h = 32 -> decompile ux = Ret u -> decompile lx = Ret l ->
  has_flag FLAG_P2SH (c_flags cf) = false \/ is_P2SH lx = false -> 2 * len ux + len lx + len neg1 + 2 < 2 ^ 31 -> B < 2 ^ 31 ->
  (spends X doc cf neg1 ux lx -> x_sha256 X x = h /\ signed doc l sig k) /\
  (x_sha256 X x = h -> signed doc l sig k -> enough cf B 5 -> well_pushed cf (u ++ l) -> well_formed cf l -> spends X doc cf neg1 ux lx).
Proof.
  intros l u B Lh Eu El P2 Len Lb.
  assert (Lx : len x < 2 ^ 31) by (unfold B in Lb; lia). assert (Lk : len k < 2 ^ 31) by (unfold B in Lb; lia). assert (Ls : len sig < 2 ^ 31) by (unfold B in Lb; lia).
  assert (Lh31 : len h < 2 ^ 31) by (rewrite Lh; reflexivity).
  assert (Pu : is_push_program u = true).
  { unfold u. cbn [is_push_program forallb]. destruct (push_is_push x Lx) as [Q _]. destruct (push_is_push sig Ls) as [Q' _]. rewrite Q, Q'. reflexivity. }
  assert (Es : stack_after u = [[x01]; x; sig]).
  { unfold u, stack_after. cbn [map rev app]. rewrite (pushed_push _ Lx), (pushed_push _ Ls). reflexivity. }
  assert (Hs : len (x_sha256 X x) = 32) by apply St.
  assert (F0 : footprint [] = 0) by reflexivity.
  assert (Rm : forall s, footprint s <= B -> room s [] <= B) by (intros s; unfold room; rewrite F0; lia).
  assert (R1 : footprint [[x01]; x; sig] <= B) by (unfold B; rewrite !footprint_cons; change (len [x01]) with 1; rewrite F0; lia).
  assert (R2 : footprint [x; sig] <= B) by (unfold B; rewrite !footprint_cons, F0; lia).
  assert (R3 : footprint [x_sha256 X x; sig] <= B) by (unfold B; rewrite !footprint_cons, F0, Hs; lia).
  assert (R4 : footprint [h; x_sha256 X x; sig] <= B) by (unfold B; rewrite !footprint_cons, F0, Hs, Lh; lia).
  assert (R5 : footprint [sig] <= B) by (unfold B; rewrite !footprint_cons, F0; lia).
  assert (R6 : footprint [k; sig] <= B) by (unfold B; rewrite !footprint_cons, F0; lia).
  assert (M : meets cf OP_IF [x01]) by (split; [left; reflexivity|split; [right; right; reflexivity|reflexivity]]).
  assert (E : instr_effect X cf (op_instr OP_EQUALVERIFY) [h; x_sha256 X x; sig] [] = if bytes_eqb (x_sha256 X x) h then Some ([sig], []) else None) by reflexivity.
  assert (All : forall g, cond_runs X doc cf B l 1 (op_instr OP_EQUALVERIFY :: push k :: op_instr OP_CHECKSIGVERIFY :: rest) [h; x_sha256 X x; sig] [] g ->
    cond_runs X doc cf B l 0 l (stack_after u) [] (after 1 (after 1 (after 0 g)))).
  { intros g Hg. rewrite Es. apply cond_meets; [apply Rm, R1|exact M|].
    apply (cond_direct B l 1 (op_instr OP_SHA256) _ [x; sig] [] [x_sha256 X x; sig] []); [reflexivity|discriminate|reflexivity|reflexivity|apply Rm, R2|].
    apply cond_push; [exact Lh31|apply Rm, R3|exact Hg]. }
  assert (Not : cond_runs X doc cf B l 0 l (stack_after u) [] Refused -> ~ spends X doc cf neg1 ux lx).
  { intros H Sp. destruct (cond_spends X doc cf neg1 St Cm B ux lx u l _ Lb Eu Pu El P2 Len H) as [A _]. destruct (A Sp) as (_ & _ & y & Sy & _). destruct (never cf y Sy). }
  destruct (bytes_eqb (x_sha256 X x) h) eqn:Eh.
  2:{ split.
      - intros Sp. exfalso. refine (Not (All Refused _) Sp). apply cond_refused; [apply Rm, R4|]. apply step_wrong; [|exact E]. split; [reflexivity|]. split; [discriminate|discriminate].
      - intros Q. apply bytes_eqb_eq in Q. congruence. }
  apply bytes_eqb_eq in Eh.
  assert (Eq : forall g, cond_runs X doc cf B l 1 (op_instr OP_CHECKSIGVERIFY :: rest) [k; sig] [] g ->
    cond_runs X doc cf B l 0 l (stack_after u) [] (after 1 (after 1 (after 0 (after 1 (after 0 g)))))).
  { intros g Hg. apply All. apply (cond_direct B l 1 (op_instr OP_EQUALVERIFY) _ [h; x_sha256 X x; sig] [] [sig] []); [reflexivity|discriminate|reflexivity|exact E|apply Rm, R4|].
    apply cond_push; [exact Lk|apply Rm, R5|exact Hg]. }
  destruct (serror_is_ok (r_error (check_one doc l sig k))) eqn:Ok.
  2:{ assert (Ne : r_error (check_one doc l sig k) <> E_OK) by (intros Z; apply serror_ok_iff in Z; congruence). split.
      - intros Sp. exfalso. refine (Not (Eq Refused _) Sp). apply cond_refused; [apply Rm, R6|]. apply step_error; [now right|exact Ne].
      - intros _ Sg. apply signed_check in Sg as [Z _]. congruence. }
  apply serror_ok_iff in Ok. pose proof (step_sig_verify X doc cf l k sig [] [] Ok) as T.
  destruct (r_success (check_one doc l sig k)) eqn:Sc.
  2:{ split.
      - intros Sp. exfalso. refine (Not (Eq Refused _) Sp). apply cond_refused; [apply Rm, R6|exact T].
      - intros _ Sg. apply signed_check in Sg as [_ Z]. congruence. }
  split.
  - intros _. split; [exact Eh|]. apply signed_check. auto.
  - intros _ Sg En Wp Wf.
    destruct (cond_spends X doc cf neg1 St Cm B ux lx u l _ Lb Eu Pu El P2 Len (Eq (Satisfied 1) (cond_satisfied X doc cf B l 1 _ rest _ _ 1 (Rm _ R6) T))) as [_ A2].
    apply (A2 4); [left; reflexivity|exact En|exact Wf|exact Wp].
Qed.
End HashLock.
