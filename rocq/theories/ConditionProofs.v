From Verif Require Import Base BaseProofs WireModel WireProofs ScriptModel ScriptSpec ScriptProofs ProgramProofs NumModel NumSpec NumProofs.
From Verif Require Import StackModel StackSpec StackProofs MachineModel MachineSpec MachineProofs OpcodeProofs RunProofs ControlProofs FlowProofs SpendProofs.
From Verif Require Import PatternModel PatternTemplates StraightSpec StraightProofs StraightEval PayRunSpec PayRunProofs MultiRunProofs CheckRunSpec CheckRunProofs CheckSpendProofs BranchProofs.
From Coq Require Import Lia ZifyBool ZifyNat ZifyN.
Ltac Zify.zify_post_hook ::= Z.div_mod_to_equations.
Local Open Scope N_scope.

Lemma sat_after cf k e x : satisfied cf (after k e) x <-> exists y, satisfied cf e y /\ x = k + y.
Proof.
  unfold satisfied. destruct e as [s a n| |n]; cbn [after]; split.
  - intros [Q|(t & r & a' & Q & R)]; [discriminate|]. exists n. split; [|congruence]. right. exists t, r, a'. split; [congruence|exact R].
  - intros (y & [Q|(t & r & a' & Q & R)] & ->); [discriminate|]. right. exists t, r, a'. split; [congruence|exact R].
  - intros [Q|(t & r & a' & Q & R)]; discriminate.
  - intros (y & [Q|(t & r & a' & Q & R)] & ->); discriminate.
  - intros [Q|(t & r & a' & Q & R)]; [|discriminate]. exists n. split; [now left|congruence].
  - intros (y & [Q|(t & r & a' & Q & R)] & ->); [|discriminate]. left. congruence.
Qed.
Lemma sat_goes cf s a n x : satisfied cf (Goes s a n) x <-> x = n /\ good_end cf s.
Proof.
  unfold satisfied, good_end. split.
  - intros [Q|(t & r & a' & Q & R)]; [discriminate|]. split; [congruence|]. exists t, r. split; [congruence|exact R].
  - intros [-> (t & r & -> & R)]. right. exists t, r, a. split; [reflexivity|exact R].
Qed.
Lemma all_true d : forallb (fun b => b) (repeat true d) = true.
Proof. induction d; [reflexivity|exact IHd]. Qed.
Lemma odd_value v : v <> [] -> v <> [x01] -> (1 <? len v) || (len v =? 1) && negb (byte_eqb (nth 0 v x00) x01) = true.
Proof.
  intros N0 N1. destruct v as [|b [|c v]]; [contradiction| |].
  - change (1 <? len [b]) with false. change (len [b] =? 1) with true. cbn [orb andb nth]. apply negb_true_iff, byte_eqb_neq. congruence.
  - replace (1 <? len (b :: c :: v)) with true; [reflexivity|]. symmetry. apply N.ltb_lt. unfold len. cbn [length]. lia.
Qed.

(* steps that do not end the script well, and steps from which it does not go on either *)
Lemma error_bad e : r_verify (result_of_error e) = false.
Proof. unfold r_verify, result_of_error. cbn [r_error r_success]. apply andb_false_r. Qed.
Definition quiet {A} (p : M A) : Prop := forall m, match p m with Stop r _ => r_verify r = false | _ => True end.
Definition stuck {A} (p : M A) : Prop := forall m, match p m with Val _ _ => False | Stop r _ => r_verify r = false | _ => True end.
Lemma stuck_after {A B} (p : M A) (f : A -> M B) : quiet p -> (forall x, stuck (f x)) -> stuck (x <- p ;; f x).
Proof. intros Q S m. specialize (Q m). unfold mbind. destruct (p m) as [x m'|r m'|e m'|]; [apply S|exact Q|exact I|exact I]. Qed.
Lemma stuck_first {A B} (p : M A) (f : A -> M B) : stuck p -> stuck (x <- p ;; f x).
Proof. intros S m. specialize (S m). unfold mbind. destruct (p m) as [x m'|r m'|e m'|]; [contradiction|exact S|exact I|exact I]. Qed.
Lemma quiet_bind {A B} (p : M A) (f : A -> M B) : quiet p -> (forall x, quiet (f x)) -> quiet (x <- p ;; f x).
Proof. intros Q S m. specialize (Q m). unfold mbind. destruct (p m) as [x m'|r m'|e m'|]; [apply S|exact Q|exact I|exact I]. Qed.
Lemma quiet_guard b e : quiet (guard b e).
Proof. intros m. unfold guard. destruct b; [exact I|apply error_bad]. Qed.
Lemma quiet_need k : quiet (need_stack k).
Proof. unfold need_stack, need. apply quiet_bind; [intros m; exact I|intros x; apply quiet_guard]. Qed.
Lemma quiet_top i : quiet (top_at i).
Proof. intros m. unfold top_at, lift, top. destruct (0 <=? i)%Z; [exact I|]. destruct (nth_error _ _); exact I. Qed.
Lemma quiet_number b mi n : quiet (number b mi n).
Proof. intros m. unfold number. destruct (read_integer b mi n); exact I. Qed.
Lemma unread_stuck X doc cf c o : doc <> None -> (forall l, script_code c <> Ret l) -> checking o -> stuck (exec_op X doc cf c o).
Proof.
  intros Nd Nc Ho. destruct doc as [dc|]; [|contradiction].
  assert (Sc : stuck (code_of c)) by (intros m; unfold code_of; destruct (script_code c) as [l|e|]; [destruct (Nc l eq_refl)|exact I|exact I]).
  assert (S1 : forall v, stuck (op_checksig (Some dc) c v)).
  { intros v. unfold op_checksig. apply stuck_after; [apply quiet_need|intros _]. do 2 (apply stuck_after; [apply quiet_top|intros ?]).
    apply stuck_first, stuck_first, Sc. }
  assert (S2 : forall v, stuck (op_checkmultisig (Some dc) cf c v)).
  { intros v. unfold op_checkmultisig. cbv zeta.
    repeat first [apply stuck_first, stuck_first, Sc
      | apply stuck_after; [first [apply quiet_need|apply quiet_top|apply quiet_number|apply quiet_guard|intros m; exact I]|intros ?]]. }
  destruct Ho as [-> |[-> |[-> | ->]]]; [apply S1|apply S1|apply S2|apply S2].
Qed.

Section Run.
Variable X : externals.
Variable doc : option rdoc.
Variable cf : config.
Hypothesis Tr : truncating X.
Hypothesis Sh : short_hashes X.

Section Script.
Variable p : program.
Variable s : list bytes.
Hypothesis Hs : segments p s.
Hypothesis L : len (concat s) < 2 ^ 31.
(* a check of signatures when the code cannot be read *)
Lemma unread_fails j d o fuel k m st a n : doc <> None -> (forall l, script_code (counter_at s j k) <> Ret l) -> checking o ->
  nth_error p k = Some (op_instr o) -> at_level (repeat true d, repeat false d) cf m st a n -> fails X doc cf s (S fuel) j k m.
Proof.
  intros Nd Nc Ho Ek (G & Ll & Em & Ea & Ex & Eo).
  destruct (next_op p s Hs L k _ Ek) as (t & En & _). cbn [op_instr i_op] in En.
  assert (R : running m = true) by (unfold running; replace (m_exec m) with (repeat true d) by congruence; apply all_true).
  unfold fails. rewrite (run_S X doc cf p s Hs L), (step_cons _ _ _ _ _ o t) by exact En. rewrite R, count_exact, Eo.
  replace (b2n OP_16 <? b2n o) with true by (destruct Ho as [-> |[-> |[-> | ->]]]; reflexivity).
  destruct (n + 1 <=? c_max_ops cf); [|do 3 eexists; split; reflexivity].
  replace (b2n o <=? b2n OP_PUSHDATA4) with false by (destruct Ho as [-> |[-> |[-> | ->]]]; reflexivity). cbv iota.
  pose proof (unread_stuck X doc cf (counter_at s j k) o Nd Nc Ho) as T.
  change {| m_stack := m_stack m; m_exec := m_exec m; m_else := m_else m; m_ops := n + 1 |} with (with_ops m (n + 1)).
  specialize (T (with_ops m (n + 1))).
  assert (Im : impure o = true) by (destruct Ho as [-> |[-> |[-> | ->]]]; reflexivity).
  assert (So : sound (with_ops m (n + 1))).
  { split; [exact G|]. unfold with_ops. cbn [m_exec m_else]. assert (Q1 : m_exec m = repeat true d) by congruence. assert (Q2 : m_else m = repeat false d) by congruence.
    rewrite Q1, Q2, !repeat_length. reflexivity. }
  pose proof (k_impure X doc cf (counter_at s j k) o Im _ So) as K.
  destruct (exec_op X doc cf (counter_at s j k) o (with_ops m (n + 1))) as [u m'|r m'|e m'|]; [contradiction| | |contradiction].
  - do 3 eexists. split; [reflexivity|exact T].
  - do 3 eexists. split; [reflexivity|apply error_bad].
Qed.
Section Part.
Variable code : program.
Variable j : nat.
Hypothesis Code : forall k, script_code (counter_at s j k) = Ret code.

Definition comes_out (B : N) (e : progress) (fuel k : nat) (m : mstate) (n : N) : Prop :=
  (fails X doc cf s fuel j k m \/ accepts X doc cf s j fuel k m /\ exists x, satisfied cf e x /\ n + x <= c_max_ops cf) /\
  (forall x, satisfied cf e x -> ample B (limits_of cf) -> n + x <= c_max_ops cf -> accepts X doc cf s j fuel k m).

Lemma verdict_good st : verdict cf st = result_of_bool true <-> good_end cf st.
Proof. apply (verdict_iff cf s L code j Code ([], []) eq_refl). Qed.
(* the rest is skipped *)
Lemma skips_out B st a y fuel k m n m' c' :
  machine_run X doc cf fuel (counter_at s j k) m = Ret (if n + y <=? c_max_ops cf then verdict cf st else result_of_error E_OP_COUNT, m', c') ->
  comes_out B (Goes st a y) fuel k m n.
Proof.
  intros E. split.
  - destruct (n + y <=? c_max_ops cf) eqn:O.
    + destruct (r_verify (verdict cf st)) eqn:V.
      * apply verify_true in V. right. split; [exists m', c'; rewrite E, V; reflexivity|]. exists y. split; [|lia]. apply sat_goes. split; [reflexivity|]. now apply verdict_good.
      * left. do 3 eexists. split; [exact E|exact V].
    + left. do 3 eexists. split; [exact E|]. unfold r_verify, result_of_error. cbn [r_error r_success]. apply andb_false_r.
  - intros x Sx _ O. apply sat_goes in Sx as [-> Ge]. exists m', c'. rewrite E. replace (n + y <=? c_max_ops cf) with true by lia.
    apply verdict_good in Ge. rewrite Ge. reflexivity.
Qed.
(* an instruction with OP_RETURN may carry data *)
Lemma return_step d i fuel k m st a n : nth_error p k = Some i -> i_op i = OP_RETURN -> at_level (repeat true d, repeat false d) cf m st a n ->
  if n + 1 <=? c_max_ops cf then
  machine_run X doc cf (S fuel) (counter_at s j k) m =
  match op_return cf (with_ops m (n + 1)) with
  | Val _ m' => machine_run X doc cf fuel (counter_at s j (S k)) m'
  | Stop r m' => Ret (r, m', counter_at s j k)
  | Exc e m' => Ret (result_of_error (error_of e), m', counter_at s j k)
  | UB => Undef
  end
  else fails X doc cf s (S fuel) j k m.
Proof.
  intros Ek Io (G & Ll & Em & Ea & Ex & Eo).
  destruct (next_op p s Hs L k _ Ek) as (t & En & _). rewrite Io in En.
  assert (R : running m = true) by (unfold running; replace (m_exec m) with (repeat true d) by congruence; apply all_true).
  destruct (n + 1 <=? c_max_ops cf) eqn:Oc.
  - rewrite (run_S X doc cf p s Hs L), (step_cons _ _ _ _ _ OP_RETURN t) by exact En.
    rewrite R, count_exact, Eo. change (b2n OP_16 <? b2n OP_RETURN) with true. cbv iota. rewrite Oc.
    change (b2n OP_RETURN <=? b2n OP_PUSHDATA4) with false. cbv iota. rewrite (sep_next p s Hs L _ _ _ Ek), Io.
    change (byte_eqb OP_RETURN OP_CODESEPARATOR) with false. reflexivity.
  - unfold fails. rewrite (run_S X doc cf p s Hs L), (step_cons _ _ _ _ _ OP_RETURN t) by exact En. rewrite count_exact, Eo.
    change (b2n OP_16 <? b2n OP_RETURN) with true. cbv iota. rewrite Oc. do 3 eexists. split; reflexivity.
Qed.

End Part.
Lemma refused_out j B e fuel k m n : fails X doc cf s fuel j k m -> (forall x, satisfied cf e x -> c_max_ops cf < n + x) -> comes_out j B e fuel k m n.
Proof. intros F H. split; [now left|]. intros x Sx _ O. specialize (H x Sx). lia. Qed.
Lemma never x : ~ satisfied cf Refused x.
Proof. intros [Q|(? & ? & ? & Q & _)]; discriminate. Qed.
(* one instruction, and then the rest *)
Lemma goes_on_any B e x fuel fuel' j j' k m n m1 : n + x <= c_max_ops cf ->
  machine_run X doc cf fuel (counter_at s j k) m = machine_run X doc cf fuel' (counter_at s j' (S k)) m1 ->
  comes_out j' B e fuel' (S k) m1 (n + x) -> comes_out j B (after x e) fuel k m n.
Proof.
  intros O E [A1 A2]. unfold comes_out, fails, accepts in *. rewrite E. split.
  - destruct A1 as [F|(A & y & Sy & Oy)]; [now left|]. right. split; [exact A|]. exists (x + y). split; [apply sat_after; exists y; auto|lia].
  - intros z Sz Am Oz. apply sat_after in Sz as (y & Sy & ->). apply (A2 y); [assumption|assumption|lia].
Qed.

Theorem cond_verdict B code d q s0 a0 e : B < 2 ^ 31 -> cond_runs X doc cf B code d q s0 a0 e -> forall j, (forall k, script_code (counter_at s j k) = Ret code) ->
  forall k f m n, skipn k p = q ->
  at_level (repeat true d, repeat false d) cf m s0 a0 n -> n <= c_max_ops cf -> comes_out j B e (length q + S f) k m n.
Proof.
  intros LB. induction 1 as [code d s0 a0 R|code d i q s0 a0 s1 a1 x e R C H IH|code d i q s0 a0 R C|code d i q s0 a0 x R C|code d o q v s0 a0 e R M H IH|code d o q v s0 a0 R M|
    code d o q a0 Ho R|code d o q v s0 a0 Ho Nf R|code d q s0 a0 R|code d q s0 a0 e R H IH|
    code i q s0 a0 R Ge Io|code d i q s0 a0 e R Ge Io H IH|code d i q s0 a0 R Ge Io|code d q s0 a0 e R Dq H IH|
    code d q o rest s0 a0 S1 R Nd Dq H Ho]; intros j Code k f m n Sk At On.
  - (* the end *)
    assert (Kl : (length p <= k)%nat) by (apply (f_equal (@length instr)) in Sk; rewrite skipn_length in Sk; cbn [length] in Sk; lia).
    apply (skips_out code j Code B s0 a0 0 _ k m n m (counter_at s j k)). destruct At as (_ & _ & M1 & _).
    assert (Ns : nth k s [] = []) by (apply nth_overflow; rewrite (segments_length _ _ Hs); lia).
    assert (Es : step X doc cf (counter_at s j k) m = Stop (verdict cf s0) m).
    { unfold step. cbn [counter_at pc_next]. rewrite Ns, end_exact, M1. reflexivity. }
    cbn [length Nat.add]. rewrite (run_S X doc cf p s Hs L), Es. replace (n + 0 <=? c_max_ops cf) with true by lia. reflexivity.
  - destruct (skipn_next p _ _ _ Sk) as [En Sk']. cbn [length Nat.add].
    destruct (check_one_step X doc cf Tr Sh p s Hs L code j Code (repeat true d, repeat false d) (all_true d) i (length q + S f) k m s0 a0 n _ En At (room_small _ _ _ R LB) On C) as [T1 T2].
    assert (Rq : room s1 a1 <= B) by (inversion H; assumption).
    split.
    + destruct T1 as [F|(N1 & m1 & At1 & E1)]; [now left|]. exact (proj1 (goes_on_any B e x _ _ j j k m n m1 N1 E1 (IH j Code (S k) f m1 (n + x) Sk' At1 N1))).
    + intros z Sz Am Oz. pose proof Sz as Sz'. apply sat_after in Sz' as (y & Sy & ->).
      destruct (T2 (room_fits _ _ _ _ Am Rq) ltac:(lia)) as (N1 & m1 & At1 & E1).
      exact (proj2 (goes_on_any B e x _ _ j j k m n m1 N1 E1 (IH j Code (S k) f m1 (n + x) Sk' At1 N1)) _ Sz Am Oz).
  - destruct (skipn_next p _ _ _ Sk) as [En Sk']. cbn [length Nat.add]. apply refused_out; [|intros z Z; destruct (never _ Z)].
    exact (check_one_step X doc cf Tr Sh p s Hs L code j Code (repeat true d, repeat false d) (all_true d) i (length q + S f) k m s0 a0 n _ En At (room_small _ _ _ R LB) On C).
  - destruct (skipn_next p _ _ _ Sk) as [En Sk']. cbn [length Nat.add].
    destruct (check_one_step X doc cf Tr Sh p s Hs L code j Code (repeat true d, repeat false d) (all_true d) i (length q + S f) k m s0 a0 n _ En At (room_small _ _ _ R LB) On C) as [T1 T2]. split.
    + destruct T1 as [F|[F N1]]; [now left|]. right. split; [exact F|]. exists x. split; [now left|exact N1].
    + intros z [Sa|(t & r & a & Sa & Q)] Am O; [|discriminate]. assert (z = x) by congruence. subst z. auto.
  - (* a condition that is met *)
    destruct (skipn_next p _ _ _ Sk) as [En Sk']. cbn [length Nat.add]. destruct M as (Ho & Mi & Nv).
    assert (Hc : b2n OP_16 < b2n o) by (destruct Ho as [-> | ->]; reflexivity).
    destruct (N.leb_spec (n + 1) (c_max_ops cf)) as [Oc|Oc].
    2:{ apply refused_out; [exact (too_many X doc cf p s Hs L code j Code _ o _ k m _ _ n En At Hc Oc)|]. intros z Z. apply sat_after in Z as (y & _ & ->). lia. }
    pose proof (step_counted X doc cf p s Hs L code j Code (repeat true d, repeat false d) (all_true d) o (length q + S f) k m _ _ n En At Hc Oc) as E.
    destruct At as (G & Ll & Em & Ea & Ex & Eo).
    assert (Ec : exec_op X doc cf (counter_at s j k) o = op_if cf (byte_eqb o OP_NOTIF)) by (destruct Ho as [-> | ->]; reflexivity). rewrite Ec in E.
    destruct (if_exact cf s L (byte_eqb o OP_NOTIF) (with_ops m (n + 1)) v s0 G Em Mi) as (st & Ei & B1 & B2 & B3 & B4). rewrite Ei in E.
    rewrite (sep_next p s Hs L _ _ _ En) in E. cbn [op_instr i_op] in E.
    replace (byte_eqb o OP_CODESEPARATOR) with false in E by (destruct Ho as [-> | ->]; reflexivity).
    eapply (goes_on_any B e 1); [exact Oc|exact E|]. apply (IH j Code); [exact Sk'| |exact Oc].
    replace (xorb (byte_eqb o OP_NOTIF) (nonzeroZ (sn_val v))) with true by (rewrite Nv; destruct (byte_eqb o OP_NOTIF); reflexivity).
    unfold at_level. cbn [m_stack m_exec m_else m_ops with_ops repeat] in *. split; [exact B4|]. split; [congruence|]. split; [exact B2|]. split; [congruence|]. split; [|reflexivity]. congruence.
  - (* a condition that is not met *)
    destruct (skipn_next p _ _ _ Sk) as [En Sk']. cbn [length Nat.add]. destruct M as (Ho & Mi & Nv). destruct At as (G & Ll & Em & Ea & Ex & Eo).
    assert (No : nth_error (ops p) k = Some (if byte_eqb o OP_NOTIF then OP_NOTIF else OP_IF)).
    { unfold ops. rewrite nth_error_map, En. cbn [option_map op_instr i_op]. f_equal. destruct Ho as [-> | ->]; reflexivity. }
    assert (So : skipn k (ops p) = o :: ops q) by (unfold ops; rewrite skipn_map, Sk; reflexivity).
    assert (Lp : (length p - k = S (length q))%nat) by (rewrite <- skipn_length, Sk; reflexivity).
    assert (Rn : running m = true) by (unfold running; replace (m_exec m) with (repeat true d) by congruence; apply all_true).
    destruct (if_not_taken X doc cf p s Hs L (byte_eqb o OP_NOTIF) (S (length q + S f)) j k m v s0 No ltac:(lia) G Rn ltac:(rewrite Eo; exact On) Em Mi Nv) as (m' & c' & E).
    unfold skipped in E. rewrite So, Eo in E. eapply (skips_out code j Code). exact E.
  - (* nothing to test *)
    destruct (skipn_next p _ _ _ Sk) as [En Sk']. cbn [length Nat.add]. apply refused_out; [|intros z Z; destruct (never _ Z)].
    assert (Hc : b2n OP_16 < b2n o) by (destruct Ho as [-> | ->]; reflexivity).
    destruct (N.leb_spec (n + 1) (c_max_ops cf)) as [Oc|Oc]; [|exact (too_many X doc cf p s Hs L code j Code _ o _ k m _ _ n En At Hc Oc)].
    unfold fails. rewrite (step_counted X doc cf p s Hs L code j Code (repeat true d, repeat false d) (all_true d) o (length q + S f) k m _ _ n En At Hc Oc).
    destruct At as (G & Ll & Em & Ea & Ex & Eo).
    assert (Ec : exec_op X doc cf (counter_at s j k) o = op_if cf (byte_eqb o OP_NOTIF)) by (destruct Ho as [-> | ->]; reflexivity). rewrite Ec.
    assert (Ei : op_if cf (byte_eqb o OP_NOTIF) (with_ops m (n + 1)) = Stop (result_of_error E_UNBALANCED_CONDITIONAL) (with_ops m (n + 1))).
    { unfold op_if. unfold mbind at 1. unfold need, get_size, mbind, guard, size. cbn [m_stack with_ops]. rewrite Em. reflexivity. }
    rewrite Ei. do 3 eexists. split; reflexivity.
  - (* a value that is not allowed *)
    destruct (skipn_next p _ _ _ Sk) as [En Sk']. cbn [length Nat.add]. apply refused_out; [|intros z Z; destruct (never _ Z)].
    assert (Hc : b2n OP_16 < b2n o) by (destruct Ho as [-> | ->]; reflexivity).
    destruct (N.leb_spec (n + 1) (c_max_ops cf)) as [Oc|Oc]; [|exact (too_many X doc cf p s Hs L code j Code _ o _ k m _ _ n En At Hc Oc)].
    unfold fails. rewrite (step_counted X doc cf p s Hs L code j Code (repeat true d, repeat false d) (all_true d) o (length q + S f) k m _ _ n En At Hc Oc).
    destruct At as (G & Ll & Em & Ea & Ex & Eo).
    assert (Ec : exec_op X doc cf (counter_at s j k) o = op_if cf (byte_eqb o OP_NOTIF)) by (destruct Ho as [-> | ->]; reflexivity). rewrite Ec.
    assert (Fl : has_flag FLAG_MINIMALIF (c_flags cf) = true) by (destruct (has_flag FLAG_MINIMALIF (c_flags cf)) eqn:Q; [reflexivity|exfalso; apply Nf; now left]).
    assert (Ov : (1 <? len v) || (len v =? 1) && negb (byte_eqb (nth 0 v x00) x01) = true).
    { apply odd_value; intros ->; apply Nf; unfold condition_fine; auto. }
    assert (Ei : op_if cf (byte_eqb o OP_NOTIF) (with_ops m (n + 1)) = Stop (result_of_error E_MINIMALIF) (with_ops m (n + 1))).
    { unfold op_if. unfold mbind at 1. unfold need, get_size, mbind, guard, size. cbn [m_stack with_ops]. rewrite Em. cbn [length].
      replace (1 <=? N.of_nat (S (length s0))) with true by lia. cbn [mret].
      unfold top_at, lift, top. change (0 <=? -1)%Z with false. change (Z.to_nat (- -1 - 1)) with 0%nat. cbn [m_stack with_ops]. rewrite Em. cbn [nth_error mret].
      rewrite Fl, Ov. reflexivity. }
    rewrite Ei. do 3 eexists. split; reflexivity.
  - (* the end of a branch *)
    destruct (skipn_next p _ _ _ Sk) as [En Sk']. cbn [length Nat.add]. destruct At as (G & Ll & Em & Ea & Ex & Eo).
    assert (No : nth_error (ops p) k = Some OP_ELSE) by (unfold ops; rewrite nth_error_map, En; reflexivity).
    assert (So : skipn k (ops p) = OP_ELSE :: ops q) by (unfold ops; rewrite skipn_map, Sk; reflexivity).
    assert (Lp : (length p - k = S (length q))%nat) by (rewrite <- skipn_length, Sk; reflexivity).
    cbn [repeat] in Ex.
    assert (X1 : m_exec m = true :: repeat true d) by congruence. assert (X2 : m_else m = false :: repeat false d) by congruence.
    assert (Rn : running m = true) by (unfold running; rewrite X1; apply (all_true (S d))).
    destruct (else_after_taken X doc cf p s Hs L (S (length q + S f)) j k m _ _ _ _ No ltac:(lia) Rn ltac:(rewrite Eo; exact On) X1 X2 eq_refl) as (m' & c' & E).
    unfold skipped in E. rewrite So, Eo, Em in E. eapply (skips_out code j Code). exact E.
  - (* the end of a condition *)
    destruct (skipn_next p _ _ _ Sk) as [En Sk']. cbn [length Nat.add].
    destruct (N.leb_spec (n + 1) (c_max_ops cf)) as [Oc|Oc].
    2:{ apply refused_out; [exact (too_many X doc cf p s Hs L code j Code _ OP_ENDIF _ k m _ _ n En At eq_refl Oc)|]. intros z Z. apply sat_after in Z as (y & _ & ->). lia. }
    pose proof (step_counted X doc cf p s Hs L code j Code (repeat true (S d), repeat false (S d)) (all_true (S d)) OP_ENDIF (length q + S f) k m _ _ n En At eq_refl Oc) as E.
    destruct At as (G & Ll & Em & Ea & Ex & Eo). cbn [repeat] in Ex.
    assert (X1 : m_exec m = true :: repeat true d) by congruence. assert (X2 : m_else m = false :: repeat false d) by congruence.
    assert (Ei : exec_op X doc cf (counter_at s j k) OP_ENDIF (with_ops m (n + 1)) =
      Val tt {| m_stack := m_stack m; m_exec := repeat true d; m_else := repeat false d; m_ops := n + 1 |}).
    { change (exec_op X doc cf (counter_at s j k) OP_ENDIF) with op_endif. unfold op_endif, mbind, get, with_ops. cbn [m_exec m_else]. rewrite X1, X2. reflexivity. }
    rewrite Ei, (sep_next p s Hs L _ _ _ En) in E. change (byte_eqb (i_op (op_instr OP_ENDIF)) OP_CODESEPARATOR) with false in E. cbv iota in E.
    eapply (goes_on_any B e 1); [exact Oc|exact E|]. apply (IH j Code); [exact Sk'| |exact Oc].
    unfold at_level. cbn [m_stack m_exec m_else m_ops]. repeat (split; [assumption|]). split; reflexivity.
  - (* OP_RETURN outside of conditions *)
    destruct (skipn_next p _ _ _ Sk) as [En Sk']. cbn [length Nat.add].
    pose proof (return_step j 0 i (length q + S f) k m _ _ n En Io At) as E. destruct (n + 1 <=? c_max_ops cf) eqn:Oc.
    + unfold op_return, mbind, get in E. rewrite Ge in E. destruct At as (_ & _ & _ & _ & Ex & _). cbn [repeat] in Ex.
      assert (X1 : m_exec m = []) by congruence. cbn [m_exec with_ops] in E. unfold with_ops in E. cbn [m_exec] in E. rewrite X1 in E.
      assert (A : accepts X doc cf s j (S (length q + S f)) k m) by (do 2 eexists; exact E).
      split; [right; split; [exact A|]; exists 1; split; [now left|lia]|]. intros x _ _ _. exact A.
    + apply refused_out; [exact E|]. intros x [Q|(? & ? & ? & Q & _)]; [|discriminate]. assert (x = 1) by congruence. lia.
  - (* OP_RETURN within a condition *)
    destruct (skipn_next p _ _ _ Sk) as [En Sk']. cbn [length Nat.add].
    pose proof (return_step j (S d) i (length q + S f) k m _ _ n En Io At) as E. destruct (n + 1 <=? c_max_ops cf) eqn:Oc.
    + destruct At as (G & Ll & Em & Ea & Ex & Eo).
      assert (X1 : m_exec m = true :: repeat true d) by (cbn [repeat] in Ex; congruence).
      unfold op_return, mbind, get in E. rewrite Ge in E. unfold with_ops in E. cbn [m_exec] in E. rewrite X1 in E. cbn [mret] in E.
      eapply (goes_on_any B e 1); [lia|exact E|]. apply (IH j Code); [exact Sk'| |lia].
      unfold at_level. cbn [m_stack m_exec m_else m_ops]. repeat (split; [assumption|]). split; [congruence|reflexivity].
    + apply refused_out; [exact E|]. intros x Z. apply sat_after in Z as (y & _ & ->). lia.
  - (* OP_RETURN as it was before *)
    destruct (skipn_next p _ _ _ Sk) as [En Sk']. cbn [length Nat.add]. apply refused_out; [|intros z Z; destruct (never _ Z)].
    pose proof (return_step j d i (length q + S f) k m _ _ n En Io At) as E. destruct (n + 1 <=? c_max_ops cf); [|exact E].
    unfold op_return in E. rewrite Ge in E. unfold fails. rewrite E. do 3 eexists. split; reflexivity.
  - (* OP_CODESEPARATOR *)
    destruct (skipn_next p _ _ _ Sk) as [En Sk']. cbn [length Nat.add].
    destruct (N.leb_spec (n + 1) (c_max_ops cf)) as [Oc|Oc].
    2:{ apply refused_out; [exact (too_many X doc cf p s Hs L code j Code _ OP_CODESEPARATOR _ k m _ _ n En At eq_refl Oc)|]. intros z Z. apply sat_after in Z as (y & _ & ->). lia. }
    pose proof (step_counted X doc cf p s Hs L code j Code (repeat true d, repeat false d) (all_true d) OP_CODESEPARATOR (length q + S f) k m _ _ n En At eq_refl Oc) as E.
    assert (Ei : exec_op X doc cf (counter_at s j k) OP_CODESEPARATOR (with_ops m (n + 1)) = Val tt (with_ops m (n + 1))) by reflexivity. rewrite Ei in E.
    rewrite (sep_next p s Hs L _ _ _ En) in E. change (byte_eqb (i_op (op_instr OP_CODESEPARATOR)) OP_CODESEPARATOR) with true in E. cbv iota in E.
    assert (Cd : forall k', script_code (counter_at s (S k) k') = Ret q).
    { intros k'. unfold script_code, counter_at. cbn [pc_sep pc_script]. rewrite skipn_concat, (segments_write _ _ (segments_skip _ _ Hs (S k))), Sk'. exact Dq. }
    eapply goes_on_any; [exact Oc|exact E|]. apply (IH (S k) Cd); [exact Sk'| |exact Oc].
    destruct At as (G & Ll & Em & Ea & Ex & Eo). unfold at_level. unfold with_ops. cbn [m_stack m_exec m_else m_ops]. repeat (split; [assumption|]). reflexivity.
  - (* OP_CODESEPARATOR, when what follows cannot be read *)
    destruct (skipn_next p _ _ _ Sk) as [En Sk']. cbn [length Nat.add]. apply refused_out; [|intros z Z; destruct (never _ Z)].
    destruct (N.leb_spec (n + 1) (c_max_ops cf)) as [Oc|Oc];
      [|exact (too_many X doc cf p s Hs L code j Code _ OP_CODESEPARATOR _ k m _ _ n En At eq_refl Oc)].
    unfold fails. rewrite (step_counted X doc cf p s Hs L code j Code (repeat true d, repeat false d) (all_true d) OP_CODESEPARATOR _ k m _ _ n En At eq_refl Oc).
    assert (Ei : exec_op X doc cf (counter_at s j k) OP_CODESEPARATOR (with_ops m (n + 1)) = Val tt (with_ops m (n + 1))) by reflexivity. rewrite Ei.
    rewrite (sep_next p s Hs L _ _ _ En). change (byte_eqb (i_op (op_instr OP_CODESEPARATOR)) OP_CODESEPARATOR) with true. cbv iota.
    assert (At1 : at_level (repeat true d, repeat false d) cf (with_ops m (n + 1)) s0 a0 (n + 1)).
    { destruct At as (G & Ll & Em & Ea & Ex & Eo). unfold at_level. unfold with_ops. cbn [m_stack m_exec m_else m_ops]. repeat (split; [assumption|]). reflexivity. }
    assert (Cd : forall k' l, script_code (counter_at s (S k) k') <> Ret l).
    { intros k' l. unfold script_code, counter_at. cbn [pc_sep pc_script]. rewrite skipn_concat, (segments_write _ _ (segments_skip _ _ Hs (S k))), Sk'. apply Dq. }
    assert (Lf : (length (q ++ op_instr o :: rest) + S f = length q + S (length rest + S f))%nat) by (rewrite app_length; cbn [length]; lia).
    rewrite Lf.
    destruct (straight X doc cf Tr Sh p s Hs L (repeat true d, repeat false d) (all_true d) B q _ _ _ LB H (S k) (S k) (S (length rest + S f)) _ _ _ Sk' At1 Oc) as [[F|(s' & a' & _ & O2 & m2 & At2 & E2)] _].
    + exact F.
    + rewrite E2. apply (unread_fails (S k) d o _ (S k + length q) m2 s' a' (n + 1 + counted (ops q)) Nd (Cd _) Ho); [|exact At2].
      pose proof (f_equal (fun x => nth_error x (length q)) Sk') as Q. cbv beta in Q. rewrite nth_error_app2, Nat.sub_diag in Q by lia.
      rewrite <- (firstn_skipn (S k) p). assert (Lk : (S k <= length p)%nat).
      { destruct (Nat.le_gt_cases (S k) (length p)) as [Q1|Q1]; [exact Q1|]. rewrite skipn_all2 in Sk' by lia. destruct q; discriminate. }
      rewrite nth_error_app2 by (rewrite firstn_length; lia). rewrite firstn_length, Nat.min_l by lia. replace (S k + length q - S k)%nat with (length q) by lia. exact Q.
Qed.
End Script.
End Run.

Section Spending.
Variable X : externals.
Variable doc : option rdoc.
Variable cf : config.
Variable neg1 : bytes.
Hypothesis St : standard X.
Hypothesis Cm : c_max_memory cf < 2 ^ 63.

Theorem cond_spends B ux lx u l e : B < 2 ^ 31 -> decompile ux = Ret u -> is_push_program u = true -> decompile lx = Ret l ->
  has_flag FLAG_P2SH (c_flags cf) = false \/ is_P2SH lx = false -> 2 * len ux + len lx + len neg1 + 2 < 2 ^ 31 ->
  cond_runs X doc cf B l 0 l (stack_after u) [] e ->
  (spends X doc cf neg1 ux lx -> well_pushed cf (u ++ l) /\ well_formed cf l /\ exists x, satisfied cf e x /\ 1 + x <= c_max_ops cf) /\
  (forall x, satisfied cf e x -> enough cf B (1 + x) -> well_formed cf l -> well_pushed cf (u ++ l) -> spends X doc cf neg1 ux lx).
Proof.
  intros LB Eu Pu El P2 Len H. destruct (standard_short X St) as [Tr Sh].
  assert (Lx : len lx < 2 ^ 32) by (change (2 ^ 31) with 2147483648 in Len; change (2 ^ 32) with 4294967296; lia).
  pose proof (setup_plain cf neg1 _ _ _ _ Eu El P2 Lx (or_intror Pu)) as Es.
  assert (V : Forall (fun i => instr_verify 0 i = E_OK) (u ++ l)) by (apply Forall_app; split; eapply decompile_verified; eassumption).
  pose proof (pre_verify_formed cf u l Pu V) as Pv.
  assert (Dl : forall s, segments l s -> decompile (concat s) = Ret l).
  { intros s Hl. destruct (decompile_segments _ _ El) as (s2 & H2 & E2 & _). rewrite (segments_write _ _ Hl), <- (segments_write _ _ H2), <- E2. exact El. }
  destruct (serror_is_ok (pre_verify (u ++ [op_instr OP_CODESEPARATOR] ++ l) (c_flags cf))) eqn:Eok.
  2:{ split.
      - intros Sp. exfalso. unfold spends, evaluate in Sp. destruct (interpreter_starts cf neg1 ux lx _ _ Es Len) as (s & _ & _ & E).
        rewrite E in Sp. unfold interp_run in Sp. cbn [in_halt in_result result_of_error r_error] in Sp. rewrite Eok in Sp. cbn [negb in_result] in Sp.
        discriminate.
      - intros x _ _ F W. rewrite (proj2 Pv (conj W F)) in Eok. discriminate. }
  apply serror_ok_iff in Eok. destruct (proj1 Pv Eok) as [Wp Wf].
  assert (Ru : room (stack_after u) [] <= B) by (inversion H; assumption).
  destruct (separated_general X doc cf neg1 St Cm (satisfied cf e) B ux lx _ _ u l LB Es Eok eq_refl Pu Dl Len Ru) as [A1 A2].
  { intros s f m Hs Ls Code At O1. refine (cond_verdict X doc cf Tr Sh _ s Hs Ls B l 0 l _ _ e LB H _ Code _ f m 1 _ At O1).
    rewrite skipn_app, skipn_all2 by lia. replace (S (length u) - length u)%nat with 1%nat by lia. reflexivity. }
  split.
  - intros Sp. split; [exact Wp|]. split; [exact Wf|exact (A1 Sp)].
  - intros x Sx [Am Oc] _ _. exact (A2 x Sx Am Oc).
Qed.

(* the branch pushes a value, and the script ends at OP_ELSE *)
Theorem first_branch k rest lx : let l := op_instr OP_IF :: push k :: op_instr OP_ELSE :: rest in
  nonzeroZ (sn_val k) = true -> decompile lx = Ret l -> has_flag FLAG_P2SH (c_flags cf) = false \/ is_P2SH lx = false ->
  len k + len lx + len neg1 + 100 < 2 ^ 31 -> enough cf (len k + 66) (2 + counted (OP_ELSE :: ops rest)) ->
  well_pushed cf l -> well_formed cf l -> spends X doc cf neg1 [OP_1] lx.
Proof.
  intros l Nk El P2 Len En Wp Wf.
  assert (Lk : len k < 2 ^ 31) by lia.
  destruct (push_is_push k Lk) as [Pk _]. destruct (push_op_direct _ Pk) as (D1 & D2 & D3 & D4 & _).
  assert (Ck : counted [i_op (push k)] = 0) by (rewrite counted_cons, D4; reflexivity).
  assert (Ek : instr_effect X cf (push k) [] [] = Some ([k], [])).
  { rewrite (push_effect X cf _ [] [] Pk), (pushed_push _ Lk). reflexivity. }
  assert (F0 : footprint [] = 0) by reflexivity. pose proof (footprint_cons k []) as F1. pose proof (footprint_cons [x01] []) as F2. rewrite F0 in F1, F2.
  change (len [x01]) with 1 in F2.
  assert (H : cond_runs X doc cf (len k + 66) l 0 l (stack_after [op_instr OP_1]) [] (after 1 (after (counted [i_op (push k)]) (Goes [k] [] (counted (OP_ELSE :: ops rest)))))).
  { change (stack_after [op_instr OP_1]) with [[x01]]. apply cond_meets; [unfold room; lia| |].
    - split; [left; reflexivity|]. split; [right; right; reflexivity|reflexivity].
    - eapply cond_on; [unfold room; lia|apply step_table; [split; [exact D1|split; [exact D2|]]|exact Ek]|apply cond_else; unfold room; lia].
      intros Q. congruence. }
  assert (Len2 : 2 * len [OP_1] + len lx + len neg1 + 2 < 2 ^ 31) by (change (len [OP_1]) with 1; lia).
  destruct (cond_spends (len k + 66) [OP_1] lx [op_instr OP_1] l _ ltac:(lia) eq_refl eq_refl El P2 Len2 H) as [_ A].
  eapply A; [| |exact Wf|].
  - apply sat_after. eexists. split; [|reflexivity]. apply sat_after. eexists. split; [|reflexivity]. apply sat_goes. split; [reflexivity|].
    exists k, []. split; [reflexivity|]. split; [exact Nk|]. intros _. reflexivity.
  - rewrite Ck. replace (1 + (1 + (0 + counted (OP_ELSE :: ops rest)))) with (2 + counted (OP_ELSE :: ops rest)) by lia. exact En.
  - apply (well_pushed_app cf [op_instr OP_1]). split; [|exact Wp]. intros _. repeat constructor.
Qed.

(* OP_RETURN comes first *)
Theorem return_first i rest ux lx u : let l := i :: rest in i_op i = OP_RETURN -> genesis cf = true ->
  decompile ux = Ret u -> is_push_program u = true -> decompile lx = Ret l -> has_flag FLAG_P2SH (c_flags cf) = false \/ is_P2SH lx = false ->
  2 * len ux + len lx + len neg1 + 2 < 2 ^ 31 -> room (stack_after u) [] < 2 ^ 31 ->
  (spends X doc cf neg1 ux lx -> well_pushed cf (u ++ l) /\ well_formed cf l /\ 2 <= c_max_ops cf) /\
  (enough cf (room (stack_after u) []) 2 -> well_formed cf l -> well_pushed cf (u ++ l) -> spends X doc cf neg1 ux lx).
Proof.
  intros l Io Ge Eu Pu El P2 Len Rb.
  assert (H : cond_runs X doc cf (room (stack_after u) []) l 0 l (stack_after u) [] (Satisfied 1)) by (apply cond_return; [lia|exact Ge|exact Io]).
  destruct (cond_spends _ ux lx u l _ Rb Eu Pu El P2 Len H) as [A1 A2]. split.
  - intros Sp. destruct (A1 Sp) as (Wp & Wf & x & [Q|(? & ? & ? & Q & _)] & O); [|discriminate]. assert (x = 1) by congruence. split; [exact Wp|]. split; [exact Wf|lia].
  - intros En Wf Wp. apply (A2 1); [now left|exact En|exact Wf|exact Wp].
Qed.

(* after a separator in a branch, what follows does not close what it has not opened *)
Lemma unread_branch lx o q : o = OP_IF \/ o = OP_NOTIF -> decompile lx = Ret (op_instr o :: op_instr OP_CODESEPARATOR :: q) ->
  balanced (o :: OP_CODESEPARATOR :: ops q) -> forall l, decompile (program_write q) <> Ret l.
Proof.
  intros Ho El Bal l Q. destruct (decompile_segments _ _ El) as (s & Hs & _ & _).
  assert (Hq : segments q (skipn 2 s)) by exact (segments_skip _ _ Hs 2).
  assert (Ew : program_write q = concat (skipn 2 s)) by (symmetry; exact (segments_write _ _ Hq)). rewrite Ew in Q.
  destruct (proj2 (decompile_of_segments _ _ Hq)) as [D|[(D & _)|(D & _)]]; [|rewrite D in Q; discriminate Q..].
  unfold decompile in D. apply decompile_loop_segments in D as (s' & _ & _ & _ & c' & C).
  assert (N : ctl control_decompile (OP_CODESEPARATOR :: ops q) [] = None).
  { inversion Bal as [|o' p' No _ Eo|o' a p' _ Ba _ Eo|o' a b p' _ Ba Bb _ Eo]; subst.
    - exfalso. apply No. unfold control_op. tauto.
    - rewrite (balanced_decompile _ Ba). reflexivity.
    - rewrite (balanced_decompile _ Ba). cbn [ctl]. change (control_decompile OP_ELSE []) with (Some [OP_ELSE]). cbv iota.
      rewrite (balanced_decompile _ Bb). reflexivity. }
  cbn [ctl] in N. change (control_decompile OP_CODESEPARATOR []) with (Some (@nil byte)) in N. cbv iota in N. rewrite C in N. discriminate.
Qed.
Lemma spends_formed ux lx u l : decompile ux = Ret u -> is_push_program u = true -> decompile lx = Ret l ->
  has_flag FLAG_P2SH (c_flags cf) = false \/ is_P2SH lx = false -> 2 * len ux + len lx + len neg1 + 2 < 2 ^ 31 ->
  spends X doc cf neg1 ux lx -> well_formed cf l.
Proof.
  intros Eu Pu El P2 Len Sp.
  assert (Lx : len lx < 2 ^ 32) by (change (2 ^ 31) with 2147483648 in Len; change (2 ^ 32) with 4294967296; lia).
  pose proof (setup_plain cf neg1 _ _ _ _ Eu El P2 Lx (or_intror Pu)) as Es.
  assert (V : Forall (fun i => instr_verify 0 i = E_OK) (u ++ l)) by (apply Forall_app; split; eapply decompile_verified; eassumption).
  pose proof (pre_verify_formed cf u l Pu V) as Pv.
  destruct (serror_is_ok (pre_verify (u ++ [op_instr OP_CODESEPARATOR] ++ l) (c_flags cf))) eqn:Eok.
  - apply serror_ok_iff in Eok. exact (proj2 (proj1 Pv Eok)).
  - exfalso. unfold spends, evaluate in Sp. destruct (interpreter_starts cf neg1 ux lx _ _ Es Len) as (s & _ & _ & E).
    rewrite E in Sp. unfold interp_run in Sp. cbn [in_halt in_result result_of_error r_error] in Sp. rewrite Eok in Sp. cbn [negb in_result] in Sp. discriminate.
Qed.
Theorem frozen_branch B ux lx u o q c rest v st R : let l := op_instr o :: op_instr OP_CODESEPARATOR :: q ++ op_instr c :: rest in
  doc <> None -> B < 2 ^ 31 -> decompile ux = Ret u -> is_push_program u = true -> decompile lx = Ret l ->
  has_flag FLAG_P2SH (c_flags cf) = false \/ is_P2SH lx = false -> 2 * len ux + len lx + len neg1 + 2 < 2 ^ 31 ->
  stack_after u = v :: st -> meets cf o v -> room (v :: st) [] <= B -> runs X cf B q st [] R -> checking c ->
  ~ spends X doc cf neg1 ux lx.
Proof.
  intros l Nd LB Eu Pu El P2 Len Es M Rm H Hc Sp.
  assert (Bal : balanced (ops l)) by (exact (proj1 (spends_formed ux lx u l Eu Pu El P2 Len Sp))).
  assert (Rs : room st [] <= B) by (unfold room in *; rewrite footprint_cons in Rm; lia).
  assert (C : cond_runs X doc cf B l 0 l (stack_after u) [] Refused).
    { rewrite Es. change Refused with (after 1 Refused). apply cond_meets; [exact Rm|exact M|].
      apply (cond_unread X doc cf B l 1 q c rest st [] R Rs Nd); [|exact H|exact Hc].
      apply (unread_branch lx o); [apply M|exact El|exact Bal]. }
  destruct (cond_spends B ux lx u l _ LB Eu Pu El P2 Len C) as [A _]. destruct (A Sp) as (_ & _ & x & Sx & _). exact (never cf x Sx).
Qed.
End Spending.
