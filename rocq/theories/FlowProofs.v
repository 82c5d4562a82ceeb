From Verif Require Import Base BaseProofs WireModel WireProofs ScriptModel ScriptSpec ScriptProofs ProgramProofs NumModel NumSpec NumProofs.
From Verif Require Import StackModel StackSpec StackProofs MachineModel MachineSpec MachineProofs OpcodeProofs RunProofs ControlProofs.
From Coq Require Import ZifyBool ZifyNat ZifyN.
Ltac Zify.zify_post_hook ::= Z.div_mod_to_equations.
Local Open Scope N_scope.

Lemma running_neg m : existsb negb (m_exec m) = negb (running m).
Proof. unfold running. induction (m_exec m) as [|b l IH]; [reflexivity|]. cbn. rewrite IH. destruct b; reflexivity. Qed.

Lemma counted_cons o l : counted (o :: l) = (if b2n OP_16 <? b2n o then 1 else 0) + counted l.
Proof. unfold counted. cbn [filter]. destruct (b2n OP_16 <? b2n o); cbn [length]; lia. Qed.

Lemma end_exact cf m : end_of_script cf m = Stop (verdict cf (s_main (m_stack m))) m.
Proof.
  unfold end_of_script, verdict, mbind, get_size, guard, fail, mret, mstop, top_at, lift, top, size.
  destruct m as [[main alt lim mem] ex el n]. cbn [m_stack s_main s_alt s_lim s_mem].
  destruct (has_flag FLAG_CLEANSTACK (c_flags cf)) eqn:F; cbn [negb andb orb].
  - destruct (N.of_nat (length main) =? 1) eqn:E; cbn [negb]; [|reflexivity].
    destruct main as [|x r]; [discriminate|]. replace (N.of_nat (length (x :: r)) =? 0) with false by (cbn [length]; lia).
    unfold nonzeroZ. rewrite <- nonzero_iff. reflexivity.
  - destruct main as [|x r]; [reflexivity|]. replace (N.of_nat (length (x :: r)) =? 0) with false by (cbn [length]; lia).
    unfold nonzeroZ. rewrite <- nonzero_iff. reflexivity.
Qed.

Definition with_ops (m : mstate) (n : N) : mstate := {| m_stack := m_stack m; m_exec := m_exec m; m_else := m_else m; m_ops := n |}.

Lemma count_exact cf o m : count_op cf o m =
  if b2n OP_16 <? b2n o then
    if m_ops m + 1 <=? c_max_ops cf then Val tt (with_ops m (m_ops m + 1)) else Stop (result_of_error E_OP_COUNT) (with_ops m (m_ops m + 1))
  else Val tt m.
Proof. unfold count_op. destruct (b2n OP_16 <? b2n o); [|reflexivity]. unfold mbind, get, set_ops, guard. destruct (_ <=? _); reflexivity. Qed.

Section Flow.
Variable X : externals.
Variable doc : option rdoc.
Variable cf : config.

Lemma step_cons c m o t : pc_next c = o :: t -> step X doc cf c m =
  match count_op cf o m with
  | Val _ m' => if running m then
                  (if b2n o <=? b2n OP_PUSHDATA4 then push_stack (get_push_data (o :: t)) m' else exec_op X doc cf c o m')
                else Val tt m'
  | r => r
  end.
Proof.
  intros E. unfold step. rewrite E. unfold mbind at 1. rewrite count_exact.
  assert (R : forall m', m_exec m' = m_exec m -> (existsb negb (m_exec m')) = negb (running m)) by (intros m' Q; rewrite Q; apply running_neg).
  destruct (b2n OP_16 <? b2n o); [destruct (m_ops m + 1 <=? c_max_ops cf); [|reflexivity]|];
  unfold mbind, get; rewrite R by reflexivity; destruct (running m); try reflexivity; cbn [negb];
  destruct (b2n o <=? b2n OP_PUSHDATA4); reflexivity.
Qed.

Section Script.
Variable p : program.
Variable s : list bytes.
Hypothesis Hs : segments p s.
Hypothesis L : len (concat s) < 2 ^ 31.

Lemma next_op k i : nth_error p k = Some i -> exists t, nth k s [] = i_op i :: t /\ is_inst i (i_op i :: t) /\
  (k < length s)%nat /\ skipn k (ops p) = i_op i :: skipn (S k) (ops p).
Proof.
  intros H. assert (K : (k < length p)%nat) by (apply nth_error_Some; congruence).
  pose proof (segments_length _ _ Hs) as Ls. destruct (segments_inst p s k Hs ltac:(lia)) as (i' & E & I).
  rewrite H in E. inversion E; subst i'. destruct (inst_cons _ _ I) as (t & Et). exists t. rewrite <- Et. repeat split; auto; [lia|].
  clear - H. unfold ops. revert k H. induction p as [|x q IH]; intros [|k] H; try discriminate.
  - cbn in *. congruence.
  - cbn [map skipn]. cbn [nth_error] in H. rewrite (IH _ H). reflexivity.
Qed.

Lemma run_S fuel j k m : machine_run X doc cf (S fuel) (counter_at s j k) m =
  match step X doc cf (counter_at s j k) m with
  | Val _ m' => machine_run X doc cf fuel (counter_at s (next_sep s j k) (S k)) m'
  | Stop r m' => Ret (r, m', counter_at s j k)
  | Exc e m' => Ret (result_of_error (error_of e), m', counter_at s j k)
  | UB => Undef
  end.
Proof.
  cbn [machine_run]. destruct (step X doc cf (counter_at s j k) m); try reflexivity.
  rewrite (step_at p s j k Hs L). reflexivity.
Qed.

Lemma ref_S fuel j k m : ref_run X doc cf (S fuel) (counter_at s j k) m =
  match ref_step X doc cf (counter_at s j k) m with
  | Val _ m' => ref_run X doc cf fuel (counter_at s (next_sep s j k) (S k)) m'
  | Stop r m' => Ret (r, m', counter_at s j k)
  | Exc e m' => Ret (result_of_error (error_of e), m', counter_at s j k)
  | UB => Undef
  end.
Proof.
  cbn [ref_run]. destruct (ref_step X doc cf (counter_at s j k) m); try reflexivity.
  rewrite (step_at p s j k Hs L). reflexivity.
Qed.

Theorem skip_run : forall n fuel j k m, (k <= length p)%nat -> (length p - k <= n)%nat -> (n < fuel)%nat ->
  running m = false -> m_ops m <= c_max_ops cf ->
  exists m' c', machine_run X doc cf fuel (counter_at s j k) m =
    Ret (skipped cf (m_ops m) (skipn k (ops p)) (s_main (m_stack m)), m', c') /\ m_stack m' = m_stack m.
Proof.
  pose proof (segments_length _ _ Hs) as Ls.
  induction n as [|n IH]; intros fuel j k m Hk Hn Hf R O; (destruct fuel as [|fuel]; [lia|]); rewrite run_S.
  - assert (k = length p) by lia. subst k. unfold step. cbn [counter_at pc_next]. rewrite nth_overflow by lia.
    rewrite end_exact. eexists _, _. split; [|reflexivity]. f_equal. f_equal. f_equal. unfold skipped.
    rewrite skipn_all2 by (unfold ops; rewrite map_length; lia). change (counted []) with 0.
    replace (m_ops m + 0 <=? c_max_ops cf) with true by lia. reflexivity.
  - destruct (nth_error p k) as [i|] eqn:E.
    + destruct (next_op k i E) as (t & En & _ & Kl & Es). rewrite (step_cons _ _ (i_op i) t) by exact En.
      rewrite Es, R, count_exact. unfold skipped. rewrite counted_cons.
      destruct (b2n OP_16 <? b2n (i_op i)).
      * destruct (m_ops m + 1 <=? c_max_ops cf) eqn:Om.
        -- destruct (IH fuel (next_sep s j k) (S k) (with_ops m (m_ops m + 1))) as (m' & c' & E1 & E2); try lia; try assumption.
           { cbn. lia. }
           exists m', c'. rewrite E1. split; [|exact E2]. unfold skipped. cbn [m_ops with_ops m_stack].
           rewrite N.add_assoc. reflexivity.
        -- exists (with_ops m (m_ops m + 1)), (counter_at s j k). split; [|reflexivity]. replace (m_ops m + (1 + counted (skipn (S k) (ops p))) <=? c_max_ops cf) with false by lia. reflexivity.
      * destruct (IH fuel (next_sep s j k) (S k) m) as (m' & c' & E1 & E2); try lia; try assumption.
        exists m', c'. rewrite E1. split; [|exact E2]. reflexivity.
    + apply nth_error_None in E. assert (k = length p) by lia. subst k. unfold step. cbn [counter_at pc_next]. rewrite nth_overflow by lia.
      rewrite end_exact. eexists _, _. split; [|reflexivity]. f_equal. f_equal. f_equal. unfold skipped.
      rewrite skipn_all2 by (unfold ops; rewrite map_length; lia). change (counted []) with 0.
      replace (m_ops m + 0 <=? c_max_ops cf) with true by lia. reflexivity.
Qed.

(* ---- a condition that fails ---- *)

Lemma if_exact neg m v r : good (m_stack m) -> s_main (m_stack m) = v :: r ->
  has_flag FLAG_MINIMALIF (c_flags cf) = false \/ v = [] \/ v = [x01] ->
  exists st, op_if cf neg m = Val tt {| m_stack := st; m_exec := xorb neg (nonzeroZ (sn_val v)) :: m_exec m;
                                        m_else := false :: m_else m; m_ops := m_ops m |} /\
    becomes (m_stack m) st r (s_alt (m_stack m)).
Proof.
  intros G E Mi. destruct (pop_back_spec _ _ _ G E) as (st & Ep & B). exists st. split; [|exact B].
  unfold op_if. unfold mbind at 1. unfold need, get_size, mbind, guard, size. rewrite E. cbn [length].
  replace (1 <=? N.of_nat (S (length r))) with true by lia. cbn [mret].
  unfold top_at, lift, top. change (0 <=? -1)%Z with false. change (Z.to_nat (- -1 - 1)) with 0%nat. rewrite E. cbn [nth_error mret].
  replace (negb (has_flag FLAG_MINIMALIF (c_flags cf)) || negb ((1 <? len v) || (len v =? 1) && negb (byte_eqb (nth 0 v x00) x01))) with true.
  2:{ destruct Mi as [->|[-> | ->]]; [reflexivity|symmetry; apply orb_true_r..]. }
  cbn [mret]. unfold pop, lift. cbn [m_stack]. rewrite Ep. unfold get, set_control. cbn. rewrite nonzero_iff. reflexivity.
Qed.

Theorem if_not_taken (neg : bool) fuel j k m v r : 
  nth_error (ops p) k = Some (if neg then OP_NOTIF else OP_IF) -> (length p - k < fuel)%nat ->
  good (m_stack m) -> running m = true -> m_ops m <= c_max_ops cf -> s_main (m_stack m) = v :: r ->
  has_flag FLAG_MINIMALIF (c_flags cf) = false \/ v = [] \/ v = [x01] -> nonzeroZ (sn_val v) = neg ->
  exists m' c', machine_run X doc cf fuel (counter_at s j k) m = Ret (skipped cf (m_ops m) (skipn k (ops p)) r, m', c').
Proof.
  intros Eo Hf G R O E Mi V. unfold ops in Eo. rewrite nth_error_map in Eo. destruct (nth_error p k) as [i|] eqn:Ei; [|discriminate].
  cbn in Eo. inversion Eo as [Io]. destruct (next_op k i Ei) as (t & En & _ & Kl & Es).
  assert (K : (k < length p)%nat) by (apply nth_error_Some; congruence).
  destruct fuel as [|fuel]; [lia|]. rewrite run_S, (step_cons _ _ (i_op i) t) by exact En. rewrite R, count_exact, Es, Io.
  unfold skipped. rewrite counted_cons.
  assert (C1 : (b2n OP_16 <? b2n (if neg then OP_NOTIF else OP_IF)) = true) by (destruct neg; reflexivity). rewrite C1.
  destruct (m_ops m + 1 <=? c_max_ops cf) eqn:Om.
  - assert (C2 : (b2n (if neg then OP_NOTIF else OP_IF) <=? b2n OP_PUSHDATA4) = false) by (destruct neg; reflexivity). rewrite C2.
    assert (C3 : exec_op X doc cf (counter_at s j k) (if neg then OP_NOTIF else OP_IF) = op_if cf neg) by (destruct neg; reflexivity). rewrite C3.
    destruct (if_exact neg (with_ops m (m_ops m + 1)) v r G E Mi) as (st & -> & B). 
    destruct (skip_run (length p - S k) fuel (next_sep s j k) (S k)
      {| m_stack := st; m_exec := xorb neg (nonzeroZ (sn_val v)) :: m_exec (with_ops m (m_ops m + 1));
         m_else := false :: m_else (with_ops m (m_ops m + 1)); m_ops := m_ops (with_ops m (m_ops m + 1)) |}) as (m' & c' & E1 & _);
      [lia|lia|lia|unfold running; cbn; rewrite V; destruct neg; reflexivity|cbn; lia|].
    exists m', c'. rewrite E1. unfold skipped. cbn [m_ops m_stack with_ops]. destruct B as (_ & B & _). rewrite B, N.add_assoc. reflexivity.
  - eexists _, _. replace (m_ops m + (1 + counted (skipn (S k) (ops p))) <=? c_max_ops cf) with false by lia. reflexivity.
Qed.

(* ---- the end of a branch that was taken ---- *)
Theorem else_after_taken fuel j k m x ex y el :
  nth_error (ops p) k = Some OP_ELSE -> (length p - k < fuel)%nat ->
  running m = true -> m_ops m <= c_max_ops cf -> m_exec m = x :: ex -> m_else m = y :: el -> y && genesis cf = false ->
  exists m' c', machine_run X doc cf fuel (counter_at s j k) m =
    Ret (skipped cf (m_ops m) (skipn k (ops p)) (s_main (m_stack m)), m', c').
Proof.
  intros Eo Hf R O Ex El Y. unfold ops in Eo. rewrite nth_error_map in Eo. destruct (nth_error p k) as [i|] eqn:Ei; [|discriminate].
  cbn in Eo. inversion Eo as [Io]. destruct (next_op k i Ei) as (t & En & _ & Kl & Es).
  assert (K : (k < length p)%nat) by (apply nth_error_Some; congruence).
  destruct fuel as [|fuel]; [lia|]. rewrite run_S, (step_cons _ _ (i_op i) t) by exact En. rewrite R, count_exact, Es, Io.
  unfold skipped. rewrite counted_cons. change (b2n OP_16 <? b2n OP_ELSE) with true. cbv iota.
  destruct (m_ops m + 1 <=? c_max_ops cf) eqn:Om.
  - change (b2n OP_ELSE <=? b2n OP_PUSHDATA4) with false. cbv iota. cbn [exec_op]. unfold op_else, mbind, get. cbn [m_exec m_else with_ops].
    rewrite Ex, El, Y. unfold set_control. cbn [m_stack m_ops with_ops].
    assert (Hx : x = true) by (unfold running in R; rewrite Ex in R; cbn in R; destruct x; [reflexivity|discriminate]). subst x.
    destruct (skip_run (length p - S k) fuel (next_sep s j k) (S k)
      {| m_stack := m_stack m; m_exec := negb true :: ex; m_else := true :: el; m_ops := m_ops m + 1 |}) as (m' & c' & E1 & _);
      [lia|lia|lia|reflexivity|cbn; lia|].
    exists m', c'. rewrite E1. unfold skipped. cbn [m_ops m_stack]. rewrite N.add_assoc. reflexivity.
  - eexists _, _. replace (m_ops m + (1 + counted (skipn (S k) (ops p))) <=? c_max_ops cf) with false by lia. reflexivity.
Qed.
End Script.

(* ---- agreement with the reference while every branch is taken ---- *)
Lemma ref_step_same c m : running m = true -> step X doc cf c m = ref_step X doc cf c m.
Proof.
  intros R. destruct (pc_next c) as [|o t] eqn:E.
  - unfold step, ref_step. rewrite E. reflexivity.
  - rewrite (step_cons c m o t E), R. unfold ref_step. rewrite E. unfold mbind at 1. rewrite count_exact.
    assert (Q : forall n, running (with_ops m n) = running m) by reflexivity.
    destruct (b2n OP_16 <? b2n o); [destruct (m_ops m + 1 <=? c_max_ops cf); [|reflexivity]|];
    unfold mbind, get; rewrite ?Q, R; destruct (b2n o <=? b2n OP_PUSHDATA4); reflexivity.
Qed.

Theorem ref_agrees : forall fuel c m, all_taken X doc cf fuel c m -> machine_run X doc cf fuel c m = ref_run X doc cf fuel c m.
Proof.
  induction fuel as [|fuel IH]; intros c m A; [reflexivity|]. cbn [all_taken] in A. destruct A as [R A].
  cbn [machine_run ref_run]. rewrite (ref_step_same c m R). destruct (ref_step X doc cf c m) as [[] m'| | |]; try reflexivity.
  destruct (pc_step c); try reflexivity. apply IH. exact A.
Qed.

(* ---- signature checks ---- *)

Lemma top1 m x r : s_main (m_stack m) = x :: r -> top_at (-1) m = Val x m.
Proof. intros E. unfold top_at, lift, top. change (0 <=? -1)%Z with false. change (Z.to_nat (- -1 - 1)) with 0%nat. rewrite E. cbn. destruct m; reflexivity. Qed.
Lemma top2 m x y r : s_main (m_stack m) = x :: y :: r -> top_at (-2) m = Val y m.
Proof. intros E. unfold top_at, lift, top. change (0 <=? -2)%Z with false. change (Z.to_nat (- -2 - 1)) with 1%nat. rewrite E. cbn. destruct m; reflexivity. Qed.
Lemma need_exact k e m : need k e m = if k <=? size (m_stack m) then Val tt m else Stop (result_of_error e) m.
Proof. unfold need, get_size, mbind, guard. destruct (_ <=? _); reflexivity. Qed.

Definition ends {A} (p : M A) : Prop := forall m, match p m with Val _ _ => False | _ => True end.
Lemma ends_bind {A B} (p : M A) (f : A -> M B) : (forall x, ends (f x)) -> ends (x <- p ;; f x).
Proof. intros H m. unfold mbind. destruct (p m) as [x m'| | |]; try exact I. apply H. Qed.
Ltac ends_tac := repeat (cbv zeta; apply ends_bind; intros).

Lemma checksigverify_ends c : ends (op_checksig doc c true).
Proof. unfold op_checksig. ends_tac. destruct (r_success _); [ends_tac|]; intros m; exact I. Qed.
Lemma checkmultisigverify_ends c : ends (op_checkmultisig doc cf c true).
Proof. unfold op_checkmultisig. ends_tac. match goal with |- ends (if ?b then _ else _) => destruct b end; [ends_tac|]; intros m; exact I. Qed.

Theorem verify_ends c o m : o = OP_CHECKSIGVERIFY \/ o = OP_CHECKMULTISIGVERIFY ->
  match exec_op X doc cf c o m with Val _ _ => False | _ => True end.
Proof. intros [-> | ->]; cbn [exec_op]; [apply checksigverify_ends|apply checkmultisigverify_ends]. Qed.

Lemma one_bool_fits m x y r : good (m_stack m) -> roomy (s_lim (m_stack m)) -> s_main (m_stack m) = x :: y :: r ->
  forall b, len b <= 1 -> fits (s_lim (m_stack m)) (b :: r) (s_alt (m_stack m)).
Proof.
  intros G R E b Lb. apply (fits_swap_in m x y); auto. rewrite <- E. apply at_refl. exact G.
Qed.

Lemma swap_for_bool m x y r b : good (m_stack m) -> roomy (s_lim (m_stack m)) -> s_main (m_stack m) = x :: y :: r ->
  exists m', (pop ;;; pop ;;; push_stack (sn_bool b)) m = Val tt m' /\
    becomes (m_stack m) (m_stack m') (sn_bool b :: r) (s_alt (m_stack m)) /\
    m_exec m' = m_exec m /\ m_else m' = m_else m /\ m_ops m' = m_ops m.
Proof.
  intros G R E. destruct (pop_back_spec _ _ _ G E) as (s1 & E1 & L1 & M1 & A1 & G1).
  destruct (pop_back_spec _ _ _ G1 M1) as (s2 & E2 & L2 & M2 & A2 & G2).
  pose proof (push_back_spec s2 (sn_bool b) G2 (bool62 b)) as P.
  destruct (push_back (sn_bool b) s2) as [[] s3| | |] eqn:E3; try contradiction.
  - unfold pop, push_stack, mbind, lift. rewrite E1. cbn [m_stack]. rewrite E2. cbn [m_stack]. rewrite E3. eexists. split; [reflexivity|].
    destruct P as (L3 & M3 & A3 & G3). cbn [m_stack m_exec m_else m_ops]. repeat split; try congruence; apply G3.
  - exfalso. destruct P as [_ P]. apply P. rewrite L2, L1, M2, A2, A1. eapply one_bool_fits; eauto. apply bool_len.
Qed.

Definition sig_result (c : counter) (sig pub : bytes) : result + unit :=
  match doc with
  | None => inl (result_of_bool true)
  | Some d => match script_code c with Ret p => inl (d_verify d (cleanup_script_code p sig) sig pub) | _ => inr tt end
  end.

Theorem checksig_exact c v m pub sig r : good (m_stack m) -> roomy (s_lim (m_stack m)) -> s_main (m_stack m) = pub :: sig :: r ->
  match sig_result c sig pub with
  | inr _ => op_checksig doc c v m = Exc X_other m
  | inl res =>
      if negb (serror_is_ok (r_error res)) then op_checksig doc c v m = Stop (result_of_error (r_error res)) m
      else if v then exists m', op_checksig doc c v m =
          Stop (if r_success res then result_of_bool true else result_of_error E_CHECKSIGVERIFY) m'
      else exists m', op_checksig doc c v m = Val tt m' /\
          becomes (m_stack m) (m_stack m') (sn_bool (r_success res) :: r) (s_alt (m_stack m)) /\
          m_exec m' = m_exec m /\ m_else m' = m_else m /\ m_ops m' = m_ops m
  end.
Proof.
  intros G R E.
  assert (U : forall k, op_checksig doc c v m =
     ((rs <- match doc with
       | None => mret (result_of_bool true)
       | Some d => code <- code_of c ;; mret (d_verify d (cleanup_script_code code sig) sig pub)
       end ;; k rs) m) -> op_checksig doc c v m = ((rs <- match doc with
       | None => mret (result_of_bool true)
       | Some d => code <- code_of c ;; mret (d_verify d (cleanup_script_code code sig) sig pub)
       end ;; k rs) m)) by auto.
  specialize (U (fun r => guard (serror_is_ok (r_error r)) (r_error r) ;;;
    pop ;;; pop ;;; push_stack (sn_bool (r_success r)) ;;;
    if v then if r_success r then pop ;;; mstop (result_of_bool true) else fail E_CHECKSIGVERIFY else mret tt)).
  rewrite U; clear U.
  2:{ unfold op_checksig. unfold mbind at 1. unfold need_stack. rewrite need_exact. unfold size. rewrite E.
      replace (2 <=? N.of_nat (length (pub :: sig :: r))) with true by (cbn [length]; lia).
      unfold mbind at 1. rewrite (top2 m pub sig r E). unfold mbind at 1. rewrite (top1 m pub (sig :: r) E). reflexivity. }
  assert (K : forall res, (let o := (guard (serror_is_ok (r_error res)) (r_error res) ;;;
    pop ;;; pop ;;; push_stack (sn_bool (r_success res)) ;;;
    if v then if r_success res then pop ;;; mstop (result_of_bool true) else fail E_CHECKSIGVERIFY else mret tt) m in
    if negb (serror_is_ok (r_error res)) then o = Stop (result_of_error (r_error res)) m
      else if v then exists m', o = Stop (if r_success res then result_of_bool true else result_of_error E_CHECKSIGVERIFY) m'
      else exists m', o = Val tt m' /\
          becomes (m_stack m) (m_stack m') (sn_bool (r_success res) :: r) (s_alt (m_stack m)) /\
          m_exec m' = m_exec m /\ m_else m' = m_else m /\ m_ops m' = m_ops m)).
  { intros res. cbv zeta. unfold guard. destruct (serror_is_ok (r_error res)) eqn:Eo; [|reflexivity]. cbn [negb].
    destruct (swap_for_bool m pub sig r (r_success res) G R E) as (m' & E1 & B & C).
    assert (E2 : forall (k : M unit), (mret tt ;;; pop ;;; pop ;;; push_stack (sn_bool (r_success res)) ;;; k) m = k m').
    { intros k. revert E1. unfold mbind, mret. destruct (pop m) as [[] m1| | |]; try discriminate. destruct (pop m1) as [[] m2| | |]; try discriminate.
      intros Q. rewrite Q. reflexivity. }
    destruct v; rewrite E2.
    - destruct (r_success res); [|eexists; reflexivity]. unfold mbind. destruct B as (_ & M' & _ & G').
      destruct (pop_back_spec _ _ _ G' M') as (s4 & E4 & _). unfold pop, lift. rewrite E4. eexists. reflexivity.
    - exists m'. split; [reflexivity|]. auto. }
  unfold sig_result. destruct doc as [d|]; [|unfold mbind at 1; cbn [mret]; apply K].
  unfold mbind at 1. unfold mbind at 1. unfold code_of.
  destruct (script_code c) as [p|e|] eqn:Ec; [cbn [mret]; apply K|reflexivity|].
  exfalso. unfold script_code in Ec. now apply decompile_total in Ec.
Qed.

(* a successful CHECKSIGVERIFY ends the script with success, whatever follows *)
Theorem checksigverify_succeeds p s : segments p s -> len (concat s) < 2 ^ 31 -> forall fuel j k m pub sig r,
  nth_error (ops p) k = Some OP_CHECKSIGVERIFY -> running m = true -> m_ops m < c_max_ops cf ->
  good (m_stack m) -> roomy (s_lim (m_stack m)) -> s_main (m_stack m) = pub :: sig :: r ->
  accepts doc (counter_at s j k) sig pub ->
  exists m' c', machine_run X doc cf (S fuel) (counter_at s j k) m = Ret (result_of_bool true, m', c').
Proof.
  intros Hs L fuel j k m pub sig r Eo R O G Rm E A. unfold ops in Eo. rewrite nth_error_map in Eo.
  destruct (nth_error p k) as [i|] eqn:Ei; [|discriminate]. cbn in Eo. inversion Eo as [Io].
  destruct (next_op p s Hs L k i Ei) as (t & En & _). rewrite (run_S p s Hs L), (step_cons _ _ (i_op i) t) by exact En.
  rewrite R, count_exact, Io. change (b2n OP_16 <? b2n OP_CHECKSIGVERIFY) with true. cbv iota.
  replace (m_ops m + 1 <=? c_max_ops cf) with true by lia. change (b2n OP_CHECKSIGVERIFY <=? b2n OP_PUSHDATA4) with false. cbv iota.
  cbn [exec_op]. pose proof (checksig_exact (counter_at s j k) true (with_ops m (m_ops m + 1)) pub sig r G Rm E) as H.
  assert (S : sig_result (counter_at s j k) sig pub = inl (result_of_bool true)).
  { unfold sig_result. unfold accepts in A. destruct doc as [d|]; [|reflexivity]. destruct A as (q & -> & ->). reflexivity. }
  rewrite S in H. cbn in H. destruct H as (m' & ->). eauto.
Qed.

(* ---- multisignature ---- *)

Lemma multisig_strict d q : strict d -> forall fuel isig ikey ns nk m ok m',
  multisig_loop (Some (d, q)) fuel isig ikey ns nk m = Val ok m' -> (N.to_nat ns <= fuel)%nat -> ns <= nk ->
  m' = m /\ ok = true /\ forall i, i < ns -> exists sig pub,
    top_at (neg_index (isig + i)) m = Val sig m /\ top_at (neg_index (ikey + i)) m = Val pub m /\
    d_verify d q sig pub = result_of_bool true.
Proof.
  intros St. induction fuel as [|fuel IH]; intros isig ikey ns nk m ok m' H F Le.
  - assert (ns = 0) by lia. subst ns. cbn in H. inversion H; subst. repeat split. intros i Hi. lia.
  - cbn [multisig_loop] in H. destruct (ns =? 0) eqn:Z.
    { cbn in H. inversion H; subst. repeat split. intros i Hi. lia. }
    unfold mbind in H at 1. destruct (top_at (neg_index isig) m) as [sig m1| | |] eqn:E1; try discriminate.
    assert (m1 = m). { revert E1. unfold top_at, lift, top. destruct (0 <=? neg_index isig)%Z; [discriminate|]. destruct (nth_error _ _); [|discriminate]. intros Q; inversion Q. destruct m; reflexivity. }
    subst m1. unfold mbind in H at 1. destruct (top_at (neg_index ikey) m) as [pub m1| | |] eqn:E2; try discriminate.
    assert (m1 = m). { revert E2. unfold top_at, lift, top. destruct (0 <=? neg_index ikey)%Z; [discriminate|]. destruct (nth_error _ _); [|discriminate]. intros Q; inversion Q. destruct m; reflexivity. }
    subst m1. cbv zeta in H. unfold mbind in H at 1. unfold guard in H.
    destruct (St q sig pub) as [V|V].
    2:{ destruct (serror_is_ok (r_error (d_verify d q sig pub))) eqn:Eo; [|discriminate].
        exfalso. apply V. destruct (r_error (d_verify d q sig pub)); (reflexivity || discriminate). }
    rewrite V in H. cbn [r_error r_success result_of_bool serror_is_ok mret] in H.
    replace (nk - 1 <? ns - 1) with false in H by lia.
    destruct (IH _ _ _ _ _ _ _ H ltac:(lia) ltac:(lia)) as (-> & -> & I). repeat split.
    intros i Hi. destruct (N.eq_dec i 0) as [->|Ni].
    + exists sig, pub. rewrite !N.add_0_r. auto.
    + destruct (I (i - 1) ltac:(lia)) as (sig' & pub' & A & B & C). exists sig', pub'.
      replace (isig + 1 + (i - 1)) with (isig + i) in A by lia. replace (ikey + 1 + (i - 1)) with (ikey + i) in B by lia. auto.
Qed.

(* ---- lock times ---- *)

Lemma number_exact b mi mx m : number b mi mx m =
  if mx <? len b then Exc (X_script E_SCRIPTNUM_OVERFLOW) m
  else if mi && negb (is_minimal_number b) then Exc (X_script E_SCRIPTNUM_MINENCODE) m else Val b m.
Proof.
  unfold number, read_integer. destruct (mx <? len b); [reflexivity|]. destruct (mi && negb (is_minimal_number b)); reflexivity.
Qed.

Lemma u32_mod b : read_as_uint32 b = le_val b mod 2 ^ 32.
Proof.
  unfold read_as_uint32. destruct (Nat.le_gt_cases (length b) 4) as [H|H].
  - rewrite firstn_all2 by exact H. symmetry. apply N.mod_small. pose proof (le_val_bound b).
    pose proof (pow256_mono (length b) 4 H). change (pow256 4) with (2 ^ 32) in *. lia.
  - rewrite <- (firstn_skipn 4 b) at 2. rewrite le_val_app, firstn_length, Nat.min_l by lia. change (pow256 4) with (2 ^ 32).
    rewrite N.mul_comm, N.mod_add by discriminate. symmetry. apply N.mod_small. pose proof (le_val_bound (firstn 4 b)).
    rewrite firstn_length, Nat.min_l in H0 by lia. exact H0.
Qed.

Lemma nonneg_u32 b : ~ negative_zero b -> (0 <= sn_val b)%Z -> read_as_uint32 b = Z.to_N (sn_val b mod 2 ^ 32).
Proof.
  intros N P. rewrite u32_mod. assert (E : sn_val b = Z.of_N (le_val b)).
  { destruct (rev b) as [|l q] eqn:Er.
    - assert (b = []) by (rewrite <- (rev_involutive b), Er; reflexivity). subst b. reflexivity.
    - assert (Eb : b = rev q ++ [l]) by (rewrite <- (rev_involutive b), Er; reflexivity). subst b.
      destruct (Z.eq_dec (sn_val (rev q ++ [l])) 0) as [Z0|NZ].
      + destruct (N.eq_dec (le_val (rev q ++ [l])) 0) as [L0|L0]; [rewrite L0; exact Z0|]. exfalso. apply N. split; assumption.
      + pose proof (sn_sign (rev q) l NZ) as S. replace (sn_val (rev q ++ [l]) <? 0)%Z with false in S by lia.
        rewrite sn_val_snoc. rewrite le_val_snoc. replace (128 <=? b2n l) with false. f_equal. f_equal. apply N.mul_comm. }
  rewrite E. change (2 ^ 32)%Z with (Z.of_N (2 ^ 32)). rewrite <- N2Z.inj_mod, N2Z.id. reflexivity.
Qed.

Lemma minimal_no_nz b : is_minimal_number b = true -> ~ negative_zero b.
Proof. intros M [Z0 Ln]. apply minimal_iff in M. rewrite Z0 in M. rewrite <- M in Ln. apply Ln. reflexivity. Qed.

Theorem cltv_exact m : 
  (has_flag FLAG_CLTV (c_flags cf) = true -> op_cltv doc cf m =
     if has_flag FLAG_DISCOURAGE_NOPS (c_flags cf) then Stop (result_of_error E_DISCOURAGE_UPGRADABLE_NOPS) m else Val tt m) /\
  (has_flag FLAG_CLTV (c_flags cf) = false -> minimal cf = true \/ Forall (fun b => ~ negative_zero b) (s_main (m_stack m)) ->
   op_cltv doc cf m = locktime_outcome cf m (fun x =>
     if match doc with None => true | Some d => d_locktime d (Z.to_N (sn_val x mod 2 ^ 32)) end
     then Val tt m else Stop (result_of_error E_UNSATISFIED_LOCKTIME) m)).
Proof.
  split; intros F.
  - unfold op_cltv, discourage, guard. rewrite F. destruct (has_flag FLAG_DISCOURAGE_NOPS _); reflexivity.
  - intros Nz. unfold op_cltv, locktime_outcome. rewrite F. unfold mbind at 1. unfold need_stack. rewrite need_exact. unfold size.
    destruct (s_main (m_stack m)) as [|x r] eqn:E; [reflexivity|].
    replace (1 <=? N.of_nat (length (x :: r))) with true by (cbn [length]; lia).
    unfold mbind at 1. rewrite (top1 m x r E). unfold mbind at 1. rewrite number_exact. destruct (5 <? len x); [reflexivity|].
    destruct (minimal cf && negb (is_minimal_number x)) eqn:Mi; [reflexivity|].
    unfold mbind, guard. rewrite is_negative_iff. destruct (sn_val x <? 0)%Z eqn:S; [reflexivity|]. cbn [negb mret].
    rewrite nonneg_u32; [|  |lia].
    + destruct (match doc with None => true | Some d => d_locktime d (Z.to_N (sn_val x mod 2 ^ 32)) end); reflexivity.
    + destruct Nz as [Nz|Nz]; [|inversion Nz; assumption]. apply minimal_no_nz. rewrite Nz in Mi. cbn in Mi. destruct (is_minimal_number x); [reflexivity|discriminate].
Qed.

Theorem csv_exact m :
  (has_flag FLAG_CSV (c_flags cf) = true -> op_csv doc cf m =
     if has_flag FLAG_DISCOURAGE_NOPS (c_flags cf) then Stop (result_of_error E_DISCOURAGE_UPGRADABLE_NOPS) m else Val tt m) /\
  (has_flag FLAG_CSV (c_flags cf) = false -> minimal cf = true \/ Forall (fun b => ~ negative_zero b) (s_main (m_stack m)) ->
   op_csv doc cf m = locktime_outcome cf m (fun x =>
     let n := Z.to_N (sn_val x mod 2 ^ 32) in
     if N.testbit n 31 then Stop (result_of_bool false) m
     else if match doc with None => true | Some d => d_sequence d n end
     then Val tt m else Stop (result_of_error E_UNSATISFIED_LOCKTIME) m)).
Proof.
  split; intros F.
  - unfold op_csv, discourage, guard. rewrite F. destruct (has_flag FLAG_DISCOURAGE_NOPS _); reflexivity.
  - intros Nz. unfold op_csv, locktime_outcome. rewrite F. unfold mbind at 1. unfold need_stack. rewrite need_exact. unfold size.
    destruct (s_main (m_stack m)) as [|x r] eqn:E; [reflexivity|].
    replace (1 <=? N.of_nat (length (x :: r))) with true by (cbn [length]; lia).
    unfold mbind at 1. rewrite (top1 m x r E). unfold mbind at 1. rewrite number_exact. destruct (5 <? len x); [reflexivity|].
    destruct (minimal cf && negb (is_minimal_number x)) eqn:Mi; [reflexivity|].
    unfold mbind, guard. replace (0 <=? sn_val x)%Z with (negb (sn_val x <? 0)%Z) by lia. destruct (sn_val x <? 0)%Z eqn:S; [reflexivity|]. cbn [negb mret].
    cbv zeta. rewrite nonneg_u32; [|  |lia].
    + destruct (N.testbit _ 31); [reflexivity|].
      destruct (match doc with None => true | Some d => d_sequence d (Z.to_N (sn_val x mod 2 ^ 32)) end); reflexivity.
    + destruct Nz as [Nz|Nz]; [|inversion Nz; assumption]. apply minimal_no_nz. rewrite Nz in Mi. cbn in Mi. destruct (is_minimal_number x); [reflexivity|discriminate].
Qed.
End Flow.

Theorem check_locktime_exact lt sq n : check_locktime lt sq n = true <-> locktime_met lt sq (Z.of_N n).
Proof.
  unfold check_locktime, locktime_met, LOCKTIME_THRESHOLD, SEQUENCE_FINAL.
  destruct (lt <? 500000000) eqn:A, (n <? 500000000) eqn:B, (500000000 <=? lt) eqn:C, (500000000 <=? n) eqn:D; try lia; cbn [andb orb negb];
  destruct (lt <? n) eqn:F; destruct (0xffffffff =? sq) eqn:H; split; intros; try discriminate; try lia; repeat split; lia.
Qed.

Lemma land_mask n : N.land n (N.lor SEQUENCE_TYPE_FLAG SEQUENCE_MASK) = (if N.testbit n 22 then 2 ^ 22 else 0) + n mod 2 ^ 16.
Proof.
  rewrite N.land_lor_distr_r. change SEQUENCE_MASK with (N.ones 16). rewrite N.land_ones.
  assert (E : N.land n SEQUENCE_TYPE_FLAG = if N.testbit n 22 then 2 ^ 22 else 0).
  { unfold SEQUENCE_TYPE_FLAG. apply N.bits_inj. intros i. rewrite N.land_spec, N.pow2_bits_eqb.
    destruct (N.eqb_spec 22 i) as [<-|Ne].
    - rewrite andb_true_r. destruct (N.testbit n 22); reflexivity.
    - rewrite andb_false_r. destruct (N.testbit n 22); [|now rewrite N.bits_0]. symmetry. apply N.pow2_bits_false. congruence. }
  rewrite E. destruct (N.testbit n 22); [|reflexivity].
  apply N.bits_inj. intros i. rewrite N.lor_spec.
  assert (D : N.land (2 ^ 22) (n mod 2 ^ 16) = 0).
  { apply N.bits_inj. intros k. rewrite N.land_spec, N.bits_0, N.pow2_bits_eqb. destruct (N.eqb_spec 22 k) as [<-|]; [|reflexivity].
    rewrite N.mod_pow2_bits_high by discriminate. reflexivity. }
  rewrite <- N.lor_spec. f_equal. rewrite N.add_nocarry_lxor by exact D. symmetry. apply N.lxor_lor. exact D.
Qed.

Theorem check_sequence_exact v sq n : (- 2 ^ 31 <= v < 2 ^ 31)%Z -> check_sequence v sq n = true <-> sequence_met v sq n.
Proof.
  intros B. unfold check_sequence, sequence_met. rewrite !land_mask.
  assert (V : (Z.to_N (v mod 2 ^ 32) <? 2) = negb ((v <? 0) || (2 <=? v))%Z).
  { change (2 ^ 32)%Z with 4294967296%Z. change (2 ^ 31)%Z with 2147483648%Z in B. lia. }
  rewrite V. unfold SEQUENCE_TYPE_FLAG.
  assert (M : forall a, a mod 2 ^ 16 < 2 ^ 22). { intros a. eapply N.lt_trans; [apply N.mod_lt; discriminate|reflexivity]. }
  pose proof (M sq) as M1. pose proof (M n) as M2. set (a := sq mod 2 ^ 16) in *. set (b := n mod 2 ^ 16) in *. clearbody a b.
  change (2 ^ 22) with 4194304 in *.
  destruct (N.testbit sq 31); cbn [negb].
  { split; [|intros (_ & H & _); discriminate]. destruct (negb _); discriminate. }
  destruct ((v <? 0) || (2 <=? v))%Z eqn:W; cbn [negb].
  2:{ split; [discriminate|]. intros (H & _). lia. }
  destruct (N.testbit sq 22), (N.testbit n 22).
  - replace (4194304 + a <? 4194304) with false by lia. replace (4194304 <=? 4194304 + a) with true by lia. replace (4194304 <=? 4194304 + b) with true by lia.
    cbn [andb orb negb]. destruct (4194304 + a <? 4194304 + b) eqn:Q; split; intros; try discriminate; try lia; repeat split; try reflexivity; lia.
  - replace (4194304 + a <? 4194304) with false by lia. replace (4194304 <=? 0 + b) with false by lia. cbn [andb orb negb]. rewrite andb_false_r. cbn [negb].
    split; [discriminate|]. intros (_ & _ & H & _). discriminate.
  - replace (4194304 <=? 0 + a) with false by lia. replace (4194304 + b <? 4194304) with false by lia. rewrite andb_false_r. cbn [andb orb negb].
    split; [discriminate|]. intros (_ & _ & H & _). discriminate.
  - replace (0 + a <? 4194304) with true by lia. replace (0 + b <? 4194304) with true by lia. cbn [andb orb negb].
    destruct (0 + a <? 0 + b) eqn:Q; split; intros; try discriminate; try lia; repeat split; try reflexivity; lia.
Qed.

(* ---- one signature ---- *)
Theorem verify_signature_exact K f code sig pub :
  (verify_signature K f code sig pub = result_of_bool true <-> signature_fine K f code sig pub) /\
  (verify_signature K f code sig pub = result_of_bool true \/ verify_signature K f code sig pub = result_of_bool false \/
   exists e, e <> E_OK /\ verify_signature K f code sig pub = result_of_error e) /\
  (verify_signature K f code sig pub = result_of_bool false -> has_flag FLAG_NULLFAIL f = false \/ sig = []).
Proof.
  unfold verify_signature, signature_fine, directive_valid, has_fork_id, sig_directive, sig_raw. cbv zeta.
  destruct (has_flag FLAG_COMPRESSED f) eqn:F1, (k_compressed K pub) eqn:K1; cbn [andb negb];
    try (split; [split; [discriminate|intuition discriminate]|split; [right; right; eexists; split; [|reflexivity]; discriminate|discriminate]]);
  (destruct (has_flag FLAG_STRICTENC f) eqn:F2, (k_valid K pub) eqn:K2; cbn [andb negb];
    try (split; [split; [discriminate|intuition discriminate]|split; [right; right; eexists; split; [|reflexivity]; discriminate|discriminate]]));
  (destruct (N.eqb_spec (N.land (b2n (last sig x00)) 60) 0) as [K3|K3]; cbn [andb negb];
    try (split; [split; [discriminate|intuition congruence]|split; [right; right; eexists; split; [|reflexivity]; discriminate|discriminate]]));
  (destruct (has_flag FLAG_FORKID f) eqn:F4, (N.testbit (b2n (last sig x00)) 6) eqn:K4; cbn [andb negb];
    try (split; [split; [discriminate|intuition discriminate]|split; [right; right; eexists; split; [|reflexivity]; discriminate|discriminate]]));
  (destruct (has_flag FLAG_REQUIRE_FORKID f) eqn:F5; cbn [andb negb];
    try (split; [split; [discriminate|intuition discriminate]|split; [right; right; eexists; split; [|reflexivity]; discriminate|discriminate]]));
  (destruct (has_flag FLAG_DERSIG f) eqn:F6, (has_flag FLAG_LOW_S f) eqn:F7, (k_der K sig) eqn:K6; cbn [andb orb negb];
    try (split; [split; [discriminate|intuition discriminate]|split; [right; right; eexists; split; [|reflexivity]; discriminate|discriminate]]));
  (destruct (k_normalized K (removelast sig)) eqn:K7; cbn [andb negb];
    try (split; [split; [discriminate|intuition discriminate]|split; [right; right; eexists; split; [|reflexivity]; discriminate|discriminate]]));
  (destruct (k_verify K code sig pub) eqn:K8;
    [split; [split; [intros _; intuition discriminate|reflexivity]|split; [left; reflexivity|discriminate]]|]);
  (destruct (has_flag FLAG_NULLFAIL f) eqn:F9; cbn [andb];
   [destruct (N.eqb_spec (len sig) 0) as [K9|K9]; cbn [negb];
    [split; [split; [discriminate|intuition discriminate]|split; [right; left; reflexivity|intros _; right; destruct sig; [reflexivity|discriminate]]]
    |split; [split; [discriminate|intuition discriminate]|split; [right; right; eexists; split; [|reflexivity]; discriminate|discriminate]]]
   |split; [split; [discriminate|intuition discriminate]|split; [right; left; reflexivity|intros _; left; reflexivity]]]).
Qed.

(* NULLFAIL together with a required FORKID, or with any rule that rejects the empty string *)
Theorem profiles_strict K f v lt sq : has_flag FLAG_NULLFAIL f = true -> has_flag FLAG_REQUIRE_FORKID f = true ->
  strict (document K f v lt sq).
Proof.
  intros N R p sig pub. cbn [document d_verify]. destruct (verify_signature_exact K f p sig pub) as (_ & [H|[H|(e & He & H)]] & Z).
  - left. exact H.
  - exfalso. destruct (Z H) as [Q| ->]; [congruence|]. revert H. unfold verify_signature. cbv zeta.
    destruct (has_flag FLAG_COMPRESSED f && _); [discriminate|]. destruct (has_flag FLAG_STRICTENC f && _); [discriminate|].
    cbn [sig_directive last]. change (directive_valid x00) with true. change (has_fork_id x00) with false. cbn [negb].
    rewrite andb_false_r, R. discriminate.
  - right. rewrite H. exact He.
Qed.
