From Verif Require Import Base BaseProofs WireModel WireProofs ScriptModel ScriptSpec ScriptProofs ProgramProofs NumModel NumSpec NumProofs.
From Verif Require Import StackModel StackSpec StackProofs MachineModel MachineSpec MachineProofs OpcodeProofs RunProofs ControlProofs FlowProofs SpendProofs.
From Verif Require Import StraightSpec.
From Coq Require Import Lia ZifyBool ZifyNat ZifyN.
Ltac Zify.zify_post_hook ::= Z.div_mod_to_equations.
Local Open Scope N_scope.

Lemma serror_ok_iff e : serror_is_ok e = true <-> e = E_OK.
Proof. destruct e; split; try reflexivity; discriminate. Qed.


Section Table.
Variable X : externals.
Variable cf : config.
Variable B : N.
Notation runs := (runs X cf B).

Lemma runs_table p s a R : runs p s a R -> table_run X cf p s a = R.
Proof. induction 1; cbn [table_run]; [reflexivity|now rewrite H1|now rewrite H1]. Qed.
Lemma runs_app p s a s' a' q R : runs p s a (Some (s', a')) -> runs q s' a' R -> runs (p ++ q) s a R.
Proof.
  intros H. remember (Some (s', a')) as T eqn:E. revert s' a' E. induction H; intros s1 a1 E Hq.
  - assert (s1 = s) by congruence. assert (a1 = a) by congruence. subst. exact Hq.
  - cbn [app]. eapply runs_on; eauto.
  - discriminate.
Qed.
Lemma runs_none p s a q : runs p s a None -> runs (p ++ q) s a None.
Proof.
  intros H. remember None as T eqn:E. induction H; cbn [app]; [discriminate|eapply runs_on; eauto|apply runs_stop; auto].
Qed.
Lemma runs_room p s a R : runs p s a R -> room s a <= B.
Proof. intros H. inversion H; assumption. Qed.
End Table.

Lemma footprint_bound s : N.of_nat (length s) <= footprint s /\ Forall (fun x => len x <= footprint s) s.
Proof.
  induction s as [|x s [IH1 IH2]]; [split; [vm_compute; discriminate|constructor]|].
  rewrite footprint_cons. split; [cbn [length]; lia|]. constructor; [lia|]. eapply Forall_impl; [|exact IH2]. cbn. intros. lia.
Qed.
Lemma room_small B s a : room s a <= B -> B < 2 ^ 31 -> small s.
Proof.
  unfold room, small. intros H L. destruct (footprint_bound s) as [A C]. split; [lia|]. eapply Forall_impl; [|exact C]. cbn. intros. lia.
Qed.
Lemma room_fits B l s a : ample B l -> room s a <= B -> fits l s a.
Proof.
  unfold ample, room. destruct l as [msize melem|max]; cbn [fits]; [|lia]. intros [A1 A2] H.
  destruct (footprint_bound s) as [S1 S2]. destruct (footprint_bound a) as [T1 T2]. split.
  - apply Forall_app. split; [eapply Forall_impl; [|exact S2]|eapply Forall_impl; [|exact T2]]; cbn; intros; lia.
  - assert (F : forall l, 32 * N.of_nat (length l) <= footprint l) by (intros l; unfold footprint; lia).
    pose proof (F s). pose proof (F a). lia.
Qed.
Lemma fits_dec l s a : fits l s a \/ ~ fits l s a.
Proof.
  destruct l as [msize melem|max]; cbn [fits]; [|lia].
  assert (D : Forall (fun x => len x <= msize) (s ++ a) \/ ~ Forall (fun x => len x <= msize) (s ++ a)).
  { induction (s ++ a) as [|x r [IH|IH]].
    - left. constructor.
    - destruct (N.le_decidable (len x) msize); [left; constructor; assumption|right; intros Q; inversion Q; contradiction].
    - right. intros Q. inversion Q. contradiction. }
  destruct D as [D|D]; [|tauto]. destruct (N.le_decidable (N.of_nat (length s) + N.of_nat (length a)) melem); tauto.
Qed.

Section Run.
Variable X : externals.
Variable doc : option rdoc.
Variable cf : config.
Hypothesis Tr : truncating X.
Hypothesis Sh : short_hashes X.

Section Script.
Variable p : program.
Variable s : list bytes.
Hypothesis Hs : segments p s.
Hypothesis L : len (concat s) < 2 ^ 31.
(* the conditions that are open: all of them are met *)
Variable lv : list bool * list bool.
Hypothesis Lv : forallb (fun b => b) (fst lv) = true.

Lemma part_len k : len (nth k s []) < 2 ^ 62.
Proof.
  destruct (Nat.ltb_spec k (length s)) as [K|K].
  - apply lt62. rewrite (concat_split s (S k)), len_app, firstn_S_nth, len_app in L. lia.
  - rewrite nth_overflow by assumption. reflexivity.
Qed.
Lemma sep_next k j i : nth_error p k = Some i -> next_sep s j k = if byte_eqb (i_op i) OP_CODESEPARATOR then S k else j.
Proof. intros E. destruct (next_op p s Hs L k i E) as (t & En & _). unfold next_sep. rewrite En. reflexivity. Qed.

(* the run from here fails; the run from here goes on *)
Definition fails (fuel j k : nat) (m : mstate) : Prop :=
  exists r m' c', machine_run X doc cf fuel (counter_at s j k) m = Ret (r, m', c') /\ r_verify r = false.
Definition arrives (fuel : nat) (j k : nat) (m : mstate) (fuel' j' k' : nat) (s' a' : list bytes) (n : N) : Prop :=
  n <= c_max_ops cf /\ exists m', at_level lv cf m' s' a' n /\
  machine_run X doc cf fuel (counter_at s j k) m = machine_run X doc cf fuel' (counter_at s j' k') m'.

(* one instruction of the table *)
Lemma one_step i fuel j k m s0 a0 n : nth_error p k = Some i -> at_level lv cf m s0 a0 n -> small s0 -> n <= c_max_ops cf ->
  impure (i_op i) = false -> (positional (i_op i) = true -> no_negative_zero cf (i_op i) s0) ->
  (fails (S fuel) j k m \/ exists s' a', instr_effect X cf i s0 a0 = Some (s', a') /\
      arrives (S fuel) j k m fuel (next_sep s j k) (S k) s' a' (n + counted [i_op i])) /\
  (forall s' a', instr_effect X cf i s0 a0 = Some (s', a') -> fits (limits_of cf) s' a' -> n + counted [i_op i] <= c_max_ops cf ->
     arrives (S fuel) j k m fuel (next_sep s j k) (S k) s' a' (n + counted [i_op i])).
Proof.
  intros Ei (G & El & Em & Ea & Ex & Eo) Sm Nm Im Nz.
  destruct (next_op p s Hs L k i Ei) as (t & En & Ii & _).
  assert (R : running m = true) by (unfold running; rewrite <- Lv, <- Ex; reflexivity).
  assert (Cn : counted [i_op i] = if b2n OP_16 <? b2n (i_op i) then 1 else 0) by (rewrite counted_cons; destruct (_ <? _); reflexivity).
  rewrite Cn in *.
  destruct (N.leb_spec (n + (if b2n OP_16 <? b2n (i_op i) then 1 else 0)) (c_max_ops cf)) as [Oc|Oc].
  2:{ split; [|intros; lia]. left. unfold fails. rewrite (run_S X doc cf p s Hs L), (step_cons _ _ _ _ _ (i_op i) t) by exact En.
      rewrite R, count_exact, Eo. destruct (b2n OP_16 <? b2n (i_op i)); [|lia].
      replace (n + 1 <=? c_max_ops cf) with false by lia. do 3 eexists. split; [reflexivity|]. reflexivity. }
  pose proof (step_table X doc cf (counter_at s j k) i m) as T. cbn [counter_at pc_next] in T. rewrite En, Em, Ea in T.
  assert (Oc' : b2n OP_16 < b2n (i_op i) -> m_ops m < c_max_ops cf).
  { intros Q. apply N.ltb_lt in Q. rewrite Q in Oc. lia. }
  assert (Rm : roomy (s_lim (m_stack m))) by (rewrite El; apply (machine0_roomy cf)).
  assert (Lp : len (i_op i :: t) < 2 ^ 62) by (rewrite <- En; apply part_len).
  specialize (T Ii R Im Oc' G Sm Rm Tr Sh Nz Lp).
  unfold fails, arrives. rewrite (run_S X doc cf p s Hs L). unfold agrees in T.
  destruct (step X doc cf _ m) as [[] m'|r m'|e m'|].
  - destruct T as (s1 & a1 & E & (B1 & B2 & B3 & B4) & T2 & T3 & T4).
    assert (Q : forall s' a', instr_effect X cf i s0 a0 = Some (s', a') ->
      at_level lv cf m' s' a' (n + (if b2n OP_16 <? b2n (i_op i) then 1 else 0))).
    { intros s' a' E'. assert (s1 = s') by congruence. assert (a1 = a') by congruence. subst s1 a1.
      unfold counting in *. cbn [m_stack m_exec m_else m_ops] in *.
      split; [assumption|]. split; [congruence|]. split; [assumption|]. split; [assumption|]. split; [congruence|].
      rewrite T4, Eo. destruct (b2n OP_16 <? b2n (i_op i)); lia. }
    split.
    + right. exists s1, a1. split; [assumption|]. split; [assumption|]. exists m'. split; [auto|reflexivity].
    + intros s' a' E' _ _. split; [assumption|]. exists m'. split; [auto|reflexivity].
  - destruct T as (V & _ & Q). split; [left; eauto|]. intros. congruence.
  - split.
    + left. do 3 eexists. split; [reflexivity|]. unfold r_verify, result_of_error. cbn [r_error r_success]. apply andb_false_r.
    + intros s' a' E' F' _. exfalso. apply (T s' a' E'). unfold counting. cbn [m_stack]. rewrite El. exact F'.
  - contradiction.
Qed.

Lemma skipn_next k i q : skipn k p = i :: q -> nth_error p k = Some i /\ skipn (S k) p = q.
Proof.
  clear Hs L. revert k i q. induction p as [|x r IH]; intros k i q E; [destruct k; discriminate|].
  destruct k; cbn [skipn nth_error] in *; [split; congruence|]. destruct (IH k i q E) as [A C]. split; [assumption|]. exact C.
Qed.

Theorem straight B q s0 a0 R : B < 2 ^ 31 -> runs X cf B q s0 a0 R -> forall k j fuel m n rest, skipn k p = q ++ rest ->
  at_level lv cf m s0 a0 n -> n <= c_max_ops cf ->
  (fails (length q + fuel) j k m \/ exists s' a', R = Some (s', a') /\
     arrives (length q + fuel) j k m fuel j (k + length q) s' a' (n + counted (ops q))) /\
  (forall s' a', R = Some (s', a') -> ample B (limits_of cf) -> n + counted (ops q) <= c_max_ops cf ->
     arrives (length q + fuel) j k m fuel j (k + length q) s' a' (n + counted (ops q))).
Proof.
  intros LB. induction 1 as [s0 a0 A|i q s0 a0 s1 a1 R A D E H IH|i q s0 a0 A D E]; intros k j fuel m n rest Sk At On.
  - assert (Q : arrives (length (@nil instr) + fuel) j k m fuel j (k + length (@nil instr)) s0 a0 (n + counted (ops []))).
    { change (counted (ops [])) with 0. rewrite N.add_0_r. split; [assumption|]. exists m. split; [assumption|].
      cbn [length]. rewrite Nat.add_0_r. reflexivity. }
    split; [right; exists s0, a0; split; [reflexivity|exact Q]|]. intros s' a' E' _ _.
    assert (s0 = s') by congruence. assert (a0 = a') by congruence. subst. exact Q.
  - cbn [app] in Sk. destruct (skipn_next _ _ _ Sk) as [En Sk']. destruct D as (Im & Ns & Nz).
    cbn [ops map]. fold (ops q). rewrite counted_cons.
    assert (Cn : counted [i_op i] = if b2n OP_16 <? b2n (i_op i) then 1 else 0) by (rewrite counted_cons; destruct (_ <? _); reflexivity).
    rewrite <- Cn in *. cbn [length Nat.add].
    destruct (one_step i (length q + fuel) j k m s0 a0 n En At (room_small _ _ _ A LB) On Im Nz) as [T1 T2].
    rewrite (sep_next _ j _ En) in T1, T2.
    replace (byte_eqb (i_op i) OP_CODESEPARATOR) with false in T1, T2 by (symmetry; apply byte_eqb_neq; assumption).
    replace (k + S (length q))%nat with (S k + length q)%nat by lia. rewrite N.add_assoc.
    split.
    + destruct T1 as [F|(s2 & a2 & E2 & N1 & m1 & At1 & E1)]; [now left|].
      assert (s2 = s1) by congruence. assert (a2 = a1) by congruence. subst s2 a2.
      destruct (IH (S k) j fuel m1 (n + counted [i_op i]) rest Sk' At1 N1) as [[(r & m2 & c2 & E3 & V)|(s' & a' & E3 & N2 & m2 & At2 & E4)] _].
      * left. exists r, m2, c2. split; [|assumption]. rewrite E1. exact E3.
      * right. exists s', a'. split; [assumption|]. split; [assumption|]. exists m2. split; [assumption|]. rewrite E1. exact E4.
    + intros s' a' ER Am On'.
      destruct (T2 s1 a1 E (room_fits _ _ _ _ Am (runs_room _ _ _ _ _ _ _ H)) ltac:(lia)) as (N1 & m1 & At1 & E1).
      destruct (IH (S k) j fuel m1 (n + counted [i_op i]) rest Sk' At1 N1) as [_ T3].
      destruct (T3 s' a' ER Am On') as (N2 & m2 & At2 & E4). split; [assumption|]. exists m2. split; [assumption|]. rewrite E1. exact E4.
  - cbn [app] in Sk. destruct (skipn_next _ _ _ Sk) as [En Sk']. destruct D as (Im & Ns & Nz).
    destruct (one_step i (length q + fuel) j k m s0 a0 n En At (room_small _ _ _ A LB) On Im Nz) as [T1 _].
    split; [|discriminate]. left. cbn [length Nat.add]. destruct T1 as [F|(s' & a' & E' & _)]; [exact F|congruence].
Qed.
End Script.
End Run.
