From Verif Require Import Base BaseProofs WireModel WireProofs ScriptModel ScriptSpec ScriptProofs ProgramProofs NumModel NumSpec NumProofs.
From Verif Require Import StackModel StackSpec StackProofs MachineModel MachineSpec MachineProofs OpcodeProofs RunProofs ControlProofs FlowProofs.
From Coq Require Import ZifyBool ZifyNat ZifyN.
Ltac Zify.zify_post_hook ::= Z.div_mod_to_equations.
Local Open Scope N_scope.

Lemma bind_inv {A B} (p : M A) (f : A -> M B) m b m' : (x <- p ;; f x) m = Val b m' ->
  exists a m1, p m = Val a m1 /\ f a m1 = Val b m'.
Proof. unfold mbind. destruct (p m) as [a m1| | |]; try discriminate. intros H. exists a, m1. auto. Qed.

Lemma guard_inv b e m u m' : guard b e m = Val u m' -> b = true /\ m' = m.
Proof. unfold guard. destruct b; [|discriminate]. intros H. inversion H. auto. Qed.

Lemma need_inv k m u m' : need_stack k m = Val u m' -> k <= size (m_stack m) /\ m' = m.
Proof. unfold need_stack. rewrite need_exact. destruct (k <=? size (m_stack m)) eqn:E; [|discriminate]. intros H. inversion H. subst. split; [apply N.leb_le; exact E|reflexivity]. Qed.

Lemma top_inv k m x m' : top_at (neg_index k) m = Val x m' -> 1 <= k <= 2 ^ 31 ->
  m' = m /\ nth_error (s_main (m_stack m)) (N.to_nat (k - 1)) = Some x.
Proof.
  intros H K. assert (E : neg_index k = (- Z.of_N k)%Z).
  { unfold neg_index, int32_of. rewrite (N.mod_small k) by (change (2 ^ 31) with 2147483648 in K; change (2 ^ 64) with 18446744073709551616; lia).
    change (2 ^ 64) with 18446744073709551616. change (2 ^ 31) with 2147483648 in *. change (2 ^ 32) with 4294967296.
    destruct (N.ltb_spec ((18446744073709551616 - k) mod 4294967296) 2147483648); lia. }
  revert H. unfold top_at, lift, top. rewrite E. replace (0 <=? - Z.of_N k)%Z with false by lia.
  replace (Z.to_nat (- - Z.of_N k - 1)) with (N.to_nat (k - 1)) by lia.
  destruct (nth_error (s_main (m_stack m)) (N.to_nat (k - 1))); [|discriminate]. intros H. inversion H.
  split; [destruct m; reflexivity|congruence].
Qed.

Lemma number_inv b mi mx m x m' : number b mi mx m = Val x m' -> x = b /\ m' = m.
Proof. rewrite number_exact. destruct (mx <? len b); [discriminate|]. destruct (mi && _); [discriminate|]. intros H. inversion H. auto. Qed.

Lemma nth_split_at {A} (l : list A) n : (n <= length l)%nat -> exists a b, l = a ++ b /\ length a = n.
Proof. intros H. exists (firstn n l), (skipn n l). split; [symmetry; apply firstn_skipn|]. rewrite firstn_length. lia. Qed.

(* with strict checking, CHECKMULTISIG goes on exactly when the signatures match the topmost keys, one to one and in order *)
Theorem multisig_matches X d cf c m m' : strict d -> small (s_main (m_stack m)) ->
  exec_op X (Some d) cf c OP_CHECKMULTISIG m = Val tt m' ->
  exists pubs sigs q, multisig_stack (s_main (m_stack m)) pubs sigs /\ (length sigs <= length pubs)%nat /\
    nth_error (s_main (m_stack m')) 0 = Some [x01] /\
    forall i sig pub, nth_error sigs i = Some sig -> nth_error pubs i = Some pub -> d_verify d q sig pub = result_of_bool true.
Proof.
  intros St (Sz & _) H. change (exec_op X (Some d) cf c OP_CHECKMULTISIG) with (op_checkmultisig (Some d) cf c false) in H.
  unfold op_checkmultisig in H.
  apply bind_inv in H as (u1 & m1 & H1 & H). apply need_inv in H1 as (N1 & ->).
  apply bind_inv in H as (t & m1 & H1 & H). apply top_inv in H1 as (-> & T1); [|change (2 ^ 31) with 2147483648; lia].
  change (N.to_nat (1 - 1)) with 0%nat in T1.
  apply bind_inv in H as (nk & m1 & H1 & H). apply number_inv in H1 as (-> & ->).
  apply bind_inv in H as (u2 & m1 & H1 & H). apply guard_inv in H1 as (P1 & ->). cbv zeta in H.
  set (nkeys := Z.to_N (sn_val t)) in *.
  apply bind_inv in H as (u3 & m1 & H1 & H). apply guard_inv in H1 as (P2 & ->).
  apply bind_inv in H as (m0 & m1 & H1 & H). inversion H1; subst m0 m1; clear H1.
  apply bind_inv in H as (u4 & m1 & H1 & H). inversion H1. subst u4. clear H1.
  set (m2 := {| m_stack := m_stack m; m_exec := m_exec m; m_else := m_else m; m_ops := m_ops m + nkeys |}) in *. subst m1.
  assert (S2 : m_stack m2 = m_stack m) by reflexivity.
  apply bind_inv in H as (u5 & m1 & H1 & H). apply guard_inv in H1 as (P3 & ->).
  apply bind_inv in H as (u6 & m1 & H1 & H). apply need_inv in H1 as (N2 & ->).
  unfold size in N2. rewrite S2 in N2.
  apply bind_inv in H as (u & m1 & H1 & H). apply top_inv in H1 as (-> & T2); [|change (2 ^ 31) with 2147483648 in *; lia].
  rewrite S2 in T2. 
  apply bind_inv in H as (ns & m1 & H1 & H). apply number_inv in H1 as (-> & ->).
  apply bind_inv in H as (u7 & m1 & H1 & H). apply guard_inv in H1 as (P4 & ->).
  set (nsigs := Z.to_N (sn_val u)) in *.
  apply bind_inv in H as (u8 & m1 & H1 & H). apply guard_inv in H1 as (P5 & ->).
  apply bind_inv in H as (u9 & m1 & H1 & H). apply need_inv in H1 as (N3 & ->). unfold size in N3. rewrite S2 in N3.
  apply bind_inv in H as (code & m1 & H1 & H).
  apply bind_inv in H1 as (p & m3 & Hp & H1).
  assert (m3 = m2). { revert Hp. unfold code_of. destruct (script_code c); try discriminate. intros Q. inversion Q. reflexivity. }
  subst m3. clear Hp.
  apply bind_inv in H1 as (st & m3 & Hp & H1). inversion Hp; subst st m3; clear Hp. inversion H1; subst m1; clear H1.
  set (q := fold_left cleanup_script_code _ p) in *.
  apply bind_inv in H as (ok & m1 & HL & H). subst code.
  destruct (multisig_strict d q St _ _ _ _ _ _ _ _ HL ltac:(lia) ltac:(lia)) as (-> & -> & L).
  cbn [negb] in H.
  apply bind_inv in H as (u10 & m4 & _ & H).
  apply bind_inv in H as (u11 & m5 & _ & H).
  apply bind_inv in H as (dd & m6 & _ & H).
  apply bind_inv in H as (u12 & m7 & _ & H).
  apply bind_inv in H as (u13 & m8 & _ & H).
  apply bind_inv in H as (u14 & m9 & H1 & H).
  inversion H; subst m9; clear H.
  (* the shape of the stack *)
  set (s := s_main (m_stack m)) in *.
  destruct s as [|t0 s1] eqn:Es; [discriminate T1|]. injection T1 as ->.
  cbn [length] in N2, N3.
  destruct (nth_split_at s1 (N.to_nat nkeys) ltac:(lia)) as (pubs & s2 & E1 & Lp).
  replace (N.to_nat (nkeys + 2 - 1)) with (S (length pubs)) in T2 by lia.
  cbn [nth_error] in T2. rewrite E1, nth_error_app2, Nat.sub_diag in T2 by lia.
  destruct s2 as [|u0 s3]; [discriminate T2|]. cbn in T2. injection T2 as ->.
  assert (L3 : (length s1 = length pubs + S (length s3))%nat) by (rewrite E1, app_length; reflexivity).
  destruct (nth_split_at s3 (N.to_nat nsigs) ltac:(lia)) as (sigs & s4 & E2 & Ls).
  assert (L4 : (length s3 = length sigs + length s4)%nat) by (rewrite E2, app_length; reflexivity).
  destruct s4 as [|dummy r]; [cbn in L4; lia|].
  exists pubs, sigs, q. split; [|split; [|split]].
  - exists t, u, dummy, r. split; [rewrite E1, E2; reflexivity|]. lia.
  - lia.
  - revert H1. unfold push_stack, lift, push_back. change (sn_bool true) with [x01]. destruct (s_lim (m_stack m8)).
    + destruct (_ <? _); [discriminate|]. destruct (_ =? _); [discriminate|]. unfold emplace. intros Q. inversion Q. reflexivity.
    + unfold mbind, increase_memory_usage. destruct (_ <? _); [discriminate|]. unfold emplace. intros Q. inversion Q. reflexivity.
  - intros i sig pub Hs Hp.
    assert (Li : (i < length sigs)%nat) by (apply nth_error_Some; congruence).
    destruct (L (N.of_nat i) ltac:(lia)) as (sig' & pub' & A & B & V).
    apply top_inv in A as (_ & A); [|change (2 ^ 31) with 2147483648 in *; cbn [length] in Sz; lia].
    apply top_inv in B as (_ & B); [|change (2 ^ 31) with 2147483648 in *; cbn [length] in Sz; lia].
    rewrite S2 in A, B. fold s in A, B. rewrite Es in A, B.
    replace (N.to_nat (nkeys + 3 + N.of_nat i - 1)) with (S (length pubs + S i)) in A by lia.
    replace (N.to_nat (2 + N.of_nat i - 1)) with (S i) in B by lia.
    cbn [nth_error] in A, B. rewrite E1, nth_error_app2 in A by lia.
    replace (length pubs + S i - length pubs)%nat with (S i) in A by lia. cbn [nth_error] in A. rewrite E2, nth_error_app1 in A by lia.
    rewrite E1, nth_error_app1 in B by lia. congruence.
Qed.

(* ---- zero written as 0x80 ---- *)
Theorem negative_zero_misread X doc cf c m d r : minimal cf = false -> 1 <= c_max_num cf -> len d < 128 ->
  s_main (m_stack m) = [x80] :: d :: r ->
  exec_op X doc cf c OP_LEFT m = UB /\ exec_op X doc cf c OP_RIGHT m = UB /\ exec_op X doc cf c OP_SPLIT m = Exc X_other m.
Proof.
  intros Mi Mx L S.
  assert (T1 : top_at (-1) m = Val [x80] m) by (eapply top1; exact S).
  assert (T2 : top_at (-2) m = Val d m) by (eapply top2; exact S).
  assert (Nd : need_stack 2 m = Val tt m). { unfold need_stack. rewrite need_exact. unfold size. rewrite S. cbn [length]. replace (2 <=? _) with true by lia. reflexivity. }
  assert (Nu : num cf [x80] m = Val [x80] m).
  { unfold num. rewrite number_exact, Mi. change (len [x80]) with 1. replace (c_max_num cf <? 1) with false by lia. reflexivity. }
  assert (G : forall e, guard ((0 <=? sn_val [x80])%Z && (sn_val [x80] <=? Z.of_N (len d))%Z) e m = Val tt m).
  { intros e. change (sn_val [x80]) with 0%Z. unfold guard. replace (_ && _) with true by lia. reflexivity. }
  assert (R : len d <? read_as_uint32 [x80] = true) by (change (read_as_uint32 [x80]) with 128; lia).
  assert (LR : forall b, op_left cf b m = UB).
  { intros b. unfold op_left. unfold mbind at 1. rewrite Nd. unfold mbind at 1. rewrite T2. unfold mbind at 1. rewrite T1.
    unfold mbind at 1. rewrite Nu. unfold mbind at 1. rewrite G. cbv zeta. rewrite R. reflexivity. }
  split; [exact (LR false)|]. split; [exact (LR true)|].
  change (exec_op X doc cf c OP_SPLIT m) with (op_split cf m).
  unfold op_split. unfold mbind at 1. rewrite Nd. unfold mbind at 1. rewrite T2. unfold mbind at 1. rewrite T1.
  unfold mbind at 1. rewrite Nu. unfold mbind at 1. rewrite G. cbv zeta. rewrite R. reflexivity.
Qed.
