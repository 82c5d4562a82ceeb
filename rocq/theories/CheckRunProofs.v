From Verif Require Import Base BaseProofs WireModel WireProofs ScriptModel ScriptSpec ScriptProofs ProgramProofs NumModel NumSpec NumProofs.
From Verif Require Import StackModel StackSpec StackProofs MachineModel MachineSpec MachineProofs OpcodeProofs RunProofs ControlProofs FlowProofs SpendProofs.
From Verif Require Import PatternModel StraightSpec StraightProofs StraightEval PayRunSpec PayRunProofs MultiSpec MultiProofs MultiRunSpec MultiRunProofs CheckRunSpec.
From Coq Require Import Lia ZifyBool ZifyNat ZifyN.
Ltac Zify.zify_post_hook ::= Z.div_mod_to_equations.
Local Open Scope N_scope.

(* ---- more operations are no better ---- *)
Lemma refused_more cf n st : multi_refused cf 0 st <> None -> multi_refused cf n st <> None.
Proof.
  unfold multi_refused. destruct st as [|nk rest]; [discriminate|]. destruct (count_of (minimal cf) nk) as [e|k]; [discriminate|].
  destruct ((k <? 0)%Z || (Z.of_N (c_max_keys cf) <? k)%Z); [discriminate|].
  destruct (Z.of_N (c_max_ops cf) <? Z.of_N n + k)%Z eqn:A; [discriminate|].
  destruct (Z.of_N (c_max_ops cf) <? Z.of_N 0 + k)%Z eqn:B; [lia|]. auto.
Qed.
Lemma layout_args cf m st pubs sigs dummy r : s_main (m_stack m) = st ->
  (layout cf st pubs sigs dummy r /\ m_ops m + N.of_nat (length pubs) <= c_max_ops cf <-> multi_args cf m pubs sigs dummy r).
Proof.
  intros E. split.
  - intros ((nk & ns & -> & A & C & D & F) & O). apply count_ok in A, C. split; [exists nk, ns; auto|exact D|exact O|exact F].
  - intros [(nk & ns & A & C & D) F O G]. split; [|exact O]. exists nk, ns. split; [congruence|]. split; [apply count_ok, C|]. split; [apply count_ok, D|]. auto.
Qed.
Lemma layout_one cf st pubs sigs dummy r pubs' sigs' dummy' r' : layout cf st pubs sigs dummy r -> layout cf st pubs' sigs' dummy' r' ->
  pubs' = pubs /\ sigs' = sigs /\ dummy' = dummy /\ r' = r.
Proof.
  intros (nk & ns & H1 & H2 & H3 & _) (nk' & ns' & F1 & F2 & F3 & _). rewrite H1 in F1.
  assert (nk = nk') by congruence. subst nk'.
  assert (F1' : pubs ++ ns :: sigs ++ dummy :: r = pubs' ++ ns' :: sigs' ++ dummy' :: r') by congruence.
  assert (Lk : Z.of_nat (length pubs) = Z.of_nat (length pubs')) by congruence.
  apply app_same in F1' as [-> F4]; [|lia]. assert (ns = ns') by congruence. subst ns'.
  assert (F5 : sigs ++ dummy :: r = sigs' ++ dummy' :: r') by congruence.
  assert (Ls : Z.of_nat (length sigs) = Z.of_nat (length sigs')) by congruence.
  apply app_same in F5 as [-> F6]; [|lia]. split; [reflexivity|]. split; [reflexivity|]. split; congruence.
Qed.

(* only the element on top matters to a lock *)
Lemma cltv_top doc cf m x r : has_flag FLAG_CLTV (c_flags cf) = false -> s_main (m_stack m) = x :: r -> minimal cf = true \/ ~ negative_zero x ->
  op_cltv doc cf m = locktime_outcome cf m (fun x =>
     if match doc with None => true | Some d => d_locktime d (Z.to_N (sn_val x mod 2 ^ 32)) end
     then Val tt m else Stop (result_of_error E_UNSATISFIED_LOCKTIME) m).
Proof.
  intros F E Nz. unfold op_cltv, locktime_outcome. rewrite F. unfold mbind at 1. unfold need_stack. rewrite need_exact. unfold size. rewrite E.
  replace (1 <=? N.of_nat (length (x :: r))) with true by (cbn [length]; lia).
  unfold mbind at 1. rewrite (top1 m x r E). unfold mbind at 1. rewrite FlowProofs.number_exact. destruct (5 <? len x); [reflexivity|].
  destruct (minimal cf && negb (is_minimal_number x)) eqn:Mi; [reflexivity|].
  unfold mbind, guard. rewrite is_negative_iff. destruct (sn_val x <? 0)%Z eqn:Sx; [reflexivity|]. cbn [negb mret].
  rewrite nonneg_u32; [|  |lia].
  - destruct (match doc with None => true | Some d => d_locktime d (Z.to_N (sn_val x mod 2 ^ 32)) end); reflexivity.
  - destruct Nz as [Nz|Nz]; [|assumption]. apply minimal_no_nz. rewrite Nz in Mi. cbn in Mi. destruct (is_minimal_number x); [reflexivity|discriminate].
Qed.
Lemma csv_top doc cf m x r : has_flag FLAG_CSV (c_flags cf) = false -> s_main (m_stack m) = x :: r -> minimal cf = true \/ ~ negative_zero x ->
  op_csv doc cf m = locktime_outcome cf m (fun x =>
     let n := Z.to_N (sn_val x mod 2 ^ 32) in
     if N.testbit n 31 then Stop (result_of_bool false) m
     else if match doc with None => true | Some d => d_sequence d n end
     then Val tt m else Stop (result_of_error E_UNSATISFIED_LOCKTIME) m).
Proof.
  intros F E Nz. unfold op_csv, locktime_outcome. rewrite F. unfold mbind at 1. unfold need_stack. rewrite need_exact. unfold size. rewrite E.
  replace (1 <=? N.of_nat (length (x :: r))) with true by (cbn [length]; lia).
  unfold mbind at 1. rewrite (top1 m x r E). unfold mbind at 1. rewrite FlowProofs.number_exact. destruct (5 <? len x); [reflexivity|].
  destruct (minimal cf && negb (is_minimal_number x)) eqn:Mi; [reflexivity|].
  unfold mbind, guard. replace (0 <=? sn_val x)%Z with (negb (sn_val x <? 0)%Z) by lia. destruct (sn_val x <? 0)%Z eqn:Sx; [reflexivity|]. cbn [negb mret].
  cbv zeta. rewrite nonneg_u32; [|  |lia].
  - destruct (N.testbit _ 31); [reflexivity|].
    destruct (match doc with None => true | Some d => d_sequence d (Z.to_N (sn_val x mod 2 ^ 32)) end); reflexivity.
  - destruct Nz as [Nz|Nz]; [|assumption]. apply minimal_no_nz. rewrite Nz in Mi. cbn in Mi. destruct (is_minimal_number x); [reflexivity|discriminate].
Qed.

Section Run.
Variable X : externals.
Variable doc : option rdoc.
Variable cf : config.
Hypothesis Tr : truncating X.
Hypothesis Sh : short_hashes X.

Section Script.
Variable p : program.
Variable s : list bytes.
Hypothesis Hs : segments p s.
Hypothesis L : len (concat s) < 2 ^ 31.
Variable code : program.
Variable j : nat.
Hypothesis Code : forall k, script_code (counter_at s j k) = Ret code.
Variable lv : list bool * list bool.
Hypothesis Lv : forallb (fun b => b) (fst lv) = true.

(* the run ends and the script is satisfied *)
Definition accepts (fuel k : nat) (m : mstate) : Prop :=
  exists m' c', machine_run X doc cf fuel (counter_at s j k) m = Ret (result_of_bool true, m', c').

Definition one_outcome (e : progress) (fuel k : nat) (m : mstate) (n : N) : Prop :=
  match e with
  | Refused => fails X doc cf s (S fuel) j k m
  | Satisfied x => (fails X doc cf s (S fuel) j k m \/ accepts (S fuel) k m /\ n + x <= c_max_ops cf) /\ (n + x <= c_max_ops cf -> accepts (S fuel) k m)
  | Goes s' a' x => (fails X doc cf s (S fuel) j k m \/ arrives X doc cf s lv (S fuel) j k m fuel j (S k) s' a' (n + x)) /\
      (fits (limits_of cf) s' a' -> n + x <= c_max_ops cf -> arrives X doc cf s lv (S fuel) j k m fuel j (S k) s' a' (n + x))
  end.

(* the step for an opcode that is counted and is not a push *)
Lemma step_counted o fuel k m st a n : nth_error p k = Some (op_instr o) -> at_level lv cf m st a n -> b2n OP_16 < b2n o -> n + 1 <= c_max_ops cf ->
  machine_run X doc cf (S fuel) (counter_at s j k) m =
  match exec_op X doc cf (counter_at s j k) o (with_ops m (n + 1)) with
  | Val _ m' => machine_run X doc cf fuel (counter_at s (next_sep s j k) (S k)) m'
  | Stop r m' => Ret (r, m', counter_at s j k)
  | Exc e m' => Ret (result_of_error (error_of e), m', counter_at s j k)
  | UB => Undef
  end.
Proof.
  intros Ek (G & Ll & Em & Ea & Ex & Eo) Ho Oc.
  destruct (next_op p s Hs L k _ Ek) as (t & En & _). cbn [op_instr i_op] in En.
  assert (R : running m = true) by (unfold running; rewrite <- Lv, <- Ex; reflexivity).
  rewrite (run_S X doc cf p s Hs L), (step_cons _ _ _ _ _ o t) by exact En.
  rewrite R, count_exact, Eo. replace (b2n OP_16 <? b2n o) with true by lia. replace (n + 1 <=? c_max_ops cf) with true by lia.
  change (b2n OP_16) with 96 in Ho. change (b2n OP_PUSHDATA4) with 78. replace (b2n o <=? 78) with false by lia. reflexivity.
Qed.
Lemma too_many o fuel k m st a n : nth_error p k = Some (op_instr o) -> at_level lv cf m st a n -> b2n OP_16 < b2n o -> c_max_ops cf < n + 1 ->
  fails X doc cf s (S fuel) j k m.
Proof.
  intros Ek (G & Ll & Em & Ea & Ex & Eo) Ho Oc.
  destruct (next_op p s Hs L k _ Ek) as (t & En & _). cbn [op_instr i_op] in En. unfold fails.
  rewrite (run_S X doc cf p s Hs L), (step_cons _ _ _ _ _ o t) by exact En. rewrite count_exact, Eo.
  replace (b2n OP_16 <? b2n o) with true by lia. replace (n + 1 <=? c_max_ops cf) with false by lia. do 3 eexists. split; reflexivity.
Qed.
Lemma error_fails e : r_verify (result_of_error e) = false.
Proof. unfold r_verify, result_of_error. cbn [r_error r_success]. apply andb_false_r. Qed.

(* an opcode that changes nothing but the count *)
Lemma lock_arrives o fuel k m st a n : nth_error p k = Some (op_instr o) -> at_level lv cf m st a n -> b2n OP_16 < b2n o -> n + 1 <= c_max_ops cf ->
  o <> OP_CODESEPARATOR -> exec_op X doc cf (counter_at s j k) o (with_ops m (n + 1)) = Val tt (with_ops m (n + 1)) ->
  arrives X doc cf s lv (S fuel) j k m fuel j (S k) st a (n + 1).
Proof.
  intros Ek At Ho Oc Ns Ex1. split; [exact Oc|]. exists (with_ops m (n + 1)). split.
  - destruct At as (G & Ll & Em & Ea & Ex & Eo). split; [exact G|]. repeat (split; [assumption|]). reflexivity.
  - rewrite (step_counted o fuel k m st a n Ek At Ho Oc), Ex1, (sep_next p s Hs L _ _ _ Ek). cbn [op_instr i_op].
    replace (byte_eqb o OP_CODESEPARATOR) with false by (symmetry; apply byte_eqb_neq, Ns). reflexivity.
Qed.

Lemma refused_too_many o e fuel k m st a n : nth_error p k = Some (op_instr o) -> at_level lv cf m st a n -> b2n OP_16 < b2n o -> c_max_ops cf < n + 1 ->
  match e with Goes _ _ x => 1 <= x | Refused => True | Satisfied x => 1 <= x end -> one_outcome e fuel k m n.
Proof.
  intros Ek At Ho Oc H. pose proof (too_many o fuel k m st a n Ek At Ho Oc) as F. destruct e as [s' a' x| |x]; cbn [one_outcome].
  - split; [left; exact F|]. intros. lia.
  - exact F.
  - split; [left; exact F|]. intros. lia.
Qed.

Lemma check_one_step i fuel k m s0 a0 n e : nth_error p k = Some i -> at_level lv cf m s0 a0 n -> small s0 -> n <= c_max_ops cf ->
  check_step X doc cf code i s0 a0 e -> one_outcome e fuel k m n.
Proof.
  intros Ek At Sm On C.
  assert (Sep : forall o, nth_error p k = Some (op_instr o) -> o <> OP_CODESEPARATOR -> next_sep s j k = j).
  { intros o E D. rewrite (sep_next p s Hs L _ _ _ E). cbn [op_instr i_op]. replace (byte_eqb o OP_CODESEPARATOR) with false by (symmetry; apply byte_eqb_neq, D). reflexivity. }
  pose proof At as (G & Ll & Em & Ea & Ex & Eo).
  assert (Rm : roomy (s_lim (m_stack (with_ops m (n + 1))))) by (change (m_stack (with_ops m (n + 1))) with (m_stack m); rewrite Ll; apply rest_roomy).
  assert (Rest : forall m2 r x, becomes (m_stack m) (m_stack m2) r (s_alt (m_stack m)) -> m_exec m2 = m_exec m -> m_else m2 = m_else m -> m_ops m2 = x -> at_level lv cf m2 r a0 x).
  { intros m2 r x (B1 & B2 & B3 & B4) C1 C3 C2. split; [exact B4|]. split; [congruence|]. split; [exact B2|]. split; [congruence|]. split; congruence. }
  assert (Sr : forall sig pub, sig_result doc (counter_at s j k) sig pub = inl (check_one doc code sig pub)).
  { intros sig pub. unfold sig_result, check_one. destruct doc; [rewrite Code|]; reflexivity. }
  set (m1 := with_ops m (n + 1)) in *.
  assert (Mrun : forall c' m', m' = m1 -> c' = counter_at s j k -> exec_op X doc cf c' OP_CHECKSIG m' = op_checksig doc (counter_at s j k) false m1) by (intros c' m' -> ->; reflexivity).
  (* the arguments of a multisignature *)
  assert (Multi : forall pubs sigs dummy r o, layout cf s0 pubs sigs dummy r -> tried (multi_check doc code s0 (length sigs)) sigs pubs o ->
    n + 1 <= c_max_ops cf ->
    (c_max_ops cf < n + (1 + N.of_nat (length pubs)) /\ (exists e m', exec_op X doc cf (counter_at s j k) OP_CHECKMULTISIG m1 = Stop (result_of_error e) m' \/
        exec_op X doc cf (counter_at s j k) OP_CHECKMULTISIG m1 = Exc (X_script e) m') /\
      (exists e m', exec_op X doc cf (counter_at s j k) OP_CHECKMULTISIGVERIFY m1 = Stop (result_of_error e) m' \/
        exec_op X doc cf (counter_at s j k) OP_CHECKMULTISIGVERIFY m1 = Exc (X_script e) m')) \/
    (n + (1 + N.of_nat (length pubs)) <= c_max_ops cf /\
     match o with
     | inl e => (exists m', exec_op X doc cf (counter_at s j k) OP_CHECKMULTISIG m1 = Stop (result_of_error e) m') /\
                (exists m', exec_op X doc cf (counter_at s j k) OP_CHECKMULTISIGVERIFY m1 = Stop (result_of_error e) m')
     | inr ok => multi_end cf false m1 pubs sigs dummy r ok (exec_op X doc cf (counter_at s j k) OP_CHECKMULTISIG m1) /\
                 multi_end cf true m1 pubs sigs dummy r ok (exec_op X doc cf (counter_at s j k) OP_CHECKMULTISIGVERIFY m1)
     end)).
  { intros pubs sigs dummy r o Ly T On1.
    destruct (N.leb_spec (n + (1 + N.of_nat (length pubs))) (c_max_ops cf)) as [Oc|Oc].
    - right. split; [exact Oc|]. apply (multisig_ops X doc cf (counter_at s j k) code m1 pubs sigs dummy r o G Rm).
      + change (m_stack m1) with (m_stack m). rewrite Em. exact Sm.
      + apply (layout_args cf m1 s0); [exact Em|]. split; [exact Ly|]. change (m_ops m1) with (n + 1). lia.
      + intros _. apply Code.
      + change (m_stack m1) with (m_stack m). rewrite Em. exact T.
    - left. split; [exact Oc|]. pose proof (refused_ops X doc cf (counter_at s j k) m1) as Rf.
      change (s_main (m_stack m1)) with (s_main (m_stack m)) in Rf. rewrite Em in Rf. specialize (Rf Sm).
      destruct (multi_refused cf (m_ops m1) s0) as [[[] er]|].
      + destruct Rf as [(m' & A) (m'' & A')]. split; [exists er, m'|exists er, m'']; right; assumption.
      + destruct Rf as [(m' & A) (m'' & A')]. split; [exists er, m'|exists er, m'']; left; assumption.
      + exfalso. destruct Rf as (pubs' & sigs' & dummy' & r' & A). apply (layout_args cf m1 s0) in A; [|exact Em]. destruct A as [A O].
        destruct (layout_one _ _ _ _ _ _ _ _ _ _ Ly A) as (-> & _). change (m_ops m1) with (n + 1) in O. lia. }
  assert (Stopped : forall o, nth_error p k = Some (op_instr o) -> b2n OP_16 < b2n o -> n + 1 <= c_max_ops cf ->
    (exists e m', exec_op X doc cf (counter_at s j k) o m1 = Stop (result_of_error e) m' \/ exec_op X doc cf (counter_at s j k) o m1 = Exc (X_script e) m') ->
    fails X doc cf s (S fuel) j k m).
  { intros o Eo' Ho Oc (e' & m' & H). unfold fails. rewrite (step_counted o fuel k m s0 a0 n Eo' At Ho Oc). fold m1.
    destruct H as [-> | ->]; do 3 eexists; (split; [reflexivity|apply error_fails]). }
  inversion C as [i' s' a' s2 a2 D Ef|i' s' a' D Ef|o s' a' O Sh'|o pub sig r a' O Er|pub sig r a' Er|pub sig r a' Er|o s' a' O Rf|o s' a' pubs sigs dummy r er O Ly T|
    o s' a' pubs sigs dummy r ok O Ly T Nw|s' a' pubs sigs dummy r ok Ly T Nw|s' a' pubs sigs dummy r ok Ly T Nw|
    o s' a' O Fl|o a' O Fl|o x r a' O Fl Nz]; subst.
  - (* the table *)
    destruct D as (Im & Ns & Nz). destruct (one_step X doc cf Tr Sh p s Hs L lv Lv i fuel j k m _ _ _ Ek At Sm On Im Nz) as [T1 T2].
    rewrite (sep_next p s Hs L _ j _ Ek) in T1, T2. replace (byte_eqb (i_op i) OP_CODESEPARATOR) with false in T1, T2 by (symmetry; apply byte_eqb_neq; assumption).
    cbn [one_outcome]. split.
    + destruct T1 as [F|(s3 & a3 & E3 & A)]; [now left|]. right. assert (s3 = s2) by congruence. assert (a3 = a2) by congruence. subst. exact A.
    + intros F O. apply T2; assumption.
  - destruct D as (Im & Ns & Nz). destruct (one_step X doc cf Tr Sh p s Hs L lv Lv i fuel j k m _ _ _ Ek At Sm On Im Nz) as [T1 _].
    cbn [one_outcome]. destruct T1 as [F|(s3 & a3 & E3 & _)]; [exact F|congruence].
  - (* too few for a signature *)
    assert (Ho : b2n OP_16 < b2n o) by (destruct O as [-> | ->]; reflexivity).
    destruct (N.leb_spec (m_ops m + 1) (c_max_ops cf)) as [Oc|Oc]; [|apply (refused_too_many o Refused fuel k m _ _ _ Ek At Ho Oc I)].
    cbn [one_outcome]. apply (Stopped o Ek Ho Oc). exists E_INVALID_STACK_OPERATION, m1. left.
    assert (Short : forall v, op_checksig doc (counter_at s j k) v m1 = Stop (result_of_error E_INVALID_STACK_OPERATION) m1).
    { intros v. unfold op_checksig, mbind at 1, need_stack. rewrite need_exact. unfold size. change (m_stack m1) with (m_stack m). 
      replace (2 <=? N.of_nat (length (s_main (m_stack m)))) with false by lia. reflexivity. }
    destruct O as [-> | ->]; cbn [exec_op]; apply Short.
  - (* a signature that is an error *)
    assert (Ho : b2n OP_16 < b2n o) by (destruct O as [-> | ->]; reflexivity).
    destruct (N.leb_spec (m_ops m + 1) (c_max_ops cf)) as [Oc|Oc]; [|apply (refused_too_many o Refused fuel k m _ _ _ Ek At Ho Oc I)].
    cbn [one_outcome]. apply (Stopped o Ek Ho Oc). exists (r_error (check_one doc code sig pub)), m1. left.
    assert (Ne : serror_is_ok (r_error (check_one doc code sig pub)) = false).
    { destruct (serror_is_ok (r_error (check_one doc code sig pub))) eqn:Q; [|reflexivity]. apply serror_ok_iff in Q. contradiction. }
    assert (Err : forall v, op_checksig doc (counter_at s j k) v m1 = Stop (result_of_error (r_error (check_one doc code sig pub))) m1).
    { intros v. pose proof (checksig_exact doc (counter_at s j k) v m1 pub sig r G Rm ltac:(first [exact Em|symmetry; assumption])) as Q. rewrite Sr, Ne in Q. exact Q. }
    destruct O as [-> | ->]; cbn [exec_op]; apply Err.
  - (* a signature *)
    destruct (N.leb_spec (m_ops m + 1) (c_max_ops cf)) as [Oc|Oc]; [|apply (refused_too_many OP_CHECKSIG _ fuel k m _ _ _ Ek At eq_refl Oc); lia].
    pose proof (checksig_exact doc (counter_at s j k) false m1 pub sig r G Rm ltac:(first [exact Em|symmetry; assumption])) as Q. rewrite Sr, Er in Q. cbn [serror_is_ok negb] in Q.
    destruct Q as (m2 & E2 & B2 & X2 & Y2 & O2).
    assert (A : arrives X doc cf s lv (S fuel) j k m fuel j (S k) (sn_bool (r_success (check_one doc code sig pub)) :: r) (s_alt (m_stack m)) (m_ops m + 1)).
    { split; [exact Oc|]. exists m2. split; [apply Rest; [exact B2|exact X2|exact Y2|exact O2]|].
      rewrite (step_counted OP_CHECKSIG fuel k m _ _ _ Ek At eq_refl Oc). fold m1. change (exec_op X doc cf (counter_at s j k) OP_CHECKSIG m1) with (op_checksig doc (counter_at s j k) false m1).
      rewrite E2, (Sep _ Ek) by discriminate. reflexivity. }
    cbn [one_outcome]. split; [right; exact A|]. intros _ _. exact A.
  - (* a signature that is verified *)
    pose proof (checksig_exact doc (counter_at s j k) true m1 pub sig r G Rm ltac:(first [exact Em|symmetry; assumption])) as Q. rewrite Sr, Er in Q. cbn [serror_is_ok negb] in Q.
    destruct Q as (m2 & E2).
    destruct (N.leb_spec (m_ops m + 1) (c_max_ops cf)) as [Oc|Oc].
    2:{ apply (refused_too_many OP_CHECKSIGVERIFY _ fuel k m _ _ _ Ek At eq_refl Oc). destruct (r_success _); [lia|exact I]. }
    assert (Run : machine_run X doc cf (S fuel) (counter_at s j k) m = Ret (if r_success (check_one doc code sig pub) then result_of_bool true else result_of_error E_CHECKSIGVERIFY, m2, counter_at s j k)).
    { rewrite (step_counted OP_CHECKSIGVERIFY fuel k m _ _ _ Ek At eq_refl Oc). fold m1. change (exec_op X doc cf (counter_at s j k) OP_CHECKSIGVERIFY m1) with (op_checksig doc (counter_at s j k) true m1).
      rewrite E2. reflexivity. }
    destruct (r_success (check_one doc code sig pub)); cbn [one_outcome].
    + assert (A : accepts (S fuel) k m) by (exists m2, (counter_at s j k); exact Run). split; [right; auto|auto].
    + do 3 eexists. split; [exact Run|apply error_fails].
  - (* arguments that are refused *)
    assert (Ho : b2n OP_16 < b2n o) by (destruct O as [-> | ->]; reflexivity).
    destruct (N.leb_spec (m_ops m + 1) (c_max_ops cf)) as [Oc|Oc]; [|apply (refused_too_many o Refused fuel k m _ _ _ Ek At Ho Oc I)].
    cbn [one_outcome]. apply (Stopped o Ek Ho Oc). pose proof (refused_ops X doc cf (counter_at s j k) m1) as Q.
    change (s_main (m_stack m1)) with (s_main (m_stack m)) in Q. specialize (Q Sm). apply (refused_more cf (m_ops m1)) in Rf.
    destruct (multi_refused cf (m_ops m1) (s_main (m_stack m))) as [[[] er]|]; [| |contradiction].
    + destruct Q as [(m' & A) (m'' & A')]. destruct O as [-> | ->]; [exists er, m'|exists er, m'']; right; assumption.
    + destruct Q as [(m' & A) (m'' & A')]. destruct O as [-> | ->]; [exists er, m'|exists er, m'']; left; assumption.
  - (* a signature of several is an error *)
    assert (Ho : b2n OP_16 < b2n o) by (destruct O as [-> | ->]; reflexivity).
    destruct (N.leb_spec (m_ops m + 1) (c_max_ops cf)) as [Oc|Oc]; [|apply (refused_too_many o Refused fuel k m _ _ _ Ek At Ho Oc I)].
    cbn [one_outcome]. apply (Stopped o Ek Ho Oc). destruct (Multi _ _ _ _ _ Ly T Oc) as [(_ & A & A')|(_ & (m' & A) & (m'' & A'))].
    + destruct O as [-> | ->]; assumption.
    + destruct O as [-> | ->]; [exists er, m'|exists er, m'']; left; assumption.
  - (* the flags ask for empty elements *)
    assert (Ho : b2n OP_16 < b2n o) by (destruct O as [-> | ->]; reflexivity).
    destruct (N.leb_spec (m_ops m + 1) (c_max_ops cf)) as [Oc|Oc]; [|apply (refused_too_many o Refused fuel k m _ _ _ Ek At Ho Oc I)].
    cbn [one_outcome]. apply (Stopped o Ek Ho Oc). destruct (Multi _ _ _ _ _ Ly T Oc) as [(_ & A & A')|(_ & A & A')].
    + destruct O as [-> | ->]; assumption.
    + unfold nulls_wrong in Nw. unfold multi_end in A, A'.
      destruct (negb ok && has_flag FLAG_NULLFAIL (c_flags cf) && existsb (fun s0 => negb (len s0 =? 0)) sigs).
      * destruct A as (m' & A), A' as (m'' & A'). destruct O as [-> | ->]; [exists E_SIG_NULLFAIL, m'|exists E_SIG_NULLFAIL, m'']; left; assumption.
      * cbn [orb] in Nw. rewrite Nw in A, A'. destruct A as (m' & A), A' as (m'' & A').
        destruct O as [-> | ->]; [exists E_SIG_NULLDUMMY, m'|exists E_SIG_NULLDUMMY, m'']; left; assumption.
  - (* several signatures *)
    destruct (N.leb_spec (m_ops m + 1) (c_max_ops cf)) as [Oc|Oc]; [|apply (refused_too_many OP_CHECKMULTISIG _ fuel k m _ _ _ Ek At eq_refl Oc); lia].
    cbn [one_outcome]. destruct (Multi _ _ _ _ _ Ly T Oc) as [(O2 & A & _)|(O2 & A & _)].
    + split; [left; exact (Stopped _ Ek eq_refl Oc A)|]. intros. lia.
    + unfold nulls_wrong in Nw. apply orb_false_iff in Nw as [N1 N2]. unfold multi_end in A. rewrite N1, N2 in A. destruct A as (m2 & E2 & B2 & X2 & Y2 & P2).
      assert (Q : arrives X doc cf s lv (S fuel) j k m fuel j (S k) (sn_bool ok :: r) (s_alt (m_stack m)) (m_ops m + (1 + N.of_nat (length pubs)))).
      { split; [exact O2|]. exists m2. split.
        - apply Rest; [|exact X2|exact Y2|rewrite P2; change (m_ops m1) with (m_ops m + 1); lia]. destruct ok; exact B2.
        - rewrite (step_counted OP_CHECKMULTISIG fuel k m _ _ _ Ek At eq_refl Oc). fold m1. rewrite E2, (Sep _ Ek) by discriminate. reflexivity. }
      split; [right; exact Q|]. intros _ _. exact Q.
  - (* several signatures that are verified *)
    destruct (N.leb_spec (m_ops m + 1) (c_max_ops cf)) as [Oc|Oc].
    2:{ apply (refused_too_many OP_CHECKMULTISIGVERIFY _ fuel k m _ _ _ Ek At eq_refl Oc). destruct ok; [lia|exact I]. }
    destruct (Multi _ _ _ _ _ Ly T Oc) as [(O2 & _ & A)|(O2 & _ & A)].
    + pose proof (Stopped _ Ek eq_refl Oc A) as F. destruct ok; cbn [one_outcome]; [|exact F]. split; [left; exact F|]. intros. lia.
    + unfold nulls_wrong in Nw. apply orb_false_iff in Nw as [N1 N2]. unfold multi_end in A. rewrite N1, N2 in A. destruct A as (m2 & E2).
      assert (Run : machine_run X doc cf (S fuel) (counter_at s j k) m = Ret (if ok then result_of_bool true else result_of_error E_CHECKMULTISIGVERIFY, m2, counter_at s j k)).
      { rewrite (step_counted OP_CHECKMULTISIGVERIFY fuel k m _ _ _ Ek At eq_refl Oc). fold m1. rewrite E2. reflexivity. }
      destruct ok; cbn [one_outcome].
      * assert (Q : accepts (S fuel) k m) by (exists m2, (counter_at s j k); exact Run). split; [right; auto|auto].
      * do 3 eexists. split; [exact Run|apply error_fails].
  - (* lock times that are not asked for *)
    assert (Ho : b2n OP_16 < b2n o) by (destruct O as [-> | ->]; reflexivity).
    assert (Ex1 : exec_op X doc cf (counter_at s j k) o m1 = if has_flag FLAG_DISCOURAGE_NOPS (c_flags cf) then Stop (result_of_error E_DISCOURAGE_UPGRADABLE_NOPS) m1 else Val tt m1).
    { destruct O as [-> | ->]; [exact (proj1 (cltv_exact doc cf m1) Fl)|exact (proj1 (csv_exact doc cf m1) Fl)]. }
    destruct (N.leb_spec (m_ops m + 1) (c_max_ops cf)) as [Oc|Oc].
    2:{ apply (refused_too_many o _ fuel k m _ _ _ Ek At Ho Oc). destruct (has_flag FLAG_DISCOURAGE_NOPS (c_flags cf)); [exact I|lia]. }
    destruct (has_flag FLAG_DISCOURAGE_NOPS (c_flags cf)); cbn [one_outcome].
    + apply (Stopped o Ek Ho Oc). exists E_DISCOURAGE_UPGRADABLE_NOPS, m1. left. exact Ex1.
    + assert (Q : arrives X doc cf s lv (S fuel) j k m fuel j (S k) (s_main (m_stack m)) (s_alt (m_stack m)) (m_ops m + 1)).
      { apply (lock_arrives o fuel k m _ _ _ Ek At Ho Oc); [destruct O as [-> | ->]; discriminate|exact Ex1]. }
      split; [right; exact Q|]. intros _ _. exact Q.
  - assert (Ho : b2n OP_16 < b2n o) by (destruct O as [-> | ->]; reflexivity).
    destruct (N.leb_spec (m_ops m + 1) (c_max_ops cf)) as [Oc|Oc]; [|apply (refused_too_many o Refused fuel k m _ _ _ Ek At Ho Oc I)].
    cbn [one_outcome]. apply (Stopped o Ek Ho Oc). exists E_INVALID_STACK_OPERATION, m1. left.
    assert (Em0 : s_main (m_stack m) = []) by (first [exact Em|symmetry; assumption]).
    assert (Lo : forall K, locktime_outcome cf m1 K = Stop (result_of_error E_INVALID_STACK_OPERATION) m1).
    { intros K. unfold locktime_outcome. change (m_stack m1) with (m_stack m). rewrite Em0. reflexivity. }
    assert (Nil : minimal cf = true \/ Forall (fun b => ~ negative_zero b) (s_main (m_stack m1))) by (right; change (m_stack m1) with (m_stack m); rewrite Em0; constructor).
    destruct O as [-> | ->]; [exact (eq_trans (proj2 (cltv_exact doc cf m1) Fl Nil) (Lo _))|exact (eq_trans (proj2 (csv_exact doc cf m1) Fl Nil) (Lo _))].
  - (* lock times *)
    assert (Ho : b2n OP_16 < b2n o) by (destruct O as [-> | ->]; reflexivity).
    destruct (N.leb_spec (m_ops m + 1) (c_max_ops cf)) as [Oc|Oc].
    2:{ apply (refused_too_many o _ fuel k m _ _ _ Ek At Ho Oc). destruct (lock_good doc cf o x); [lia|exact I]. }
    assert (Em1 : s_main (m_stack m1) = x :: r) by (change (m_stack m1) with (m_stack m); first [exact Em|symmetry; assumption]).
    assert (Ex1 : if lock_good doc cf o x then exec_op X doc cf (counter_at s j k) o m1 = Val tt m1
      else exists r0 m0, r_verify r0 = false /\ (exec_op X doc cf (counter_at s j k) o m1 = Stop r0 m0 \/ exists e, r0 = result_of_error e /\ exec_op X doc cf (counter_at s j k) o m1 = Exc (X_script e) m0)).
    { unfold lock_good, lock_met. destruct O as [-> | ->].
      - change (exec_op X doc cf (counter_at s j k) OP_CHECKLOCKTIMEVERIFY m1) with (op_cltv doc cf m1). rewrite (cltv_top doc cf m1 x r Fl Em1 Nz).
        unfold locktime_outcome. rewrite Em1. change (byte_eqb OP_CHECKLOCKTIMEVERIFY OP_CHECKLOCKTIMEVERIFY) with true. cbv iota.
        destruct (N.ltb_spec 5 (len x)) as [L5|L5]; [replace (len x <=? 5) with false by lia|replace (len x <=? 5) with true by lia]; cbn [andb].
        { do 2 eexists. split; [apply (error_fails E_SCRIPTNUM_OVERFLOW)|]. right. exists E_SCRIPTNUM_OVERFLOW. split; reflexivity. }
        replace (minimal cf && negb (is_minimal_number x)) with (negb (negb (minimal cf) || is_minimal_number x)) by (destruct (minimal cf), (is_minimal_number x); reflexivity).
        destruct (negb (minimal cf) || is_minimal_number x); cbn [negb andb].
        2:{ do 2 eexists. split; [apply (error_fails E_SCRIPTNUM_MINENCODE)|]. right. exists E_SCRIPTNUM_MINENCODE. split; reflexivity. }
        destruct (Z.ltb_spec (sn_val x) 0) as [Lz|Lz]; [replace (0 <=? sn_val x)%Z with false by lia|replace (0 <=? sn_val x)%Z with true by lia]; cbn [andb].
        { do 2 eexists. split; [apply (error_fails E_NEGATIVE_LOCKTIME)|]. left. reflexivity. }
        destruct (match doc with None => true | Some d => d_locktime d (Z.to_N (sn_val x mod 2 ^ 32)) end); [reflexivity|].
        do 2 eexists. split; [apply (error_fails E_UNSATISFIED_LOCKTIME)|]. left. reflexivity.
      - change (exec_op X doc cf (counter_at s j k) OP_CHECKSEQUENCEVERIFY m1) with (op_csv doc cf m1). rewrite (csv_top doc cf m1 x r Fl Em1 Nz).
        unfold locktime_outcome. rewrite Em1. change (byte_eqb OP_CHECKSEQUENCEVERIFY OP_CHECKLOCKTIMEVERIFY) with false. cbv iota.
        destruct (N.ltb_spec 5 (len x)) as [L5|L5]; [replace (len x <=? 5) with false by lia|replace (len x <=? 5) with true by lia]; cbn [andb].
        { do 2 eexists. split; [apply (error_fails E_SCRIPTNUM_OVERFLOW)|]. right. exists E_SCRIPTNUM_OVERFLOW. split; reflexivity. }
        replace (minimal cf && negb (is_minimal_number x)) with (negb (negb (minimal cf) || is_minimal_number x)) by (destruct (minimal cf), (is_minimal_number x); reflexivity).
        destruct (negb (minimal cf) || is_minimal_number x); cbn [negb andb].
        2:{ do 2 eexists. split; [apply (error_fails E_SCRIPTNUM_MINENCODE)|]. right. exists E_SCRIPTNUM_MINENCODE. split; reflexivity. }
        destruct (Z.ltb_spec (sn_val x) 0) as [Lz|Lz]; [replace (0 <=? sn_val x)%Z with false by lia|replace (0 <=? sn_val x)%Z with true by lia]; cbn [andb].
        { do 2 eexists. split; [apply (error_fails E_NEGATIVE_LOCKTIME)|]. left. reflexivity. }
        cbv zeta. destruct (N.testbit (Z.to_N (sn_val x mod 2 ^ 32)) 31); cbn [negb andb].
        { exists (result_of_bool false), m1. split; [reflexivity|]. left. reflexivity. }
        destruct (match doc with None => true | Some d => d_sequence d (Z.to_N (sn_val x mod 2 ^ 32)) end); [reflexivity|].
        do 2 eexists. split; [apply (error_fails E_UNSATISFIED_LOCKTIME)|]. left. reflexivity. }
    destruct (lock_good doc cf o x); cbn [one_outcome].
    + assert (Q : arrives X doc cf s lv (S fuel) j k m fuel j (S k) (x :: r) (s_alt (m_stack m)) (m_ops m + 1)).
      { rewrite <- Em1. change (m_stack m1) with (m_stack m).
        apply (lock_arrives o fuel k m _ _ _ Ek At Ho Oc); [destruct O as [-> | ->]; discriminate|exact Ex1]. }
      split; [right; exact Q|]. intros _ _. exact Q.
    + destruct Ex1 as (r0 & m0 & V & Ex1). unfold fails. rewrite (step_counted o fuel k m _ _ _ Ek At Ho Oc). fold m1.
      destruct Ex1 as [-> | (er & -> & ->)]; do 3 eexists; (split; [reflexivity|exact V]).
Qed.

(* the whole of the instructions *)
Definition outcome_of (B : N) (e : progress) (fuel fuel' k k' : nat) (m : mstate) (n : N) : Prop :=
  match e with
  | Refused => fails X doc cf s fuel j k m
  | Satisfied x => (fails X doc cf s fuel j k m \/ accepts fuel k m /\ n + x <= c_max_ops cf) /\
      (ample B (limits_of cf) -> n + x <= c_max_ops cf -> accepts fuel k m)
  | Goes s' a' x => (fails X doc cf s fuel j k m \/ arrives X doc cf s lv fuel j k m fuel' j k' s' a' (n + x)) /\
      (ample B (limits_of cf) -> n + x <= c_max_ops cf -> arrives X doc cf s lv fuel j k m fuel' j k' s' a' (n + x))
  end.

Lemma runs_room_check B q s0 a0 e : check_runs X doc cf code B q s0 a0 e -> room s0 a0 <= B.
Proof. intros []; assumption. Qed.

Theorem check_straight B q s0 a0 e : B < 2 ^ 31 -> check_runs X doc cf code B q s0 a0 e -> forall k fuel m n rest, skipn k p = q ++ rest ->
  at_level lv cf m s0 a0 n -> n <= c_max_ops cf -> outcome_of B e (length q + fuel) fuel k (k + length q) m n.
Proof.
  intros LB. induction 1 as [s0 a0 A|i q s0 a0 s1 a1 x e A C H IH|i q s0 a0 A C|i q s0 a0 x A C]; intros k fuel m n rest Sk At On.
  - assert (Q : arrives X doc cf s lv (length (@nil instr) + fuel) j k m fuel j (k + length (@nil instr)) s0 a0 (n + 0)).
    { rewrite N.add_0_r. split; [assumption|]. exists m. split; [assumption|]. cbn [length]. rewrite Nat.add_0_r. reflexivity. }
    cbn [outcome_of]. split; [right; exact Q|]. intros _ _. exact Q.
  - cbn [app] in Sk. destruct (skipn_next p _ _ _ Sk) as [En Sk']. cbn [length Nat.add].
    destruct (check_one_step i (length q + fuel) k m s0 a0 n _ En At (room_small _ _ _ A LB) On C) as [T1 T2].
    replace (k + S (length q))%nat with (S k + length q)%nat by lia.
    assert (Next : forall m1, at_level lv cf m1 s1 a1 (n + x) -> n + x <= c_max_ops cf -> outcome_of B e (length q + fuel) fuel (S k) (S k + length q) m1 (n + x)).
    { intros m1 At1 N1. exact (IH (S k) fuel m1 (n + x) rest Sk' At1 N1). }
    assert (Fit : ample B (limits_of cf) -> fits (limits_of cf) s1 a1) by (intros Am; eapply room_fits; [exact Am|eapply runs_room_check; exact H]).
    set (g := (length q + fuel)%nat) in *. set (k2 := (S k + length q)%nat) in *.
    assert (Back : forall m1, machine_run X doc cf (S g) (counter_at s j k) m = machine_run X doc cf g (counter_at s j (S k)) m1 ->
      (fails X doc cf s g j (S k) m1 -> fails X doc cf s (S g) j k m) /\ (accepts g (S k) m1 -> accepts (S g) k m) /\
      (forall s' a' y, arrives X doc cf s lv g j (S k) m1 fuel j k2 s' a' y -> arrives X doc cf s lv (S g) j k m fuel j k2 s' a' y)).
    { intros m1 E. unfold fails, accepts, arrives. rewrite E. auto. }
    destruct e as [s' a' y| |y]; cbn [after outcome_of] in *; rewrite ?N.add_assoc.
    + split.
      * destruct T1 as [F|(N1 & m1 & At1 & E1)]; [now left|]. destruct (Back m1 E1) as (B1 & B2 & B3).
        destruct (Next m1 At1 N1) as [[F|F] _]; auto.
      * intros Am O. destruct (T2 (Fit Am) ltac:(lia)) as (N1 & m1 & At1 & E1). destruct (Back m1 E1) as (B1 & B2 & B3).
        apply B3. apply (proj2 (Next m1 At1 N1)); assumption.
    + destruct T1 as [F|(N1 & m1 & At1 & E1)]; [exact F|]. destruct (Back m1 E1) as (B1 & _). apply B1, Next; assumption.
    + split.
      * destruct T1 as [F|(N1 & m1 & At1 & E1)]; [now left|]. destruct (Back m1 E1) as (B1 & B2 & B3).
        destruct (Next m1 At1 N1) as [[F|[F O]] _]; auto.
      * intros Am O. destruct (T2 (Fit Am) ltac:(lia)) as (N1 & m1 & At1 & E1). destruct (Back m1 E1) as (B1 & B2 & B3).
        apply B2. apply (proj2 (Next m1 At1 N1)); assumption.
  - cbn [app] in Sk. destruct (skipn_next p _ _ _ Sk) as [En Sk']. cbn [length Nat.add outcome_of].
    exact (check_one_step i (length q + fuel) k m s0 a0 n _ En At (room_small _ _ _ A LB) On C).
  - cbn [app] in Sk. destruct (skipn_next p _ _ _ Sk) as [En Sk']. cbn [length Nat.add outcome_of].
    destruct (check_one_step i (length q + fuel) k m s0 a0 n _ En At (room_small _ _ _ A LB) On C) as [T1 T2]. split; [exact T1|]. intros _. exact T2.
Qed.

Lemma verdict_iff st : verdict cf st = result_of_bool true <-> exists top rest, st = top :: rest /\ nonzeroZ (sn_val top) = true /\ clean cf rest.
Proof.
  unfold verdict, clean. destruct st as [|x r].
  - split; [|intros (t & r & Q & _); discriminate]. destruct (_ && _); discriminate.
  - destruct (has_flag FLAG_CLEANSTACK (c_flags cf)); cbn [andb].
    + destruct r as [|y r].
      * cbn [length]. change (N.of_nat 1 =? 1) with true. cbn [negb]. destruct (nonzeroZ (sn_val x)) eqn:E; split; try discriminate.
        -- intros _. exists x, []. auto.
        -- intros _. reflexivity.
        -- intros (t & r & Q & T & _). assert (t = x) by congruence. subst. congruence.
      * replace (N.of_nat (length (x :: y :: r)) =? 1) with false by (cbn [length]; lia). cbn [negb]. split; [discriminate|].
        intros (t & r' & Q & _ & T). specialize (T eq_refl). subst. discriminate.
    + destruct (nonzeroZ (sn_val x)) eqn:E; split; try discriminate; try reflexivity.
      * intros _. exists x, r. split; [reflexivity|]. split; [assumption|discriminate].
      * intros (t & r' & Q & T & _). assert (t = x) by congruence. subst. congruence.
Qed.

Theorem check_verdict B q s0 a0 e k f m n : B < 2 ^ 31 -> check_runs X doc cf code B q s0 a0 e -> skipn k p = q -> (k + length q)%nat = length p ->
  at_level lv cf m s0 a0 n -> n <= c_max_ops cf ->
  (fails X doc cf s (length q + S f) j k m \/ accepts (length q + S f) k m /\ exists x, satisfied cf e x /\ n + x <= c_max_ops cf) /\
  (forall x, satisfied cf e x -> ample B (limits_of cf) -> n + x <= c_max_ops cf -> accepts (length q + S f) k m).
Proof.
  intros LB H Sk Kp At On. rewrite <- (app_nil_r q) in Sk. pose proof (check_straight B q s0 a0 e LB H k (S f) m n [] Sk At On) as O.
  assert (End : forall m1 s1 a1 x, at_level lv cf m1 s1 a1 x -> machine_run X doc cf (S f) (counter_at s j (k + length q)) m1 =
    Ret (verdict cf s1, m1, counter_at s j (k + length q))).
  { intros m1 s1 a1 x (_ & _ & M1 & _).
    assert (Ns : nth (k + length q) s [] = []) by (apply nth_overflow; rewrite (segments_length _ _ Hs); lia).
    assert (Es : step X doc cf (counter_at s j (k + length q)) m1 = Stop (verdict cf s1) m1).
    { unfold step. cbn [counter_at pc_next]. rewrite Ns, end_exact, M1. reflexivity. }
    rewrite (run_S X doc cf p s Hs L), Es. reflexivity. }
  destruct e as [s1 a1 x| |x]; cbn [outcome_of] in O.
  - destruct O as [O1 O2]. split.
    + destruct O1 as [F|(N1 & m1 & At1 & E1)]; [now left|]. specialize (End _ _ _ _ At1).
      destruct (r_verify (verdict cf s1)) eqn:V.
      * apply verify_true in V. right. split; [exists m1; eexists; rewrite E1, End, V; reflexivity|]. exists x. split; [|exact N1].
        right. apply verdict_iff in V as (t & r & -> & Q). exists t, r, a1. split; [reflexivity|exact Q].
      * left. do 3 eexists. split; [rewrite E1; exact End|exact V].
    + intros y [Sa|(t & r & a & Sa & Q)] Am O; [discriminate|]. assert (y = x) by congruence. assert (s1 = t :: r) by congruence. subst y s1.
      destruct (O2 Am O) as (N1 & m1 & At1 & E1). exists m1. eexists. rewrite E1, (End _ _ _ _ At1).
      replace (verdict cf (t :: r)) with (result_of_bool true); [reflexivity|]. symmetry. apply verdict_iff. exists t, r. auto.
  - split; [now left|]. intros y [Sa|(t & r & a & Sa & Q)]; discriminate.
  - destruct O as [O1 O2]. split.
    + destruct O1 as [F|[F N1]]; [now left|]. right. split; [exact F|]. exists x. split; [now left|exact N1].
    + intros y [Sa|(t & r & a & Sa & Q)] Am O; [|discriminate]. assert (y = x) by congruence. subst y. auto.
Qed.
End Script.
End Run.
