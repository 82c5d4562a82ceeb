From Verif Require Import Base BaseProofs WireModel WireProofs ScriptModel ScriptSpec ScriptProofs ProgramProofs NumModel NumSpec NumProofs ShiftProofs.
From Verif Require Import StackModel StackSpec StackProofs MachineModel MachineSpec MachineProofs FlowProofs SpendProofs.
From Verif Require Import WireSpec WorkModel WorkSpec WorkProofs PatternModel PatternSpec BoostModel BoostSpec BoostProofs BoostWrite.
From Verif Require Import StraightSpec StraightProofs StraightEval PayRunSpec PayRunProofs BoostRunSpec BoostRunSteps BoostRunProofs.
From Coq Require Import Lia ZifyBool ZifyNat ZifyN.
Ltac Zify.zify_post_hook ::= Z.div_mod_to_equations.
Local Open Scope N_scope.


Section Main.
Variable X : externals.
Variable cf : config.
Variable B : N.
Hypothesis Mn : 4 <= c_max_num cf.
Hypothesis St : standard X.

Lemma operand_fits n : fits_num cf n = true -> operand cf (sn_enc (Z.of_N n)) = Some (Z.of_N n).
Proof. unfold fits_num, operand. intros ->. rewrite sn_enc_minimal, sn_val_enc, orb_true_r. reflexivity. Qed.

Lemma hash160_step q x s a R : room (x :: s) a <= B -> runs X cf B q (hash160 X x :: s) a R -> runs X cf B (op_instr OP_HASH160 :: q) (x :: s) a R.
Proof. intros L H. on. exact H. Qed.

Definition end_check : program :=
  [op_instr OP_SWAP; op_instr OP_SIZE; op_instr x54; op_instr OP_EQUALVERIFY; op_instr OP_CAT;
   op_instr OP_FROMALTSTACK; op_instr OP_CAT;
   op_instr OP_SWAP; op_instr OP_SIZE; op_instr x54; op_instr OP_EQUALVERIFY; op_instr OP_CAT;
   op_instr OP_HASH256] ++ ensure_positive ++
  op_instr OP_FROMALTSTACK :: expand_target ++ ensure_positive ++
  [op_instr OP_LESSTHAN; op_instr OP_VERIFY;
   op_instr OP_DUP; op_instr OP_HASH160; op_instr OP_FROMALTSTACK; op_instr OP_EQUALVERIFY].
Lemma end_code_split : end_code = end_check ++ [op_instr OP_CHECKSIG].
Proof. reflexivity. Qed.

Definition end_result (p tb h : bytes) (r : list bytes) : option stacks :=
  match r with
  | ts :: n :: r' =>
      if (len ts =? 4) && (len n =? 4) && fits_num cf (le_val (hash256 X (((p ++ ts) ++ tb) ++ n))) && computable_b (le_val tb) &&
         fits_num cf (expand (le_val tb)) && (le_val (hash256 X (((p ++ ts) ++ tb) ++ n)) <? expand (le_val tb))
      then match r' with
           | key :: rest => if bytes_eqb (hash160 X key) h then Some (key :: rest, []) else None
           | [] => None
           end
      else None
  | _ => None
  end.
Lemma end_runs p tb h r : len tb = 4 -> len h <= B -> 2 * footprint r + len p + 2 * len h + 2000 <= B -> B < 2 ^ 31 ->
  runs X cf B end_check (p :: r) [tb; tb; h] (end_result p tb h r).
Proof.
  intros Lt Lh HB HB2. unfold end_check, end_result. cbn [app].
  destruct r as [|ts r]; [apply step_stop; try discriminate; try reflexivity; rm|]. on.
  assert (Lts : len ts < 2 ^ 31) by rm. pose proof (size_enc ts Lts). assert (S4 : len (sn_enc 4) = 1) by reflexivity.
  apply (check_size X cf B Mn) with (z := 4%Z); [rm|lia|reflexivity|reflexivity| |].
  2:{ intros Q. change (Z.to_N 4) with 4 in Q. destruct r; [reflexivity|]. replace (len ts =? 4) with false by lia. reflexivity. }
  intros Q. change (Z.to_N 4) with 4 in Q. on. on. on.
  destruct r as [|n r]; [apply step_stop; try discriminate; try reflexivity; rm|]. on.
  assert (Lns : len n < 2 ^ 31) by rm. pose proof (size_enc n Lns). replace (len ts =? 4) with true by lia. cbn [andb].
  apply (check_size X cf B Mn) with (z := 4%Z); [rm|lia|reflexivity|reflexivity| |].
  2:{ intros Qn. change (Z.to_N 4) with 4 in Qn. replace (len n =? 4) with false by lia. reflexivity. }
  intros Qn. change (Z.to_N 4) with 4 in Qn. replace (len n =? 4) with true by lia. cbn [andb]. on.
  apply (hash256_step X cf B Mn); [rm|]. pose proof (sha_len X St (((p ++ ts) ++ tb) ++ n)) as Lr. set (w := hash256 X _) in *.
  pose proof (positive_len w) as Lw.
  apply (positive_runs X cf B Mn); [rm| |intros ->; reflexivity]. intros F1. rewrite F1. cbn [andb]. on.
  assert (exists b0 b1 b2 b3, tb = [b0; b1; b2; b3]) as (b0 & b1 & b2 & b3 & ->).
  { destruct tb as [|b0 [|b1 [|b2 [|b3 [|]]]]]; try discriminate Lt; [eauto|]. unfold len in Lt. cbn [length] in Lt. lia. }
  apply (expand_runs X cf B Mn); [rm| |intros ->; reflexivity]. intros C. rewrite C. cbn [andb].
  assert (E32 : b2n b3 <= 32).
  { apply computable_b_iff in C as ((_ & C) & _). destruct (target_parts b0 b1 b2 b3) as (P1 & _). cbv zeta in P1. congruence. }
  pose proof (expanded_len cf Mn b0 b1 b2 b3 E32) as Le. pose proof (positive_len (expanded b0 b1 b2 b3)) as Lp.
  rewrite <- (expanded_val cf Mn b0 b1 b2 b3 C). set (t := expanded b0 b1 b2 b3) in *.
  apply (positive_runs X cf B Mn); [rm| |intros ->; reflexivity]. intros F2. rewrite F2. cbn [andb].
  eapply step_on; try discriminate; try reflexivity; [rm| |].
  { cbn [effect]. unfold compare, binary. cbn [with2]. rewrite !operand_fits by assumption. reflexivity. }
  replace (Z.of_N (le_val w) <? Z.of_N (le_val t))%Z with (le_val w <? le_val t) by lia.
  apply (verify_step X cf B Mn); [rm| |intros ->; reflexivity]. intros ->.
  destruct r as [|key r]; [apply step_stop; try discriminate; try reflexivity; rm|]. on.
  apply hash160_step; [rm|]. assert (L20 : len (hash160 X key) = 20) by apply St. on.
  assert (E : effect X cf OP_EQUALVERIFY (h :: hash160 X key :: key :: r) [] = if bytes_eqb (hash160 X key) h then Some (key :: r, []) else None) by reflexivity.
  destruct (bytes_eqb (hash160 X key) h).
  - eapply step_on; try exact E; try reflexivity; try discriminate; [rm|]. apply runs_end. rm.
  - apply step_stop; try exact E; try reflexivity; try discriminate. rm.
Qed.

Definition middle (bits : bool) : program := if bits then bits_code else plain_code.
Definition middle_result (bits : bool) := if bits then bits_result X else plain_result X.
Definition boost_check (o : output) : program :=
  [push boost_word; op_instr OP_DROP] ++
  (match bo_type o with Contract => [push (bo_hash o)] | _ => [] end) ++
  [push (sle 4 (bo_category o)); push (bo_content o); push (le 4 (bo_target o)); push (bo_tag o); push (le 4 (bo_nonce o)); push (bo_data o)] ++
  start_code ++ middle (bo_bits o) ++ end_check.
Lemma boost_check_program o : output_program o = boost_check o ++ [op_instr OP_CHECKSIG].
Proof. unfold output_program, code, boost_check, middle. rewrite end_code_split, !app_assoc. reflexivity. Qed.

Definition boost_result (o : output) (t : list bytes) : option stacks :=
  match t with
  | h :: r =>
      match middle_result (bo_bits o) (bo_tag o ++ h) (le 4 (bo_nonce o) ++ bo_data o) (le 4 (bo_target o)) (bo_content o) (sle 4 (bo_category o)) r
              [le 4 (bo_target o); h] with
      | Some (p :: r', _) => end_result p (le 4 (bo_target o)) h r'
      | _ => None
      end
  | [] => None
  end.
Definition given (o : output) (s : list bytes) : list bytes := match bo_type o with Contract => bo_hash o :: s | _ => s end.

Lemma boost_tail o t : len (bo_content o) = 32 -> 2 * footprint t + len (bo_tag o) + len (bo_data o) + 4000 <= B -> B < 2 ^ 31 ->
  runs X cf B (start_code ++ middle (bo_bits o) ++ end_check)
    (bo_data o :: le 4 (bo_nonce o) :: bo_tag o :: le 4 (bo_target o) :: bo_content o :: sle 4 (bo_category o) :: t) [] (boost_result o t).
Proof.
  intros Lc HB HB2. pose proof (len_le 4 (bo_nonce o)) as L1. pose proof (len_le 4 (bo_target o)) as L2. pose proof (len_sle 4 (bo_category o)) as L3.
  change (N.of_nat 4) with 4 in *.
  pose proof (start_runs X cf B Mn (bo_data o) _ (bo_tag o) _ (bo_content o) _ t L1 L2 Lc L3 ltac:(lia)) as R1.
  destruct t as [|h r]; [now apply runs_none|]. eapply runs_app; [exact R1|]. cbn [boost_result].
  set (nonce := le 4 (bo_nonce o)) in *. set (target := le 4 (bo_target o)) in *. set (category := sle 4 (bo_category o)) in *. rewrite footprint_cons in HB.
  assert (R2 : runs X cf B (middle (bo_bits o)) ((bo_tag o ++ h) :: (nonce ++ bo_data o) :: target :: bo_content o :: category :: r) [target; h]
    (middle_result (bo_bits o) (bo_tag o ++ h) (nonce ++ bo_data o) target (bo_content o) category r [target; h])).
  { unfold middle, middle_result. destruct (bo_bits o); [apply (bits_runs X cf B Mn St)|apply (plain_runs X cf B Mn St)]; try assumption; rm. }
  unfold middle_result in *. destruct (bo_bits o).
  - unfold bits_result in *. destruct r as [|bits [|e1 [|e2 r]]]; try (now apply runs_none).
    destruct (_ && _); [|now apply runs_none]. eapply runs_app; [exact R2|]. rewrite !footprint_cons in HB.
    assert (Lv : len (version_bytes category bits) = 4) by (unfold version_bytes; rewrite len_le; reflexivity).
    pose proof (sha_len X St (((bo_tag o ++ h) ++ e1) ++ e2 ++ nonce ++ bo_data o)) as Ls.
    apply end_runs; try assumption; [lia|]. rewrite !len_app, (sha_len X St). lia.
  - unfold plain_result in *. destruct r as [|e1 [|e2 r]]; try (now apply runs_none).
    destruct (_ && _); [|now apply runs_none]. eapply runs_app; [exact R2|]. rewrite !footprint_cons in HB.
    apply end_runs; try assumption; [lia|]. rewrite !len_app, (sha_len X St). lia.
Qed.

Lemma boost_runs o s : writable_output o -> 2 * footprint s + len (bo_tag o) + len (bo_data o) + 5000 <= B -> B < 2 ^ 31 ->
  runs X cf B (boost_check o) s [] (boost_result o (given o s)).
Proof.
  intros ((Lh & Hc & Lc & Ht & Hn) & Lt & Ld & Ty) HB HB2.
  pose proof (len_le 4 (bo_nonce o)) as L1. pose proof (len_le 4 (bo_target o)) as L2. pose proof (len_sle 4 (bo_category o)) as L3.
  change (N.of_nat 4) with 4 in *. assert (Lw : len boost_word = 8) by reflexivity.
  unfold boost_check. cbn [app]. apply step_push; [reflexivity|rm|]. on.
  assert (T : 2 * footprint (given o s) + len (bo_tag o) + len (bo_data o) + 4500 <= B).
  { unfold given. destruct (bo_type o); try lia. rewrite footprint_cons. lia. }
  assert (R : runs X cf B ([push (sle 4 (bo_category o)); push (bo_content o); push (le 4 (bo_target o)); push (bo_tag o); push (le 4 (bo_nonce o)); push (bo_data o)] ++
    start_code ++ middle (bo_bits o) ++ end_check) (given o s) [] (boost_result o (given o s))).
  { cbn [app]. change (2 ^ 31) with 2147483648 in *. repeat (apply step_push; [change (2 ^ 31) with 2147483648; lia|rm|]). apply boost_tail; [assumption|lia|assumption]. }
  unfold given in *. destruct (bo_type o); cbn [app] in *; try exact R.
  apply step_push; [rewrite Lh; reflexivity|rm|]. exact R.
Qed.
End Main.

(* ---- the output ---- *)
Section Spend.
Variable X : externals.
Variable doc : option rdoc.
Variable cf : config.
Variable neg1 : bytes.
Hypothesis St : standard X.
Hypothesis Cm : c_max_memory cf < 2 ^ 63.
Hypothesis Mn : 4 <= c_max_num cf.

(* what the check asks of the stack *)
Definition work_shown (o : output) (s : list bytes) (key : bytes) (tail : list bytes) : Prop :=
  exists hash bits extra1 extra2 timestamp nonce,
    s = (match bo_type o with Contract => [] | _ => [hash] end) ++ (if bo_bits o then [bits] else []) ++
        [extra1; extra2; timestamp; nonce; key] ++ tail /\
    (bo_type o = Contract -> hash = bo_hash o) /\
    (len extra1 = 4 /\ (if bo_bits o then len bits = 4 /\ len extra2 <= 32 else len extra2 = 8) /\ len timestamp = 4 /\ len nonce = 4) /\
    (computed_by cf (bo_target o) /\ le_val (hash256 X (raw_header X o hash bits extra1 extra2 timestamp nonce)) < expand (bo_target o)) /\
    hash160 X key = hash.

Lemma app4 {A} (a b c d e f : list A) : (a ++ b ++ c) ++ d ++ e ++ f = (((((a ++ b) ++ c) ++ d) ++ e) ++ f).
Proof. rewrite !app_assoc. reflexivity. Qed.
Lemma end_result_iff p tb h r key tail a : end_result X cf p tb h r = Some (key :: tail, a) <->
  a = [] /\ exists ts n, r = ts :: n :: key :: tail /\ len ts = 4 /\ len n = 4 /\ computable (le_val tb) /\
    le_val (hash256 X (((p ++ ts) ++ tb) ++ n)) < expand (le_val tb) /\ hash160 X key = h /\
    fits_num cf (le_val (hash256 X (((p ++ ts) ++ tb) ++ n))) = true /\ fits_num cf (expand (le_val tb)) = true.
Proof.
  split.
  - unfold end_result. destruct r as [|ts [|n r]]; try discriminate. destruct (_ && _) eqn:C; [|discriminate].
    destruct r as [|k r]; [discriminate|]. destruct (bytes_eqb _ h) eqn:E; [|discriminate]. intros Q. apply bytes_eqb_eq in E.
    assert (a = []) by congruence. assert (k = key) by congruence. assert (r = tail) by congruence. subst.
    split; [reflexivity|]. exists ts, n. rewrite !andb_true_iff in C. destruct C as (((((C1 & C2) & C3) & C4) & C5) & C6).
    apply computable_b_iff in C4. repeat (split; [first [reflexivity|assumption|lia]|]). assumption.
  - intros (-> & ts & n & -> & L1 & L2 & C & W & E & F1 & F2). unfold end_result. apply computable_b_iff in C. rewrite F1, F2, C.
    replace (len ts =? 4) with true by lia. replace (len n =? 4) with true by lia. replace (_ <? _) with true by lia. cbn [andb].
    rewrite E. replace (bytes_eqb h h) with true by (symmetry; now apply bytes_eqb_eq). reflexivity.
Qed.
Lemma header_shape (v c r t g n : bytes) : v ++ c ++ r ++ t ++ g ++ n = (((v ++ c ++ r) ++ t) ++ g) ++ n.
Proof. rewrite <- !app_assoc. reflexivity. Qed.
Lemma document_shape (a h e f n d : bytes) : a ++ h ++ e ++ f ++ n ++ d = ((((a ++ h) ++ e) ++ f) ++ n ++ d).
Proof. rewrite <- !app_assoc. reflexivity. Qed.

Lemma fits_iff n : fits_num cf n = true <-> n < 2 ^ (8 * c_max_num cf - 1).
Proof.
  unfold fits_num. rewrite N.leb_le. replace (2 ^ (8 * c_max_num cf - 1)) with (128 * pow256 (N.to_nat (c_max_num cf - 1))).
  - split.
    + intros L. destruct (sn_val_bound (sn_enc (Z.of_N n))) as [Q|Q].
      * rewrite sn_val_enc in Q. pose proof (pow256_mono (length (sn_enc (Z.of_N n)) - 1) (N.to_nat (c_max_num cf - 1)) ltac:(unfold len in L; lia)). lia.
      * assert (E : sn_val (sn_enc (Z.of_N n)) = 0%Z) by (rewrite Q; reflexivity). rewrite sn_val_enc in E.
        pose proof (pow256_pos (N.to_nat (c_max_num cf - 1))). lia.
    + intros L. pose proof (enc_half (Z.of_N n) (N.to_nat (c_max_num cf - 1)) ltac:(lia)). lia.
  - rewrite pow256_pow2. change 128 with (2 ^ 7). rewrite <- N.pow_add_r. f_equal. lia.
Qed.
Lemma shown_only o s key tail a : u32 (bo_target o) -> boost_result X cf o (given o s) = Some (key :: tail, a) -> work_shown o s key tail.
Proof.
  intros Ht Q. unfold boost_result in Q. destruct (given o s) as [|h r] eqn:G; [discriminate|].
  unfold middle_result in Q.
  assert (Hs : s = (match bo_type o with Contract => [] | _ => [h] end) ++ r /\ (bo_type o = Contract -> h = bo_hash o)).
  { unfold given in G. destruct (bo_type o); (split; [cbn [app]; congruence|congruence]). }
  destruct Hs as [Hs Hh]. unfold work_shown, raw_header. destruct (bo_bits o).
  - unfold bits_result in Q. destruct r as [|bits [|e1 [|e2 r]]]; try discriminate. destruct (_ && _) eqn:C; [|discriminate].
    apply end_result_iff in Q as (_ & ts & n & -> & L1 & L2 & Cp & W & E & _ & F2). rewrite !andb_true_iff in C. destruct C as ((C1 & C2) & C3).
    rewrite le4_val in Cp, W, F2 by assumption. apply fits_iff in F2. assert (Cb : computed_by cf (bo_target o)) by (split; assumption). rewrite <- header_shape, <- document_shape in W.
    exists h, bits, e1, e2, ts, n. split; [rewrite Hs; reflexivity|]. split; [assumption|]. split; [lia|]. split; [split; assumption|assumption].
  - unfold plain_result in Q. destruct r as [|e1 [|e2 r]]; try discriminate. destruct (_ && _) eqn:C; [|discriminate].
    apply end_result_iff in Q as (_ & ts & n & -> & L1 & L2 & Cp & W & E & _ & F2). rewrite !andb_true_iff in C. destruct C as (C1 & C2).
    rewrite le4_val in Cp, W, F2 by assumption. apply fits_iff in F2. assert (Cb : computed_by cf (bo_target o)) by (split; assumption). rewrite <- header_shape, <- document_shape in W.
    exists h, [], e1, e2, ts, n. split; [rewrite Hs; reflexivity|]. split; [assumption|]. split; [lia|]. split; [split; assumption|assumption].
Qed.
Lemma shown_result o s key tail : u32 (bo_target o) -> work_shown o s key tail -> boost_result X cf o (given o s) = Some (key :: tail, []).
Proof.
  intros Ht (h & bits & e1 & e2 & ts & n & Hs & Hh & (L1 & L2 & L3 & L4) & ((Cp & F2) & W) & E).
  assert (G : given o s = h :: (if bo_bits o then [bits] else []) ++ [e1; e2; ts; n; key] ++ tail).
  { unfold given. rewrite Hs. destruct (bo_type o); try reflexivity. rewrite Hh; reflexivity. }
  rewrite G. unfold boost_result, middle_result. unfold raw_header in W. rewrite header_shape, document_shape in W.
  destruct (bo_bits o); cbn [app].
  - unfold bits_result. replace (len e1 =? 4) with true by lia. replace (len e2 <=? 32) with true by lia. replace (len bits =? 4) with true by lia.
    cbn [andb]. apply end_result_iff. split; [reflexivity|]. exists ts, n. rewrite le4_val by assumption.
    repeat (split; [first [reflexivity|assumption]|]). split; apply fits_iff; [|assumption]. eapply N.lt_trans; [exact W|exact F2].
  - unfold plain_result. replace (len e1 =? 4) with true by lia. replace (len e2 =? 8) with true by lia.
    cbn [andb]. apply end_result_iff. split; [reflexivity|]. exists ts, n. rewrite le4_val by assumption.
    repeat (split; [first [reflexivity|assumption]|]). split; apply fits_iff; [|assumption]. eapply N.lt_trans; [exact W|exact F2].
Qed.

Definition fixed_part (o : output) : program := start_code ++ middle (bo_bits o) ++ end_check.
Definition field_data (o : output) : list bytes :=
  (match bo_type o with Contract => [bo_hash o] | _ => [] end) ++ [sle 4 (bo_category o); bo_content o; le 4 (bo_target o); bo_tag o; le 4 (bo_nonce o); bo_data o].
Lemma check_parts o : boost_check o = push boost_word :: op_instr OP_DROP :: map push (field_data o) ++ fixed_part o.
Proof.
  unfold boost_check, field_data, fixed_part. rewrite map_app. cbn [map app]. do 2 f_equal. rewrite <- app_assoc. f_equal. destruct (bo_type o); reflexivity.
Qed.
Lemma field_lens o : writable_output o -> Forall (fun d => len d < 2 ^ 31) (field_data o).
Proof.
  intros ((Lh & Hc & Lc & Ht & Hn) & Lt & Ld & Ty). change (2 ^ 31) with 2147483648 in *. unfold field_data. apply Forall_app. split.
  - destruct (bo_type o); repeat constructor. lia.
  - repeat constructor; rewrite ?len_le, ?len_sle; lia.
Qed.
Lemma fixed_written b : Forall written (start_code ++ middle b ++ end_check).
Proof.
  assert (E : Forall (fun i => written i) end_check).
  { unfold end_check, ensure_positive, expand_target. cbn [app]. written_ops; first [apply written_push; reflexivity|apply (written_push []); reflexivity]. }
  apply Forall_app. split; [unfold start_code; written_ops|]. apply Forall_app. split; [|exact E].
  unfold middle. destruct b; [unfold bits_code|unfold plain_code]; written_ops; apply written_push; reflexivity.
Qed.

Lemma boost_decompile o lx : writable_output o -> output_write o = Some lx -> len (bo_tag o) + len (bo_data o) + 6000 < 2 ^ 31 ->
  decompile lx = Ret (output_program o) /\ len lx <= len (bo_tag o) + len (bo_data o) + 400 /\ is_P2SH lx = false.
Proof.
  intros W E Len. assert (Wr : Forall written (output_program o)).
  { rewrite boost_check_program, check_parts. apply Forall_app. split; [|written_ops].
    apply Forall_cons; [apply written_push; reflexivity|]. written_ops. apply Forall_app. split; [|apply fixed_written].
    apply Forall_map. eapply Forall_impl; [|apply field_lens; assumption]. intros d Hd. now apply written_push. }
  pose proof (output_write_exact o W) as E'. assert (Elx : lx = output_bytes o (instr_write (push (bo_tag o))) (instr_write (push (bo_data o)))) by congruence.
  assert (L1 : len (instr_write (push (bo_tag o))) <= len (bo_tag o) + 5).
  { destruct W as (_ & Lt & _). pose proof (push_data_len _ Lt). destruct (push_inst _ Lt) as [Ip _]. pose proof (inst_len _ _ Ip). lia. }
  assert (L2 : len (instr_write (push (bo_data o))) <= len (bo_data o) + 5).
  { destruct W as (_ & _ & Lt & _). pose proof (push_data_len _ Lt). destruct (push_inst _ Lt) as [Ip _]. pose proof (inst_len _ _ Ip). lia. }
  assert (Lx : len lx <= len (bo_tag o) + len (bo_data o) + 400).
  { rewrite Elx. unfold output_bytes. destruct W as ((Lh & _ & Lc & _) & _). rewrite !len_app, !len_plain, !len_le, !len_sle, Lc.
    change (len boost_word) with 8. change (len [x75]) with 1. destruct (BoostWrite.check_size (bo_bits o)) as [_ ->].
    assert (Q : len (match bo_type o with Contract => plain_push (bo_hash o) | _ => [] end) <= 21).
    { destruct (bo_type o); try (vm_compute; discriminate). rewrite len_plain. lia. }
    destruct (bo_bits o); lia. }
  split; [|split; [assumption|]].
  - assert (Ep : lx = program_write (output_program o)) by (rewrite output_program_write; assumption).
    rewrite Ep. now apply written_decompile.
  - rewrite Elx. unfold output_bytes, plain_push, is_P2SH. change (n2b (len boost_word)) with x08. cbn [app nth]. change (byte_eqb x08 OP_HASH160) with false.
    rewrite !andb_false_r || rewrite !andb_false_l. reflexivity.
Qed.

Lemma check_well o : writable_output o -> well_pushed cf (boost_check o) <-> well_pushed cf [push (bo_tag o); push (bo_data o)].
Proof.
  intros W. assert (F : Forall (fun i => is_minimal_instruction i = true) (fixed_part o)).
  { rewrite Forall_forall. apply forallb_forall. unfold fixed_part, middle. destruct (bo_bits o); vm_compute; reflexivity. }
  destruct W as ((Lh & Hc & Lc & Ht & Hn) & Lt & Ld & Ty). rewrite check_parts. unfold well_pushed. split; intros H Fl; specialize (H Fl).
  - inversion H as [|? ? _ H1]; subst. inversion H1 as [|? ? _ H2]; subst. apply Forall_app in H2 as [H2 _]. rewrite Forall_forall in H2.
    assert (A : forall d, In d (field_data o) -> is_minimal_instruction (push d) = true) by (intros d Hd; apply H2, in_map, Hd).
    repeat constructor; apply A; unfold field_data; apply in_or_app; right; cbn [In]; tauto.
  - inversion H as [|? ? Ht' H1]; subst. inversion H1 as [|? ? Hd' _]; subst.
    apply Forall_cons; [reflexivity|]. apply Forall_cons; [reflexivity|]. apply Forall_app. split; [|exact F]. unfold field_data. rewrite map_app.
    assert (P : forall d, len d < 256 -> is_minimal_instruction (push d) = true) by (intros d Q; apply (push_well cf Cm); [change (2 ^ 31) with 2147483648|..]; lia).
    apply Forall_app. split; [destruct (bo_type o); repeat constructor; apply P; lia|].
    cbn [map]. repeat (apply Forall_cons; [first [assumption|apply P; rewrite ?len_le, ?len_sle; lia]|]). apply Forall_nil.
Qed.
Lemma ops_app p q : ops (p ++ q) = ops p ++ ops q.
Proof. apply map_app. Qed.
Lemma counted_app p q : counted (p ++ q) = counted p + counted q.
Proof. unfold counted. rewrite filter_app, app_length. lia. Qed.
Lemma pushes_program ds : Forall (fun d => len d < 2 ^ 31) ds -> is_push_program (map push ds) = true.
Proof.
  intros F. unfold is_push_program. rewrite forallb_forall. intros i Hi. apply in_map_iff in Hi as (d & <- & Hd). rewrite Forall_forall in F. apply push_is_push; auto.
Qed.
Lemma check_pure o : writable_output o -> forallb (fun q => negb (impure q)) (ops (boost_check o)) = true.
Proof.
  intros W. rewrite check_parts. cbn [ops map forallb]. change (map i_op (?a ++ ?b)) with (ops (a ++ b)). rewrite ops_app, forallb_app.
  change (negb (impure (i_op (push boost_word)))) with true. change (negb (impure (i_op (op_instr OP_DROP)))) with true. cbn [andb].
  apply andb_true_iff. split.
  - pose proof (pushes_program _ (field_lens o W)) as P. unfold is_push_program in P. rewrite forallb_forall in *. intros q Hq. unfold ops in Hq.
    apply in_map_iff in Hq as (i & <- & Hi). specialize (P i Hi). apply push_op_direct in P as (-> & _). reflexivity.
  - unfold fixed_part, middle. destruct (bo_bits o); vm_compute; reflexivity.
Qed.
Lemma check_counted o : writable_output o -> counted (ops (boost_check o)) <= 90.
Proof.
  intros W. rewrite check_parts. cbn [ops map]. change (map i_op (?a ++ ?b)) with (ops (a ++ b)). rewrite !counted_cons, ops_app, counted_app.
  rewrite counted_pushes by (apply pushes_program, field_lens; assumption).
  assert (counted (ops (fixed_part o)) <= 80) by (unfold fixed_part, middle; destruct (bo_bits o); vm_compute; discriminate).
  destruct (b2n OP_16 <? _); destruct (b2n OP_16 <? _); lia.
Qed.

Theorem boost_spends o lx ux u : writable_output o -> output_write o = Some lx -> decompile ux = Ret u -> is_push_program u = true ->
  70 * len ux + len (bo_tag o) + len (bo_data o) + len neg1 + 6000 < 2 ^ 31 ->
  (spends X doc cf neg1 ux lx -> boost_unlocked X doc cf o u) /\
  (enough cf (2 * footprint (stack_after u) + len (bo_tag o) + len (bo_data o) + 5000) 100 ->
   boost_unlocked X doc cf o u -> spends X doc cf neg1 ux lx).
Proof.
  intros W E Eu Pu Len. change (2 ^ 31) with 2147483648 in Len.
  destruct (boost_decompile o lx W E) as (El & Lx & P2); [change (2 ^ 31) with 2147483648; lia|]. destruct (standard_short X St) as [Tr Sh].
  pose proof (stack_room ux u Eu Pu) as Rm. set (B := 2 * footprint (stack_after u) + len (bo_tag o) + len (bo_data o) + 5000).
  assert (LB : B < 2 ^ 31) by (unfold B; change (2 ^ 31) with 2147483648; lia).
  pose proof (boost_runs X cf B Mn St o (stack_after u) W ltac:(unfold B; lia) LB) as R.
  rewrite boost_check_program in El.
  destruct (checksig_spends X doc cf neg1 Tr Sh Cm B ux lx u _ _ LB Eu Pu El (or_intror P2) ltac:(change (2 ^ 31) with 2147483648; lia) R) as [A1 A2].
  rewrite <- boost_check_program in A1, A2. assert (Ht : u32 (bo_target o)) by apply W. split.
  - intros Sp. destruct (A1 Sp) as (key & sig & rest & a & Er & Sg & Cl & Wp). apply well_pushed_app in Wp as [Wu Wp].
    rewrite boost_check_program in Wp. apply well_pushed_app in Wp as [Wp _]. apply (check_well o W) in Wp.
    destruct (shown_only o _ key (sig :: rest) a Ht Er) as (h & bits & e1 & e2 & ts & n & Hs & Hh & Hl & Hw & Hk).
    exists h, bits, e1, e2, ts, n, key, sig, rest. split; [exact Hs|]. auto 10.
  - intros [Am Oc] (h & bits & e1 & e2 & ts & n & key & sig & rest & Hs & Hh & Hl & Hw & Hk & Sg & Cl & Wu & Wp).
    apply (A2 key sig rest []); try assumption.
    + apply shown_result; [assumption|]. exists h, bits, e1, e2, ts, n. split; [exact Hs|]. auto.
    + apply well_pushed_app. split; [assumption|]. rewrite boost_check_program. apply well_pushed_app. split; [now apply (check_well o W)|].
      intros _. repeat constructor.
    + now apply check_pure.
    + pose proof (check_counted o W). lia.
Qed.

Theorem boost_protected o lx ux : has_flag FLAG_SIGPUSHONLY (c_flags cf) = true -> writable_output o -> output_write o = Some lx ->
  70 * len ux + len (bo_tag o) + len (bo_data o) + len neg1 + 6000 < 2 ^ 31 -> spends X doc cf neg1 ux lx ->
  exists u, decompile ux = Ret u /\ is_push_program u = true /\ boost_unlocked X doc cf o u.
Proof.
  intros F W E Len Sp. destruct (boost_decompile o lx W E) as (_ & Lx & _); [lia|].
  destruct (push_only X doc cf neg1 ux lx F ltac:(lia) Sp) as (u & Eu & Pu).
  exists u. repeat (split; [assumption|]). apply (boost_spends o lx ux u W E Eu Pu Len). exact Sp.
Qed.
End Spend.
