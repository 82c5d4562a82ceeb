From Verif Require Import Base BaseProofs WireModel WireProofs ScriptModel ScriptSpec ScriptProofs ProgramProofs NumModel NumSpec NumProofs.
From Verif Require Import StackModel StackSpec StackProofs MachineModel MachineSpec MachineProofs FlowProofs SpendProofs.
From Verif Require Import WireSpec WorkModel WorkSpec WorkProofs PatternModel PatternSpec BoostModel BoostSpec.
From Verif Require Import StraightSpec StraightProofs StraightEval PayRunSpec PayRunProofs BoostRunSpec.
From Coq Require Import Lia ZifyBool ZifyNat ZifyN.
Ltac Zify.zify_post_hook ::= Z.div_mod_to_equations.
Local Open Scope N_scope.

(* ---- operands ---- *)

Lemma enc_eq x z : bytes_eqb (sn_enc x) (sn_enc z) = (x =? z)%Z.
Proof.
  destruct (Z.eqb_spec x z) as [->|N]; [now apply bytes_eqb_eq|]. apply not_true_is_false. intros Q. apply bytes_eqb_eq in Q.
  apply N. rewrite <- (sn_val_enc x), <- (sn_val_enc z), Q. reflexivity.
Qed.
Lemma size_is x k : (0 <= k)%Z -> bytes_eqb (sn_enc (Z.of_nat (length x))) (sn_enc k) = (len x =? Z.to_N k).
Proof. intros K. rewrite enc_eq. unfold len. lia. Qed.

Lemma enc_half z k : Z.abs_N z < 128 * pow256 k -> len (sn_enc z) <= N.of_nat k + 1.
Proof.
  intros H. unfold len. rewrite sn_enc_length. destruct (Z.eq_dec z 0) as [->|Nz]; [vm_compute sn_size; lia|].
  destruct (sn_size_pos z Nz) as (m & E & _ & L). rewrite E. destruct (Nat.le_gt_cases m k) as [|G]; [lia|].
  destruct m as [|m]; [lia|]. specialize (L m eq_refl). pose proof (pow256_mono k m ltac:(lia)). lia.
Qed.
Lemma size_enc (x : bytes) : len x < 2 ^ 31 -> len (sn_enc (Z.of_nat (length x))) <= 4.
Proof.
  intros L. pose proof (enc_half (Z.of_nat (length x)) 3) as E. change (128 * pow256 3) with (2 ^ 31) in E. unfold len in L.
  specialize (E ltac:(lia)). lia.
Qed.
Lemma small_enc k : k < 128 -> len (sn_enc (Z.of_N k)) <= 1.
Proof. intros K. pose proof (enc_half (Z.of_N k) 0) as E. change (128 * pow256 0) with 128 in E. specialize (E ltac:(lia)). lia. Qed.
Lemma small_op o k : k < 17 -> 0 < k -> o = n2b (80 + k) -> is_push_op o = true /\ pushed_by (op_instr o) = sn_enc (Z.of_N k).
Proof.
  intros K K0 ->. assert (C : In k [1;2;3;4;5;6;7;8;9;10;11;12;13;14;15;16]) by (cbn [In]; lia).
  repeat (destruct C as [<-|C]; [split; reflexivity|]). destruct C.
Qed.

Section Steps.
Variable X : externals.
Variable cf : config.
Variable B : N.
Hypothesis Mn : 4 <= c_max_num cf.

Lemma operand_small d : len d <= 4 -> is_minimal_number d = true -> operand cf d = Some (sn_val d).
Proof. intros L M. unfold operand. rewrite M, orb_true_r. replace (len d <=? c_max_num cf) with true by lia. reflexivity. Qed.
Lemma operand_enc z : len (sn_enc z) <= 4 -> operand cf (sn_enc z) = Some z.
Proof. intros L. rewrite operand_small; [now rewrite sn_val_enc|assumption|apply sn_enc_minimal]. Qed.
Lemma index_small k m : len (sn_enc (Z.of_N k)) <= 4 -> index cf (sn_enc (Z.of_N k)) m = if k <=? m then Some k else None.
Proof.
  intros L. unfold index. rewrite operand_enc by assumption. replace (0 <=? Z.of_N k)%Z with true by lia. cbn [andb].
  replace (Z.of_N k <=? Z.of_N m)%Z with (k <=? m) by lia. rewrite N2Z.id. reflexivity.
Qed.

(* opcodes that take a position *)
Lemma step_pos o q z s a s' a' R : room (sn_enc z :: s) a <= B -> impure o = false -> o <> OP_CODESEPARATOR -> 0x4e < b2n o -> positions o = 1%nat ->
  effect X cf o (sn_enc z :: s) a = Some (s', a') -> runs X cf B q s' a' R -> runs X cf B (op_instr o :: q) (sn_enc z :: s) a R.
Proof.
  intros L I C K P E H. eapply runs_on; [assumption| | |exact H].
  - split; [assumption|]. split; [assumption|]. intros _. right. cbn [op_instr i_op]. rewrite P. cbn [firstn]. constructor; [|constructor].
    apply minimal_no_nz, sn_enc_minimal.
  - unfold instr_effect. cbn [op_instr i_op]. change (b2n OP_PUSHDATA4) with 78. replace (b2n o <=? 78) with false by lia. exact E.
Qed.
Lemma stop_pos o q z s a : room (sn_enc z :: s) a <= B -> impure o = false -> o <> OP_CODESEPARATOR -> 0x4e < b2n o -> positions o = 1%nat ->
  effect X cf o (sn_enc z :: s) a = None -> runs X cf B (op_instr o :: q) (sn_enc z :: s) a None.
Proof.
  intros L I C K P E. apply runs_stop; [assumption| |].
  - split; [assumption|]. split; [assumption|]. intros _. right. cbn [op_instr i_op]. rewrite P. cbn [firstn]. constructor; [|constructor].
    apply minimal_no_nz, sn_enc_minimal.
  - unfold instr_effect. cbn [op_instr i_op]. change (b2n OP_PUSHDATA4) with 78. replace (b2n o <=? 78) with false by lia. exact E.
Qed.

(* a small number, then ROLL or PICK *)
Lemma roll_effect k s a : len (sn_enc (Z.of_N k)) <= 4 ->
  effect X cf OP_ROLL (sn_enc (Z.of_N k) :: s) a =
  match nth_error s (N.to_nat k) with Some x => Some (x :: firstn (N.to_nat k) s ++ skipn (N.to_nat k + 1) s, a) | None => None end.
Proof.
  intros L. cbn [effect with1]. rewrite index_small by assumption. destruct (N.leb_spec k (N.of_nat (length s))); [reflexivity|].
  assert (E : nth_error s (N.to_nat k) = None) by (apply nth_error_None; lia). rewrite E. reflexivity.
Qed.
Lemma pick_effect k s a : len (sn_enc (Z.of_N k)) <= 4 ->
  effect X cf OP_PICK (sn_enc (Z.of_N k) :: s) a = match nth_error s (N.to_nat k) with Some x => Some (x :: s, a) | None => None end.
Proof.
  intros L. cbn [effect with1]. rewrite index_small by assumption. destruct (N.leb_spec k (N.of_nat (length s))); [reflexivity|].
  assert (E : nth_error s (N.to_nat k) = None) by (apply nth_error_None; lia). rewrite E. reflexivity.
Qed.
Lemma step_num o k q s a R : room s a <= B -> is_push_op o = true -> pushed_by (op_instr o) = sn_enc (Z.of_N k) ->
  runs X cf B q (sn_enc (Z.of_N k) :: s) a R -> runs X cf B (op_instr o :: q) s a R.
Proof. intros L P E H. apply runs_push; [exact P|assumption|]. rewrite E. exact H. Qed.

(* SIZE n EQUALVERIFY *)
Lemma check_size n z q x s a R : room (x :: s) a + 64 + len (sn_enc (Z.of_nat (length x))) + len (sn_enc z) <= B -> (0 <= z)%Z ->
  is_push_op (i_op n) = true -> pushed_by n = sn_enc z ->
  (len x = Z.to_N z -> runs X cf B q (x :: s) a R) -> (len x <> Z.to_N z -> R = None) ->
  runs X cf B (op_instr OP_SIZE :: n :: op_instr OP_EQUALVERIFY :: q) (x :: s) a R.
Proof.
  intros L Z0 P E H1 H2. unfold room in L. rewrite footprint_cons in L.
  eapply step_on; try reflexivity; try discriminate. { unfold room. rewrite footprint_cons. lia. }
  apply runs_push; [assumption|unfold room; rewrite !footprint_cons; lia|]. rewrite E.
  assert (Ee : effect X cf OP_EQUALVERIFY (sn_enc z :: sn_enc (Z.of_nat (length x)) :: x :: s) a =
    if len x =? Z.to_N z then Some (x :: s, a) else None).
  { cbn [effect with2]. rewrite size_is by assumption. reflexivity. }
  assert (Rm : room (sn_enc z :: sn_enc (Z.of_nat (length x)) :: x :: s) a <= B) by (unfold room; rewrite !footprint_cons; lia).
  destruct (N.eqb_spec (len x) (Z.to_N z)) as [Q|Q].
  - eapply step_on; try exact Ee; try reflexivity; try discriminate; [exact Rm|]. auto.
  - rewrite (H2 Q). apply step_stop; try exact Ee; try reflexivity; try discriminate. exact Rm.
Qed.

Lemma roll_step o k q s a x R : room s a + 34 <= B -> o = n2b (80 + N.of_nat k) -> (0 < k < 17)%nat -> nth_error s (k) = Some x ->
  runs X cf B q (x :: firstn (k) s ++ skipn (k + 1) s) a R ->
  runs X cf B (op_instr o :: op_instr OP_ROLL :: q) s a R.
Proof.
  intros L Eo K E H. destruct (small_op o (N.of_nat k) ltac:(lia) ltac:(lia) Eo) as [P1 P2]. pose proof (small_enc (N.of_nat k) ltac:(lia)).
  eapply step_num; [lia|exact P1|exact P2|]. eapply step_pos; try reflexivity; try discriminate.
  - unfold room in *. rewrite footprint_cons. lia.
  - rewrite roll_effect by lia. rewrite !Nat2N.id. rewrite E. reflexivity.
  - exact H.
Qed.
Lemma roll_stop o k q s a : room s a + 34 <= B -> o = n2b (80 + N.of_nat k) -> (0 < k < 17)%nat -> nth_error s (k) = None ->
  runs X cf B (op_instr o :: op_instr OP_ROLL :: q) s a None.
Proof.
  intros L Eo K E. destruct (small_op o (N.of_nat k) ltac:(lia) ltac:(lia) Eo) as [P1 P2]. pose proof (small_enc (N.of_nat k) ltac:(lia)).
  eapply step_num; [lia|exact P1|exact P2|]. apply stop_pos; try reflexivity; try discriminate.
  - unfold room in *. rewrite footprint_cons. lia.
  - rewrite roll_effect by lia. rewrite !Nat2N.id. rewrite E. reflexivity.
Qed.
Lemma pick_step o k q s a x R : room s a + 34 <= B -> o = n2b (80 + N.of_nat k) -> (0 < k < 17)%nat -> nth_error s (k) = Some x ->
  runs X cf B q (x :: s) a R -> runs X cf B (op_instr o :: op_instr OP_PICK :: q) s a R.
Proof.
  intros L Eo K E H. destruct (small_op o (N.of_nat k) ltac:(lia) ltac:(lia) Eo) as [P1 P2]. pose proof (small_enc (N.of_nat k) ltac:(lia)).
  eapply step_num; [lia|exact P1|exact P2|]. eapply step_pos; try reflexivity; try discriminate.
  - unfold room in *. rewrite footprint_cons. lia.
  - rewrite pick_effect by lia. rewrite !Nat2N.id. rewrite E. reflexivity.
  - exact H.
Qed.
End Steps.

Ltac rm := unfold room in *; repeat rewrite footprint_cons in *; repeat rewrite footprint_nil in *; repeat rewrite len_app in *; lia.
Ltac on := eapply step_on; try reflexivity; try discriminate; [rm|].

Section Pieces.
Variable X : externals.
Variable cf : config.
Variable B : N.
Hypothesis Mn : 4 <= c_max_num cf.
Hypothesis St : standard X.

Lemma start_runs data nonce tag target content category t : len nonce = 4 -> len target = 4 -> len content = 32 -> len category = 4 ->
  2 * footprint t + len data + len tag + 2000 <= B ->
  runs X cf B start_code (data :: nonce :: tag :: target :: content :: category :: t) []
    match t with
    | h :: r => Some ((tag ++ h) :: (nonce ++ data) :: target :: content :: category :: r, [target; h])
    | [] => None
    end.
Proof.
  intros L1 L2 L3 L4 HB. unfold start_code. on. on. destruct t as [|h r].
  - apply (roll_stop X cf B Mn x55 5%nat); try reflexivity; rm.
  - eapply (roll_step X cf B Mn x55 5%nat); try reflexivity; [rm|lia|]. cbn [firstn skipn app Nat.add].
    on. on. on. eapply (pick_step X cf B Mn x52 2%nat); try reflexivity; [rm|lia|]. on. apply runs_end. rm.
Qed.
End Pieces.
