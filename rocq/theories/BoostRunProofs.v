From Verif Require Import Base BaseProofs WireModel WireProofs ScriptModel ScriptSpec ScriptProofs ProgramProofs NumModel NumSpec NumProofs ShiftProofs.
From Verif Require Import StackModel StackSpec StackProofs MachineModel MachineSpec MachineProofs FlowProofs SpendProofs.
From Verif Require Import WireSpec WorkModel WorkSpec WorkProofs PatternModel PatternSpec BoostModel BoostSpec.
From Verif Require Import StraightSpec StraightProofs StraightEval PayRunSpec PayRunProofs BoostRunSpec BoostRunSteps.
From Coq Require Import Lia ZifyBool ZifyNat ZifyN.
Ltac Zify.zify_post_hook ::= Z.div_mod_to_equations.
Local Open Scope N_scope.

Lemma mask_bytes : sle 4 boost_mask = le 4 0xE0001FFF.
Proof. reflexivity. Qed.
Lemma unmask_bytes : complement (le 4 0xE0001FFF) = le 4 0x1FFFE000.
Proof. reflexivity. Qed.
Lemma land_bound x m k : m < 2 ^ k -> N.land x m < 2 ^ k.
Proof.
  intros H. destruct (N.eq_dec (N.land x m) 0) as [->|Nz]; [lia|]. assert (Hm : m <> 0) by (intros ->; rewrite N.land_0_r in Nz; lia).
  apply N.log2_lt_pow2; [lia|]. apply N.log2_lt_pow2 in H; [|lia]. pose proof (N.log2_land x m). lia.
Qed.
Lemma land_le4 x m : m < 2 ^ 32 -> le_val (le 4 (N.land x m)) = N.land x m.
Proof. intros H. rewrite le_val_le. apply N.mod_small. change (pow256 4) with (2 ^ 32). now apply land_bound. Qed.
Lemma version_combine c b : length c = 4%nat -> length b = 4%nat ->
  combine N.lor (combine N.land c (le 4 0xE0001FFF)) (combine N.land b (complement (le 4 0xE0001FFF))) = version_bytes c b.
Proof.
  intros Lc Lb. rewrite unmask_bytes. unfold combine. rewrite le_length, Lc, Lb. change (le_val (le 4 0xE0001FFF)) with 0xE0001FFF.
  change (le_val (le 4 0x1FFFE000)) with 0x1FFFE000. rewrite !land_le4 by reflexivity. reflexivity.
Qed.

Lemma positive_val x : sn_val (x ++ [x00]) = Z.of_N (le_val x).
Proof. rewrite sn_val_snoc. change (b2n x00) with 0. cbn [N.leb]. change (128 <=? 0) with false. cbv iota. f_equal. lia. Qed.
Lemma positive_len x : len (sn_enc (Z.of_N (le_val x))) <= len x + 1.
Proof. pose proof (enc_len (Z.of_N (le_val x)) (length x)) as E. pose proof (le_val_bound x). specialize (E ltac:(lia)). unfold len in *. lia. Qed.
Definition computable_b (t : N) : bool := (3 <=? exponent_of t) && (exponent_of t <=? 32) && negb (negative t) && (0 <? mantissa_of t).
Lemma computable_b_iff t : computable_b t = true <-> computable t.
Proof. unfold computable_b, computable. destruct (negative t); lia. Qed.

Lemma be_val_app x y : be_val (x ++ y) = be_val x * pow256 (length y) + be_val y.
Proof. unfold be_val. rewrite rev_app_distr, le_val_app, rev_length. lia. Qed.
Lemma rev_repeat0 k : rev (repeat x00 k) = repeat x00 k.
Proof.
  induction k as [|k IH]; [reflexivity|]. cbn [repeat rev]. rewrite IH. clear. induction k as [|k IH]; [reflexivity|]. cbn [repeat app]. now rewrite IH.
Qed.
Lemma be_val_repeat0 k : be_val (repeat x00 k) = 0.
Proof. unfold be_val. rewrite rev_repeat0. apply le_val_repeat0. Qed.
Lemma shift_bytes x n k : (k <= n)%nat -> shr_bits (x ++ repeat x00 n) (8 * N.of_nat k) = repeat x00 k ++ x ++ repeat x00 (n - k).
Proof.
  intros L. unfold shr_bits. apply be_val_inj; [rewrite be_length, !app_length, !repeat_length; lia|].
  rewrite be_val_be, !be_val_app, !be_val_repeat0, !repeat_length, <- pow256_pow2.
  assert (E : pow256 n = pow256 (n - k) * pow256 k) by (unfold pow256; rewrite <- N.pow_add_r; f_equal; lia).
  rewrite E, !N.add_0_r, N.mul_0_l, N.add_0_l, N.mul_assoc, N.div_mul by (pose proof (pow256_pos k); lia).
  apply N.mod_small. rewrite app_length, repeat_length. pose proof (be_val_bound x). pose proof (pow256_pos (n - k)).
  apply N.lt_le_trans with (pow256 (length x) * pow256 (n - k)); [nia|].
  unfold pow256. rewrite <- N.pow_add_r. apply N.pow_le_mono_r; lia.
Qed.

(* the bytes of a target *)
Lemma target_parts b0 b1 b2 b3 : let t := le_val [b0; b1; b2; b3] in
  exponent_of t = b2n b3 /\ negative t = (128 <=? b2n b2) /\ (b2n b2 < 128 -> mantissa_of t = le_val [b0; b1; b2]) /\
  (b2n b2 < 128 -> sn_val [b0; b1; b2] = Z.of_N (le_val [b0; b1; b2])) /\ (128 <= b2n b2 -> (sn_val [b0; b1; b2] <= 0)%Z).
Proof.
  cbv zeta. pose proof (b2n_lt b0). pose proof (b2n_lt b1). pose proof (b2n_lt b2). pose proof (b2n_lt b3).
  assert (E : le_val [b0; b1; b2; b3] = le_val [b0; b1; b2] + 16777216 * b2n b3) by (cbn [le_val]; lia).
  assert (E3 : le_val [b0; b1; b2] = b2n b0 + 256 * b2n b1 + 65536 * b2n b2) by (cbn [le_val]; lia).
  assert (E2 : le_val [b0; b1] = b2n b0 + 256 * b2n b1) by (cbn [le_val]; lia).
  change [b0; b1; b2] with ([b0; b1] ++ [b2]) in *. rewrite !sn_val_snoc. change ([b0; b1] ++ [b2]) with [b0; b1; b2] in *.
  change (pow256 (length [b0; b1])) with 65536. rewrite E, E2.
  unfold exponent_of, negative, mantissa_of. change (2 ^ 24) with 16777216. change (2 ^ 23) with 8388608.
  split; [lia|]. split.
  { replace ((le_val [b0; b1; b2] + 16777216 * b2n b3) / 8388608) with (b2n b2 / 128 + 2 * b2n b3) by lia.
    rewrite N.odd_add_mul_2. assert (C : b2n b2 / 128 = 0 \/ b2n b2 / 128 = 1) by lia. destruct C as [C|C]; rewrite C; [change (N.odd 0) with false|change (N.odd 1) with true]; clear - C; lia. }
  split; [lia|]. destruct (N.leb_spec 128 (b2n b2)); lia.
Qed.
Lemma one_byte b : sn_val [b] = if 128 <=? b2n b then (- Z.of_N (b2n b - 128))%Z else Z.of_N (b2n b).
Proof.
  change [b] with ([] ++ [b]). rewrite sn_val_snoc. change (pow256 (length [])) with 1. change (le_val []) with 0. pose proof (b2n_lt b).
  destruct (128 <=? b2n b); f_equal; lia.
Qed.
Lemma one_byte_minimal b : 0 < b2n b < 128 -> sn_enc (Z.of_N (b2n b)) = [b].
Proof.
  intros H. symmetry. apply sn_enc_unique; [rewrite one_byte; replace (128 <=? b2n b) with false by lia; reflexivity|lia|].
  cbn [length]. symmetry. apply sn_size_unique; [lia|change (pow256 0) with 1; lia|discriminate].
Qed.

Section Pieces.
Variable X : externals.
Variable cf : config.
Variable B : N.
Hypothesis Mn : 4 <= c_max_num cf.
Hypothesis St : standard X.

Lemma check_most n q x s a R : len x < 2 ^ 31 -> room (x :: s) a + 100 <= B -> n < 128 ->
  (len x <= n -> runs X cf B q (x :: s) a R) -> (n < len x -> R = None) ->
  runs X cf B (op_instr OP_SIZE :: push_int (Z.of_N n) :: op_instr OP_LESSTHANOREQUAL :: op_instr OP_VERIFY :: q) (x :: s) a R.
Proof.
  intros Lx L Hn H1 H2. pose proof (small_enc n Hn) as Ln.
  pose proof (size_enc x Lx) as Ls.
  on. unfold push_int. apply step_push; [change (2 ^ 31) with 2147483648; lia|rm|].
  eapply step_on; try discriminate; try reflexivity; [rm| |].
  { cbn [effect]. unfold compare, binary. cbn [with2]. rewrite !operand_enc by (assumption || lia). reflexivity. }
  replace (Z.of_nat (length x) <=? Z.of_N n)%Z with (len x <=? n) by (unfold len; lia).
  assert (Rm : room (sn_enc (if len x <=? n then 1 else 0) :: x :: s) a <= B).
  { assert (len (sn_enc (if len x <=? n then 1 else 0)) <= 1) by (destruct (len x <=? n); vm_compute; discriminate). rm. }
  destruct (N.leb_spec (len x) n) as [Q|Q].
  - eapply step_on; try discriminate; try reflexivity; [exact Rm|]. apply H1. lia.
  - rewrite (H2 Q). apply step_stop; try discriminate; try reflexivity. exact Rm.
Qed.

Lemma sha_len b : len (hash256 X b) = 32.
Proof. apply St. Qed.

Lemma hash256_step q x s a R : room (x :: s) a <= B -> runs X cf B q (hash256 X x :: s) a R -> runs X cf B (op_instr OP_HASH256 :: q) (x :: s) a R.
Proof. intros L H. on. exact H. Qed.
Lemma bitwise_step o f q x y s a R : room (y :: x :: s) a <= B -> impure o = false -> o <> OP_CODESEPARATOR -> positional o = false -> 0x4e < b2n o ->
  (forall s a, effect X cf o s a = bitwise s a f) -> (len x = len y -> runs X cf B q (f x y :: s) a R) -> (len x <> len y -> R = None) ->
  runs X cf B (op_instr o :: q) (y :: x :: s) a R.
Proof.
  intros L I1 I2 I3 I4 E H1 H2. destruct (N.eqb_spec (len x) (len y)) as [Q|Q].
  - eapply step_on; try assumption; [rewrite E; unfold bitwise, with2; replace (len x =? len y) with true by lia; reflexivity|]. auto.
  - rewrite (H2 Q). apply step_stop; try assumption. rewrite E. unfold bitwise, with2. replace (len x =? len y) with false by lia. reflexivity.
Qed.
Definition bits_result (th nd target content category : bytes) (r a : list bytes) : option stacks :=
  match r with
  | bits :: e1 :: e2 :: r' =>
      if (len e1 =? 4) && (len e2 <=? 32) && (len bits =? 4)
      then Some ((version_bytes category bits ++ content ++ hash256 X (((th ++ e1) ++ e2) ++ nd)) :: r', target :: a) else None
  | _ => None
  end.
Lemma bits_runs th nd target content category r a : len target = 4 -> len content = 32 -> len category = 4 ->
  2 * footprint r + footprint a + len th + len nd + 2000 <= B -> B < 2 ^ 31 ->
  runs X cf B bits_code (th :: nd :: target :: content :: category :: r) a (bits_result th nd target content category r a).
Proof.
  intros L1 L2 L3 HB HB2. unfold bits_code, bits_result.
  destruct r as [|bits r]; [apply (roll_stop X cf B Mn x56 6%nat); try reflexivity; rm|].
  destruct r as [|e1 r]; [apply (roll_stop X cf B Mn x56 6%nat); try reflexivity; rm|].
  eapply (roll_step X cf B Mn x56 6%nat); try reflexivity; [rm|lia|]. cbn [firstn skipn app Nat.add].
  assert (Le1 : len e1 < 2 ^ 31) by rm. pose proof (size_enc e1 Le1). assert (Lf : len (sn_enc 4) = 1) by reflexivity.
  apply (check_size X cf B Mn) with (z := 4%Z); [rm|lia|reflexivity|reflexivity| |].
  2:{ intros Q. change (Z.to_N 4) with 4 in Q. destruct r; [reflexivity|]. replace (len e1 =? 4) with false by lia. reflexivity. }
  intros Q. change (Z.to_N 4) with 4 in Q. on.
  destruct r as [|e2 r]; [apply (roll_stop X cf B Mn x56 6%nat); try reflexivity; rm|].
  eapply (roll_step X cf B Mn x56 6%nat); try reflexivity; [rm|lia|]. cbn [firstn skipn app Nat.add].
  replace (len e1 =? 4) with true by lia. cbn [andb].
  assert (Le2 : len e2 < 2 ^ 31) by rm.
  change (push_int 32) with (push_int (Z.of_N 32)). apply check_most; [exact Le2|rm|reflexivity| |].
  2:{ intros Q2. replace (len e2 <=? 32) with false by lia. reflexivity. }
  intros Q2. replace (len e2 <=? 32) with true by lia. cbn [andb].
  on. on. on. apply hash256_step; [rm|].
  pose proof (sha_len (((th ++ e1) ++ e2) ++ nd)) as Lr. set (root := hash256 X _) in *.
  on. on. on. on. unfold push_mask. rewrite mask_bytes. assert (Lm : len (le 4 0xE0001FFF) = 4) by reflexivity.
  assert (Lu : len (complement (le 4 0xE0001FFF)) = 4) by reflexivity.
  apply step_push; [reflexivity|rm|]. set (mask := le 4 0xE0001FFF) in *. on. on. on.
  assert (Lc : len (combine N.land category mask) = 4) by (unfold len; rewrite combine_length; exact L3).
  apply (bitwise_step OP_AND (combine N.land)); try reflexivity; try discriminate; [rm| |lia]. intros _.
  on. on. apply (bitwise_step OP_AND (combine N.land)); try reflexivity; try discriminate; [rm| |].
  2:{ intros Q3. replace (len bits =? 4) with false by lia. reflexivity. }
  intros Q3. replace (len bits =? 4) with true by lia.
  assert (Lb : len (combine N.land bits (complement mask)) = 4) by (unfold len; rewrite combine_length; unfold len in *; lia).
  apply (bitwise_step OP_OR (combine N.lor)); try reflexivity; try discriminate; [rm| |lia]. intros _.
  subst mask. rewrite (version_combine category bits) by (unfold len in *; lia).
  assert (Lv : len (version_bytes category bits) = 4) by (unfold version_bytes; rewrite len_le; reflexivity).
  on. on. apply runs_end. rm.
Qed.

Definition plain_result (th nd target content category : bytes) (r a : list bytes) : option stacks :=
  match r with
  | e1 :: e2 :: r' =>
      if (len e1 =? 4) && (len e2 =? 8)
      then Some ((category ++ content ++ hash256 X (((th ++ e1) ++ e2) ++ nd)) :: r', target :: a) else None
  | _ => None
  end.
Lemma plain_runs th nd target content category r a : len target = 4 -> len content = 32 -> len category = 4 ->
  2 * footprint r + footprint a + len th + len nd + 2000 <= B -> B < 2 ^ 31 ->
  runs X cf B plain_code (th :: nd :: target :: content :: category :: r) a (plain_result th nd target content category r a).
Proof.
  intros L1 L2 L3 HB HB2. unfold plain_code, plain_result.
  destruct r as [|e1 r]; [apply (roll_stop X cf B Mn x55 5%nat); try reflexivity; rm|].
  eapply (roll_step X cf B Mn x55 5%nat); try reflexivity; [rm|lia|]. cbn [firstn skipn app Nat.add].
  assert (Le1 : len e1 < 2 ^ 31) by rm. pose proof (size_enc e1 Le1). assert (Lf : len (sn_enc 4) = 1) by reflexivity.
  apply (check_size X cf B Mn) with (z := 4%Z); [rm|lia|reflexivity|reflexivity| |].
  2:{ intros Q. change (Z.to_N 4) with 4 in Q. destruct r; [reflexivity|]. replace (len e1 =? 4) with false by lia. reflexivity. }
  intros Q. change (Z.to_N 4) with 4 in Q. on.
  destruct r as [|e2 r]; [apply (roll_stop X cf B Mn x55 5%nat); try reflexivity; rm|].
  eapply (roll_step X cf B Mn x55 5%nat); try reflexivity; [rm|lia|]. cbn [firstn skipn app Nat.add].
  replace (len e1 =? 4) with true by lia. cbn [andb].
  assert (Le2 : len e2 < 2 ^ 31) by rm. pose proof (size_enc e2 Le2). assert (Lf8 : len (sn_enc 8) = 1) by reflexivity.
  apply (check_size X cf B Mn) with (z := 8%Z); [rm|lia|reflexivity|reflexivity| |].
  2:{ intros Q2. change (Z.to_N 8) with 8 in Q2. replace (len e2 =? 8) with false by lia. reflexivity. }
  intros Q2. change (Z.to_N 8) with 8 in Q2. replace (len e2 =? 8) with true by lia. cbn [andb].
  on. on. on. apply hash256_step; [rm|].
  pose proof (sha_len (((th ++ e1) ++ e2) ++ nd)) as Lr. set (root := hash256 X _) in *.
  on. on. on. on. apply runs_end. rm.
Qed.

(* ---- numbers ---- *)

Lemma push_num z q s a R : len (sn_enc z) <= 4 -> room s a <= B -> runs X cf B q (sn_enc z :: s) a R -> runs X cf B (push_int z :: q) s a R.
Proof. intros L Rm H. unfold push_int. apply step_push; [change (2 ^ 31) with 2147483648; lia|assumption|assumption]. Qed.
Definition fits_num (n : N) : bool := len (sn_enc (Z.of_N n)) <=? c_max_num cf.
Lemma positive_runs q x s a R : room (x :: s) a + 100 <= B ->
  (fits_num (le_val x) = true -> runs X cf B q (sn_enc (Z.of_N (le_val x)) :: s) a R) -> (fits_num (le_val x) = false -> R = None) ->
  runs X cf B (ensure_positive ++ q) (x :: s) a R.
Proof.
  intros L H1 H2. unfold ensure_positive. cbn [app]. assert (L0 : len [x00] = 1) by reflexivity.
  apply step_push; [reflexivity|rm|]. on.
  assert (E : effect X cf OP_BIN2NUM ((x ++ [x00]) :: s) a = if fits_num (le_val x) then Some (sn_enc (Z.of_N (le_val x)) :: s, a) else None).
  { cbn [effect with1]. rewrite positive_val. reflexivity. }
  destruct (fits_num (le_val x)).
  - eapply step_on; try exact E; try discriminate; try reflexivity; [rm|]. auto.
  - rewrite H2 by reflexivity. apply step_stop; try exact E; try discriminate; try reflexivity. rm.
Qed.
Lemma verify_step (c : bool) q s a R : room s a + 33 <= B -> (c = true -> runs X cf B q s a R) -> (c = false -> R = None) ->
  runs X cf B (op_instr OP_VERIFY :: q) (sn_enc (if c then 1 else 0) :: s) a R.
Proof.
  intros L H1 H2. assert (len (sn_enc (if c then 1 else 0)) <= 1) by (destruct c; vm_compute; discriminate).
  assert (Rm : room (sn_enc (if c then 1 else 0) :: s) a <= B) by rm. destruct c.
  - eapply step_on; try discriminate; try reflexivity; [exact Rm|auto].
  - rewrite H2 by reflexivity. apply step_stop; try discriminate; try reflexivity. exact Rm.
Qed.
Lemma bin2num_step q x s a R : len x <= 4 -> room (x :: s) a <= B -> runs X cf B q (sn_enc (sn_val x) :: s) a R ->
  runs X cf B (op_instr OP_BIN2NUM :: q) (x :: s) a R.
Proof.
  intros L Rm H. eapply step_on; try exact H; try discriminate; try reflexivity; [exact Rm|]. cbn [effect with1].
  assert (E : len (sn_enc (sn_val x)) <= len x).
  { destruct (sn_val_bound x) as [Bd|Z0].
    - destruct x as [|c x]; [vm_compute; discriminate|]. pose proof (enc_half (sn_val (c :: x)) (length (c :: x) - 1)) as E.
      specialize (E ltac:(lia)). unfold len in *. cbn [length] in *. lia.
    - rewrite Z0. vm_compute. discriminate. }
  replace (_ <=? _) with true by lia. reflexivity.
Qed.


Definition expanded (b0 b1 b2 b3 : byte) : bytes := repeat x00 (N.to_nat (b2n b3 - 3)) ++ [b0; b1; b2] ++ repeat x00 (29 - N.to_nat (b2n b3 - 3)).
Lemma expanded_val b0 b1 b2 b3 : computable_b (le_val [b0; b1; b2; b3]) = true -> le_val (expanded b0 b1 b2 b3) = expand (le_val [b0; b1; b2; b3]).
Proof.
  intros C. apply computable_b_iff in C as (C1 & C2 & C3). destruct (target_parts b0 b1 b2 b3) as (P1 & P2 & P3 & _). cbv zeta in *.
  rewrite P2 in C2. specialize (P3 ltac:(lia)). rewrite expand_exact, P2, C2. rewrite magnitude_big by lia. rewrite P1, P3 in *. cbn [negb andb].
  unfold expanded. rewrite !le_val_app, !le_val_repeat0, repeat_length, N.mul_0_r, N.add_0_r, N.add_0_l. unfold pow256. rewrite N2Nat.id.
  rewrite (N.mul_comm (256 ^ _)). replace (_ <? 2 ^ 256) with true; [reflexivity|]. symmetry. apply N.ltb_lt.
  pose proof (le_val_bound [b0; b1; b2]) as Lb. change (pow256 (length [b0; b1; b2])) with (256 ^ 3) in Lb.
  apply N.lt_le_trans with (256 ^ 3 * 256 ^ (b2n b3 - 3)).
  - apply N.mul_lt_mono_pos_r; [|exact Lb]. pose proof (p256_pos (b2n b3 - 3)). lia.
  - rewrite <- N.pow_add_r. change (2 ^ 256) with (256 ^ 32). apply N.pow_le_mono_r; lia.
Qed.
Lemma expanded_len b0 b1 b2 b3 : b2n b3 <= 32 -> len (expanded b0 b1 b2 b3) = 32.
Proof. intros L. unfold expanded, len. rewrite !app_length, !repeat_length. cbn [length]. lia. Qed.

Lemma expand_runs b0 b1 b2 b3 q s a R : room s a + 1000 <= B ->
  (computable_b (le_val [b0; b1; b2; b3]) = true -> runs X cf B q (expanded b0 b1 b2 b3 :: s) a R) ->
  (computable_b (le_val [b0; b1; b2; b3]) = false -> R = None) ->
  runs X cf B (expand_target ++ q) ([b0; b1; b2; b3] :: s) a R.
Proof.
  intros L H1 H2. unfold computable_b in *. destruct (target_parts b0 b1 b2 b3) as (P1 & P2 & P3 & P4 & P5). cbv zeta in *. rewrite P1, P2 in *.
  unfold expand_target. cbn [app].
  assert (L4 : len [b0; b1; b2; b3] = 4) by reflexivity. assert (L3 : len [b0; b1; b2] = 3) by reflexivity. assert (L1 : len [b3] = 1) by reflexivity.
  assert (S4 : len (sn_enc 4) = 1) by reflexivity. assert (S3 : len (sn_enc 3) = 1) by reflexivity. assert (S33 : len (sn_enc 33) = 1) by reflexivity.
  assert (S8 : len (sn_enc 8) = 1) by reflexivity.
  assert (Sz : len (sn_enc (Z.of_nat (length [b0; b1; b2; b3]))) = 1) by reflexivity.
  apply (check_size X cf B Mn) with (z := 4%Z); [rm|lia|reflexivity|reflexivity| |intros Q; contradiction Q; reflexivity]. intros _.
  apply push_num; [lia|rm|]. eapply (step_pos X cf B Mn); try reflexivity; try discriminate.
  { rm. }
  { cbn [effect with2]. change (sn_enc 3) with (sn_enc (Z.of_N 3)). rewrite index_small by (assumption || (vm_compute; discriminate)). reflexivity. }
  change (drop 3 [b0; b1; b2; b3]) with [b3]. change (take 3 [b0; b1; b2; b3]) with [b0; b1; b2].
  on. apply bin2num_step; [lia|rm|]. pose proof (one_byte b3) as Ob. pose proof (b2n_lt b3) as Hb3.
  assert (Eb : len (sn_enc (sn_val [b3])) <= 1).
  { pose proof (enc_half (sn_val [b3]) 0) as E. change (128 * pow256 0) with 128 in E. rewrite Ob in *. destruct (N.leb_spec 128 (b2n b3)); specialize (E ltac:(lia)); lia. }
  apply push_num; [lia|rm|]. apply push_num; [lia|rm|].
  eapply step_on; try discriminate; try reflexivity; [rm| |].
  { cbn [effect with3]. rewrite !operand_enc by (assumption || lia). reflexivity. }
  apply verify_step; [rm| |].
  2:{ intros Q. apply H2. rewrite Ob in Q. destruct (N.leb_spec 128 (b2n b3)); lia. }
  intros Q. rewrite Ob in Q. assert (E3 : 3 <= b2n b3 <= 32) by (destruct (N.leb_spec 128 (b2n b3)); lia). clear Q.
  on. on. apply bin2num_step; [lia|rm|].
  assert (Em : len (sn_enc (sn_val [b0; b1; b2])) <= 3).
  { destruct (sn_val_bound [b0; b1; b2]) as [Bd|Bd]; [|discriminate]. apply (enc_half _ 2). exact Bd. }
  apply runs_push; [reflexivity|rm|]. change (pushed_by (op_instr OP_0)) with (sn_enc 0).
  assert (S0 : len (sn_enc 0) = 0) by reflexivity.
  eapply step_on; try discriminate; try reflexivity; [rm| |].
  { cbn [effect]. unfold compare, binary. cbn [with2]. rewrite !operand_enc by (assumption || lia). reflexivity. }
  apply verify_step; [rm| |].
  2:{ intros Q. apply H2. destruct (N.leb_spec 128 (b2n b2)); [lia|]. rewrite P3 by lia. rewrite P4 in Q by lia. lia. }
  intros Q. assert (Q2 : b2n b2 < 128) by (destruct (N.leb_spec 128 (b2n b2)); [specialize (P5 ltac:(assumption)); lia|assumption]).
  rewrite (P3 Q2) in *. rewrite (P4 Q2) in Q.
  specialize (H1 ltac:(lia)). clear H2.
  assert (Lz : len (repeat x00 29) = 29) by reflexivity.
  apply step_push; [reflexivity|rm|]. on. on. apply push_num; [lia|rm|].
  rewrite <- (one_byte_minimal b3) by lia.
  assert (Sb : len (sn_enc (Z.of_N (b2n b3))) <= 1) by (apply small_enc; lia).
  eapply step_on; try discriminate; try reflexivity; [rm| |].
  { cbn [effect]. unfold binary. cbn [with2]. rewrite !operand_enc by (assumption || lia). reflexivity. }
  replace (Z.of_N (b2n b3) - 3)%Z with (Z.of_N (b2n b3 - 3)) by lia.
  assert (Sd : len (sn_enc (Z.of_N (b2n b3 - 3))) <= 1) by (apply small_enc; lia).
  apply push_num; [lia|rm|]. eapply step_on; try discriminate; try reflexivity; [rm| |].
  { cbn [effect]. unfold binary. cbn [with2]. rewrite !operand_enc by (assumption || lia). reflexivity. }
  assert (Sm : len (sn_enc (Z.of_N (b2n b3 - 3) * 8)) <= 2).
  { apply (enc_half _ 1). change (128 * pow256 1) with 32768. lia. }
  eapply (step_pos X cf B Mn); try reflexivity; try discriminate; [rm| |].
  { cbn [effect with2]. rewrite operand_enc by (assumption || lia). replace (_ <? 0)%Z with false by lia. reflexivity. }
  replace (Z.to_N (Z.of_N (b2n b3 - 3) * 8)) with (8 * N.of_nat (N.to_nat (b2n b3 - 3))) by lia. rewrite shift_bytes by lia. exact H1.
Qed.
End Pieces.
