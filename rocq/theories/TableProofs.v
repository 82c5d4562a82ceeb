(* Consequences of the opcode table for byte strings. *)
From Verif Require Import Base BaseProofs WireModel WireProofs ScriptModel NumModel NumSpec NumProofs ShiftProofs.
From Verif Require Import StackModel StackSpec StackProofs MachineModel MachineSpec MachineProofs.
From Coq Require Import ZifyBool ZifyNat ZifyN.
Ltac Zify.zify_post_hook ::= Z.div_mod_to_equations.
Local Open Scope N_scope.

Lemma pow256_2 k : pow256 k = 2 ^ (8 * N.of_nat k).
Proof. unfold pow256. change 256 with (2 ^ 8). rewrite <- N.pow_mul_r. reflexivity. Qed.

Section T.
Variable X : externals.
Variable cf : config.

Theorem split_then_cat n x r a s' a' : effect X cf OP_SPLIT (n :: x :: r) a = Some (s', a') ->
  effect X cf OP_CAT s' a' = Some (x :: r, a).
Proof.
  cbn [effect with2]. destruct (index cf n (len x)) as [i|]; [|discriminate]. intros H. inversion H. cbn [effect with2].
  unfold take, drop. rewrite firstn_skipn. reflexivity.
Qed.

Theorem cat_then_split x y r a n : operand cf n = Some (Z.of_N (len x)) ->
  effect X cf OP_CAT (y :: x :: r) a = Some ((x ++ y) :: r, a) /\
  effect X cf OP_SPLIT (n :: (x ++ y) :: r) a = Some (y :: x :: r, a).
Proof.
  intros H. split; [reflexivity|]. cbn [effect with2]. unfold index. rewrite H, len_app.
  replace (_ && _) with true by lia. rewrite N2Z.id. unfold take, drop, len. rewrite Nat2N.id.
  rewrite skipn_app, skipn_all, Nat.sub_diag, firstn_app, firstn_all, Nat.sub_diag. cbn [skipn firstn]. rewrite app_nil_r. reflexivity.
Qed.

Theorem left_right_split n x r a : 
  match effect X cf OP_SPLIT (n :: x :: r) a with
  | Some (q :: p :: _, _) => effect X cf OP_LEFT (n :: x :: r) a = Some (p :: r, a) /\ x = p ++ q
  | Some _ => False
  | None => effect X cf OP_LEFT (n :: x :: r) a = None /\ effect X cf OP_RIGHT (n :: x :: r) a = None
  end.
Proof.
  cbn [effect with2]. destruct (index cf n (len x)) as [i|]; [|auto]. split; [reflexivity|].
  unfold take, drop. symmetry. apply firstn_skipn.
Qed.

Theorem num2bin_value n x r a y s' a' : effect X cf OP_NUM2BIN (n :: x :: r) a = Some (y :: s', a') ->
  sn_val y = sn_val x /\ Z.of_N (len y) = sn_val n /\ s' = r /\ a' = a.
Proof.
  cbn [effect with2]. unfold index, operand. destruct (_ && _); [|discriminate].
  destruct ((0 <=? sn_val n)%Z && _) eqn:E; [|discriminate]. destruct (N.leb_spec (len x) (Z.to_N (sn_val n))); [|discriminate].
  intros H1. inversion H1. destruct (extend_keeps x (Z.to_N (sn_val n)) H) as (A & B). rewrite A, B. repeat split. lia.
Qed.

Theorem bin2num_value x r a y s' a' : effect X cf OP_BIN2NUM (x :: r) a = Some (y :: s', a') ->
  sn_val y = sn_val x /\ (exists z, y = sn_enc z) /\ len y <= c_max_num cf /\ s' = r /\ a' = a.
Proof.
  cbn [effect with1]. destruct (N.leb_spec (len (sn_enc (sn_val x))) (c_max_num cf)) as [L|L]; [|discriminate].
  intros H. inversion H; subst. split; [apply enc_canonical|]. repeat split; [eexists; reflexivity|exact L].
Qed.

Theorem num2bin_bin2num n x r a s' a' : effect X cf OP_NUM2BIN (n :: x :: r) a = Some (s', a') ->
  effect X cf OP_BIN2NUM s' a' = effect X cf OP_BIN2NUM (x :: r) a.
Proof.
  intros H. destruct s' as [|y s'].
  { revert H. cbn [effect with2]. destruct (index _ _ _); [|discriminate]. destruct (_ <=? _); discriminate. }
  apply num2bin_value in H as (V & _ & -> & ->). cbn [effect with1]. rewrite V. reflexivity.
Qed.

(* bitwise opcodes, bit by bit *)
Theorem bitwise_bits o f x y r a s' a' : (o, f) = (OP_AND, andb) \/ (o, f) = (OP_OR, orb) \/ (o, f) = (OP_XOR, xorb) ->
  (effect X cf o (y :: x :: r) a = None <-> len x <> len y) /\
  (effect X cf o (y :: x :: r) a = Some (s', a') -> exists z, s' = z :: r /\ a' = a /\ len z = len x /\
     forall k, N.testbit (le_val z) k = f (N.testbit (le_val x) k) (N.testbit (le_val y) k)).
Proof.
  intros Hf. assert (G : exists fn, effect X cf o (y :: x :: r) a = bitwise (y :: x :: r) a (combine fn) /\
    forall u v k, N.testbit (fn u v) k = f (N.testbit u k) (N.testbit v k)).
  { destruct Hf as [E|[E|E]]; inversion E; [exists N.land|exists N.lor|exists N.lxor]; split; try reflexivity; intros;
    [apply N.land_spec|apply N.lor_spec|apply N.lxor_spec]. }
  assert (F0 : f false false = false) by (destruct Hf as [E|[E|E]]; inversion E; reflexivity).
  destruct G as (fn & -> & B). unfold bitwise. cbn [with2]. destruct (N.eqb_spec (len x) (len y)) as [E|E].
  - split; [split; [discriminate|congruence]|]. intros H. inversion H. exists (combine fn x y). repeat split.
    + unfold len. rewrite combine_length. reflexivity.
    + intros k. unfold combine. rewrite le_val_le. rewrite <- B.
      rewrite pow256_2.
      destruct (N.ltb_spec k (8 * N.of_nat (length x))) as [Hk|Hk].
      * apply N.mod_pow2_bits_low. exact Hk.
      * rewrite N.mod_pow2_bits_high by exact Hk. rewrite B.
        assert (Hi : forall u, length u = length x -> N.testbit (le_val u) k = false).
        { intros u Lu. pose proof (le_val_bound u) as Bu. rewrite Lu, pow256_2 in Bu.
          destruct (N.eq_dec (le_val u) 0) as [->|Nz]; [apply N.bits_0|]. apply N.bits_above_log2.
          apply N.log2_lt_pow2 in Bu; lia. }
        rewrite !Hi by (unfold len in E; lia). symmetry. exact F0.
  - split; [split; [intros _; exact E|reflexivity]|discriminate].
Qed.

Theorem invert_twice x r a : exists y, effect X cf OP_INVERT (x :: r) a = Some (y :: r, a) /\ len y = len x /\
  le_val x + le_val y = pow256 (length x) - 1 /\ effect X cf OP_INVERT (y :: r) a = Some (x :: r, a).
Proof.
  exists (complement x). cbn [effect with1]. split; [reflexivity|].
  assert (L : length (complement x) = length x) by apply complement_length.
  pose proof (le_val_bound x) as B.
  assert (V : le_val (complement x) = pow256 (length x) - 1 - le_val x).
  { unfold complement. rewrite le_val_le. apply N.mod_small. lia. }
  split; [unfold len; rewrite L; reflexivity|]. split; [lia|].
  unfold complement at 1. rewrite L, V. do 3 f_equal.
  replace (pow256 (length x) - 1 - (pow256 (length x) - 1 - le_val x)) with (le_val x) by lia. apply le_le_val.
Qed.

Theorem shift_bits x z n r a : operand cf n = Some z -> (0 <= z)%Z ->
  exists y w, effect X cf OP_LSHIFT (n :: x :: r) a = Some (y :: r, a) /\ effect X cf OP_RSHIFT (n :: x :: r) a = Some (w :: r, a) /\
    len y = len x /\ len w = len x /\
    (forall k, bit_from_end y k = (Z.to_N z <=? k) && (k <? 8 * len x) && bit_from_end x (k - Z.to_N z)) /\
    (forall k, bit_from_end w k = bit_from_end x (k + Z.to_N z)).
Proof.
  intros O Z0. exists (shl_bits x (Z.to_N z)), (shr_bits x (Z.to_N z)). cbn [effect with2]. rewrite O.
  replace (z <? 0)%Z with false by lia. split; [reflexivity|]. split; [reflexivity|].
  split; [unfold len; rewrite shl_bits_length; reflexivity|]. split; [unfold len; rewrite shr_bits_length; reflexivity|].
  assert (P : pow256 (length x) = 2 ^ (8 * len x)) by apply pow256_2.
  assert (Hi : forall k, 8 * len x <= k -> N.testbit (be_val x) k = false) by (intros; apply be_val_testbit_high; assumption).
  split; intros k; unfold bit_from_end.
  - unfold shl_bits. rewrite be_val_be, P. destruct (N.ltb_spec k (8 * len x)) as [H|H].
    + rewrite N.mod_pow2_bits_low by exact H. rewrite <- N.shiftl_mul_pow2. rewrite andb_true_r.
      destruct (N.leb_spec (Z.to_N z) k) as [Q|Q]; [rewrite N.shiftl_spec_high' by exact Q; reflexivity|rewrite N.shiftl_spec_low by exact Q; reflexivity].
    + rewrite N.mod_pow2_bits_high by exact H. rewrite andb_false_r. reflexivity.
  - unfold shr_bits. rewrite be_val_be, P, <- N.shiftr_div_pow2. destruct (N.ltb_spec k (8 * len x)) as [H|H].
    + rewrite N.mod_pow2_bits_low by exact H. apply N.shiftr_spec'.
    + rewrite N.mod_pow2_bits_high by exact H. symmetry. apply Hi. lia.
Qed.
End T.

(* ---- stack limits ---- *)
Theorem push_exact s x : good s -> len x < 2 ^ 62 ->
  ((exists s', push_back x s = Val tt s') <-> fits (s_lim s) (x :: s_main s) (s_alt s)).
Proof.
  intros G L. pose proof (push_back_spec s x G L) as H. destruct (push_back x s) as [[] s'| | |]; try contradiction.
  - destruct H as (A & B & C & F & _). rewrite A, B, C in F. split; [intros _; exact F|eauto].
  - destruct H as (_ & N). split; [intros (? & ?); discriminate|contradiction].
Qed.
