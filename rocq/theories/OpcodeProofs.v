From Verif Require Import Base BaseProofs ScriptModel NumModel NumSpec NumProofs ShiftProofs.
From Verif Require Import StackModel StackSpec StackProofs MachineModel MachineSpec MachineProofs.
From Coq Require Import Permutation Zquot ZifyBool ZifyNat ZifyN.
Ltac Zify.zify_post_hook ::= Z.div_mod_to_equations.
Local Open Scope N_scope.

Lemma lt62 n : n < 2 ^ 31 -> n < 2 ^ 62.
Proof. change (2 ^ 31) with 2147483648. change (2 ^ 62) with 4611686018427387904. lia. Qed.

Lemma elem_small s x : small s -> In x s -> len x < 2 ^ 31.
Proof. intros [_ F]. rewrite Forall_forall in F. apply F. Qed.

Lemma small_const z : (Z.abs z <= 2 ^ 32)%Z -> len (sn_enc z) < 2 ^ 62.
Proof.
  intros H. pose proof (enc_len z 5) as E. specialize (E ltac:(change (pow256 5) with 1099511627776; lia)).
  change (2 ^ 62) with 4611686018427387904. lia.
Qed.

Lemma fits_swap_in m0 x y r a b : at_ m0 m0 (x :: y :: r) a -> roomy (s_lim (m_stack m0)) -> len b <= 1 ->
  fits (s_lim (m_stack m0)) (b :: r) a.
Proof.
  intros At0 Rm L. destruct (at_good _ _ _ _ At0) as (G & Em & Ea & El). destruct G as (Gf & _ & _).
  rewrite Em, Ea in Gf. destruct (s_lim (m_stack m0)); cbn [fits roomy app length] in *.
  - destruct Gf as [F1 F2]. inversion F1; subst. inversion H2; subst. split; [constructor; [lia|assumption]|lia].
  - unfold footprint in *. cbn [fold_right length] in *. lia.
Qed.

Lemma len_max s x y : small s -> In x s -> In y s -> N.max (len x) (len y) + 2 < 2 ^ 62 /\ len x + len y + 1 < 2 ^ 62.
Proof.
  intros Sm Hx Hy. pose proof (elem_small _ _ Sm Hx). pose proof (elem_small _ _ Sm Hy).
  change (2 ^ 31) with 2147483648 in *. change (2 ^ 62) with 4611686018427387904. lia.
Qed.

Lemma bool62 b : len (sn_bool b) < 2 ^ 62.
Proof. eapply N.le_lt_trans; [apply bool_len|reflexivity]. Qed.

Lemma quot_le x y : (Z.abs (Z.quot x y) <= Z.abs x + Z.abs y)%Z.
Proof.
  destruct (Z.eq_dec y 0) as [->|N]; [rewrite (Zquot_0_r x); lia|].
  rewrite <- Z.quot_abs by assumption. pose proof (Z.quot_le_upper_bound (Z.abs x) (Z.abs y) (Z.abs x) ltac:(lia) ltac:(nia)). lia.
Qed.
Lemma rem_le x y : (Z.abs (Z.rem x y) <= Z.abs x + Z.abs y)%Z.
Proof.
  destruct (Z.eq_dec y 0) as [->|N]; [rewrite (Zrem_0_r x); lia|].
  pose proof (Z.rem_bound_abs x y N). lia.
Qed.

(* operands that are positions or lengths *)
Lemma plain cf b : (minimal cf = true \/ ~ negative_zero b) -> operand cf b = Some (sn_val b) -> (0 <= sn_val b)%Z ->
  sn_val b = Z.of_N (le_val b).
Proof.
  intros H O P. unfold sn_val in P |- *.
  destruct (N.leb_spec (pow256 (length b) / 2) (le_val b)) as [L|L]; [|reflexivity].
  assert (E : le_val b = pow256 (length b) / 2) by lia.
  assert (V : sn_val b = 0%Z). { unfold sn_val. destruct (N.leb_spec (pow256 (length b) / 2) (le_val b)); lia. }
  assert (Z : le_val b = 0); [|lia].
  destruct H as [Hm|Hn].
  - unfold operand in O. rewrite Hm in O. cbn [negb orb] in O.
    destruct (is_minimal_number b) eqn:Mb; [|rewrite andb_false_r in O; discriminate].
    apply minimal_iff in Mb. rewrite V in Mb. rewrite <- Mb. reflexivity.
  - unfold negative_zero in Hn. destruct (N.eq_dec (le_val b) 0); [assumption|tauto].
Qed.

Lemma nz1 cf o x r : no_negative_zero cf o (x :: r) -> minimal cf = true \/ ~ negative_zero x.
Proof. intros [H|H]; [auto|]. right. assert (P : exists k, positions o = S k) by (destruct o; eexists; reflexivity). destruct P as (k & P). rewrite P in H. cbn [firstn] in H. inversion H; assumption. Qed.
Lemma nz2 cf x y r : no_negative_zero cf OP_SUBSTR (x :: y :: r) -> minimal cf = true \/ ~ negative_zero y.
Proof.
  intros [H|H]; [auto|]. right. cbn [positions firstn] in H. inversion H; subst. inversion H3; assumption.
Qed.

Lemma r32 b : sn_val b = Z.of_N (le_val b) -> (sn_val b < 2 ^ 32)%Z -> read_as_uint32 b = Z.to_N (sn_val b).
Proof. intros E L. rewrite read_u32_nonneg; [lia|exact E|lia]. Qed.

Lemma index_some cf b max : operand cf b = Some (sn_val b) ->
  index cf b max = if (0 <=? sn_val b)%Z && (sn_val b <=? Z.of_N max)%Z then Some (Z.to_N (sn_val b)) else None.
Proof. intros E. unfold index. rewrite E. reflexivity. Qed.
Lemma index_none cf b max : operand cf b = None -> index cf b max = None.
Proof. intros E. unfold index. rewrite E. reflexivity. Qed.

Lemma take_len k (x : bytes) : len (firstn k x) <= len x.
Proof. unfold len. rewrite firstn_length. lia. Qed.
Lemma drop_len k (x : bytes) : len (skipn k x) <= len x.
Proof. unfold len. rewrite skipn_length. lia. Qed.

Lemma pick_index b : sn_val b = Z.of_N (le_val b) -> (sn_val b < 2 ^ 31)%Z ->
  int32_of (2 ^ 32 + (2 ^ 32 - 1) - read_as_uint32 b) = (- sn_val b - 1)%Z.
Proof.
  intros P L. rewrite (r32 b P) by lia. unfold int32_of. change (2 ^ 31)%Z with 2147483648%Z in L.
  set (k := Z.to_N (sn_val b)). assert (K : k < 2147483648) by lia.
  replace (- sn_val b - 1)%Z with (- Z.of_N k - 1)%Z by lia.
  change (2 ^ 32) with 4294967296. change (2 ^ 31) with 2147483648.
  try change (2 ^ 32)%Z with 4294967296%Z.
  rewrite <- (N.mod_add (4294967296 + (4294967296 - 1) - k) 0 4294967296) by lia.
  replace ((4294967296 + (4294967296 - 1) - k + 0 * 4294967296) mod 4294967296) with (4294967295 - k).
  - destruct (N.ltb_spec (4294967295 - k) 2147483648); lia.
  - replace (4294967296 + (4294967296 - 1) - k + 0 * 4294967296) with ((4294967295 - k) + 1 * 4294967296) by lia.
    rewrite N.mod_add by lia. rewrite N.mod_small by lia. reflexivity.
Qed.

Section Ops.
Variable X : externals.
Variable doc : option rdoc.
Variable cf : config.
Variable c : counter.
Variable m0 : mstate.
Variable s a : list bytes.
Hypothesis At0 : at_ m0 m0 s a.
Hypothesis Sm : small s.
Hypothesis Tr : truncating X.
Hypothesis Sh : short_hashes X.
Hypothesis Rm : roomy (s_lim (m_stack m0)).

Notation goal o := (agrees m0 (exec_op X doc cf c o m0) (effect X cf o s a)).

Ltac small_in := apply lt62; eapply elem_small; [exact Sm | cbn [In]; tauto].

Lemma ops_push z : (Z.abs z <= 2 ^ 32)%Z -> agrees m0 (push_stack (sn_enc z) m0) (Some (sn_enc z :: s, a)).
Proof. intros H. r_last. r_push. apply small_const; assumption. r_done. Qed.

Lemma o_toalt : goal OP_TOALTSTACK.
Proof. cbn [exec_op effect]. r_last. apply R_assoc. destruct s as [|x r]; r_need. r_to_alt. r_done. Qed.

Lemma o_fromalt : goal OP_FROMALTSTACK.
Proof.
  cbn [exec_op effect]. r_last. apply R_assoc. apply R_assoc. unfold mbind at 1, get_alt_size, alt_size.
  destruct (at_good _ _ _ _ At0) as (_ & _ & Ea & _). rewrite Ea. destruct a as [|x r].
  - apply R_guard; [not_ok| |]; cbn; intros; [discriminate|reflexivity].
  - apply R_guard; [not_ok| |]; intros B.
    + r_from_alt. r_done.
    + cbn [length] in B. lia.
Qed.

Lemma o_2drop : goal OP_2DROP.
Proof. cbn [exec_op effect]. r_last. apply R_assoc. destruct s as [|x [|y r]]; r_need. apply R_assoc. r_pop. r_pop. r_done. Qed.

Lemma o_2dup : goal OP_2DUP.
Proof.
  cbn [exec_op effect]. destruct s as [|x [|y r]]; r_need. r_top. r_top. r_push; [small_in|]. r_last. r_push; [small_in|]. r_done.
Qed.

Lemma o_3dup : goal OP_3DUP.
Proof.
  cbn [exec_op effect]. destruct s as [|x [|y [|z r]]]; r_need. r_top. r_top. r_top. r_push; [small_in|]. r_push; [small_in|].
  r_last. r_push; [small_in|]. r_done.
Qed.

Lemma o_2over : goal OP_2OVER.
Proof.
  cbn [exec_op effect]. destruct s as [|x [|y [|z [|w r]]]]; r_need. r_top. r_top. r_push; [small_in|].
  r_last. r_push; [small_in|]. r_done.
Qed.

Lemma o_2rot : goal OP_2ROT.
Proof.
  cbn [exec_op effect]. destruct s as [|x1 [|x2 [|x3 [|x4 [|x5 [|x6 r]]]]]]; r_need. r_top. r_top.
  eapply R_erase_range; [eassumption | lia | cbn [length]; lia | intro_at; cbn in At]. r_push; [small_in|].
  r_last. r_push; [small_in|]. r_done.
Qed.

Lemma o_2swap : goal OP_2SWAP.
Proof.
  cbn [exec_op effect]. destruct s as [|x1 [|x2 [|x3 [|x4 r]]]]; r_need. r_swap. r_last. cbn in At. r_swap. r_done.
Qed.

Lemma o_ifdup : goal OP_IFDUP.
Proof.
  cbn [exec_op effect]. destruct s as [|x r]; r_need. r_top. cbn [with1]. unfold nonzeroZ. rewrite nonzero_iff.
  destruct (sn_val x =? 0)%Z; cbn [negb].
  - r_done.
  - r_last. r_push; [small_in|]. r_done.
Qed.

Lemma o_depth : goal OP_DEPTH.
Proof.
  cbn [exec_op effect]. eapply R_size; [eassumption|]. r_last. rewrite nat_N_Z. r_push.
  - apply small_const. destruct Sm as [L _]. change (2 ^ 31) with 2147483648 in L. lia.
  - r_done.
Qed.

Lemma o_drop : goal OP_DROP.
Proof. cbn [exec_op effect]. r_last. apply R_assoc. destruct s as [|x r]; r_need. r_pop. r_done. Qed.

Lemma o_dup : goal OP_DUP.
Proof. cbn [exec_op effect]. destruct s as [|x r]; r_need. r_top. r_last. r_push; [small_in|]. r_done. Qed.

Lemma o_nip : goal OP_NIP.
Proof.
  cbn [exec_op effect]. r_last. apply R_assoc. destruct s as [|x [|y r]]; r_need.
  eapply R_erase; [eassumption | lia | reflexivity | intro_at; cbn in At]. r_done.
Qed.

Lemma o_over : goal OP_OVER.
Proof. cbn [exec_op effect]. destruct s as [|x [|y r]]; r_need. r_top. r_last. r_push; [small_in|]. r_done. Qed.

Lemma o_rot : goal OP_ROT.
Proof.
  cbn [exec_op effect]. destruct s as [|x1 [|x2 [|x3 r]]]; r_need. r_swap. r_last. cbn in At. r_swap. r_done.
Qed.

Lemma o_swap : goal OP_SWAP.
Proof. cbn [exec_op effect]. r_last. apply R_assoc. destruct s as [|x1 [|x2 r]]; r_need. r_swap. r_done. Qed.

Lemma o_tuck : goal OP_TUCK.
Proof.
  cbn [exec_op effect]. destruct s as [|x1 [|x2 r]]; r_need. r_top. r_last.
  eapply R_insert; [eassumption | lia | cbn [length]; lia | small_in | intro_at; cbn in At; r_done | cbn; limits].
Qed.

Lemma o_size : goal OP_SIZE.
Proof.
  cbn [exec_op effect]. destruct s as [|x r]; r_need. r_top. r_last. cbn [with1]. unfold len. rewrite nat_N_Z. r_push.
  - apply small_const. pose proof (elem_small _ x Sm (or_introl eq_refl)) as L. unfold len in L. change (2 ^ 31) with 2147483648 in L. lia.
  - r_done.
Qed.

Lemma o_verify : goal OP_VERIFY.
Proof.
  cbn [exec_op effect]. unfold op_verify. destruct s as [|x r]; r_need. r_top. cbn [with1]. unfold nonzeroZ. rewrite nonzero_iff.
  destruct (sn_val x =? 0)%Z; cbn [negb].
  - apply R_fail_last; [not_ok|reflexivity].
  - r_last. r_pop. r_done.
Qed.

Lemma o_discourage : agrees m0 (discourage cf m0) (if has_flag FLAG_DISCOURAGE_NOPS (c_flags cf) then None else Some (s, a)).
Proof.
  unfold discourage. r_last. apply R_guard; [not_ok| |]; destruct (has_flag FLAG_DISCOURAGE_NOPS (c_flags cf)); try discriminate.
  - intros _. r_done.
  - reflexivity.
Qed.

(* numeric operands *)
Ltac r_num := eapply R_number; [let H := fresh "On" in intros H | let H := fresh "On" in intros H; try (rewrite H; reflexivity)].

Lemma un_gen f g : (forall x, f x = sn_enc (g (sn_val x))) -> (forall z, Z.abs (g z) <= 2 * Z.abs z + 1)%Z ->
  agrees m0 (op_unary cf f m0) (unary cf s a g).
Proof.
  intros Ef Bg. unfold op_unary, unary, with1. destruct s as [|x r]; r_need. r_top. r_num.
  r_pop. r_last. rewrite Ef, On. r_push.
  - eapply N.le_lt_trans; [apply (un_len x); apply Bg|].
    pose proof (elem_small _ x Sm (or_introl eq_refl)) as L. change (2 ^ 31) with 2147483648 in L.
    change (2 ^ 62) with 4611686018427387904. lia.
  - r_done.
Qed.

Lemma o_1add : goal OP_1ADD.
Proof. apply un_gen; [reflexivity|intros; lia]. Qed.
Lemma o_1sub : goal OP_1SUB.
Proof. apply un_gen; [reflexivity|intros; lia]. Qed.
Lemma o_2mul : goal OP_2MUL.
Proof. apply un_gen; [|intros; lia]. intros x. unfold on_value. f_equal. rewrite Z.shiftl_mul_pow2 by lia. lia. Qed.
Lemma o_2div : goal OP_2DIV.
Proof.
  apply un_gen.
  - intros x. unfold u_2div. f_equal. rewrite is_negative_iff, Z.shiftr_div_pow2 by lia. change (2 ^ 1)%Z with 2%Z.
    generalize (sn_val x) as z. intros z. destruct (Z.ltb_spec z 0) as [L|L].
    + replace z with (- - z)%Z by lia. rewrite Z.quot_opp_l by lia. rewrite (Z.quot_div_nonneg (- z) 2) by lia. lia.
    + rewrite (Z.quot_div_nonneg z 2) by lia. reflexivity.
  - intros z. pose proof (Z.quot_abs z 2 ltac:(lia)) as E. rewrite <- E. change (Z.abs 2) with 2%Z.
    rewrite Z.quot_div_nonneg by lia. lia.
Qed.
Lemma o_negate : goal OP_NEGATE.
Proof. apply un_gen; [reflexivity|intros; lia]. Qed.
Lemma o_not : goal OP_NOT.
Proof.
  apply un_gen; [|intros z; destruct (z =? 0)%Z; lia]. intros x. unfold u_not, sn_bool. reflexivity.
Qed.
Lemma o_0notequal : goal OP_0NOTEQUAL.
Proof.
  apply un_gen; [|intros z; destruct (Z.eqb_spec z 0); lia]. intros x. unfold u_0notequal, sn_bool.
  destruct (sn_val x =? 0)%Z; reflexivity.
Qed.
Lemma o_abs : goal OP_ABS.
Proof.
  cbn [exec_op effect]. unfold op_unary, with1. destruct s as [|x r]; r_need. r_top. r_num.
  r_pop. r_last. rewrite On. unfold u_abs. rewrite is_negative_iff. destruct (Z.ltb_spec (sn_val x) 0).
  - r_push; [|r_done].
    eapply N.le_lt_trans; [apply (un_len x); lia|].
    pose proof (elem_small _ x Sm (or_introl eq_refl)) as L. change (2 ^ 31) with 2147483648 in L.
    change (2 ^ 62) with 4611686018427387904. lia.
  - r_push; [small_in|r_done].
Qed.

Lemma bin_gen f g v : (forall x y, In x s -> In y s ->
     match f x y with
     | inl er => er <> E_OK /\ g (sn_val x) (sn_val y) = None
     | inr n => exists z, g (sn_val x) (sn_val y) = Some z /\ n = sn_enc z /\ len n < 2 ^ 62
     end) -> v = false ->
  agrees m0 (op_binary cf f v m0) (binary cf s a g).
Proof.
  intros H ->. unfold op_binary, binary, with2. destruct s as [|y [|x r]].
  - eapply R_top_none; [eassumption| reflexivity | reflexivity | reflexivity].
  - eapply R_top_none; [eassumption| reflexivity | reflexivity | reflexivity].
  - r_top. r_num. r_top. r_num; [|rewrite On, On0; reflexivity]. rewrite On, On0.
    specialize (H x y ltac:(cbn [In]; tauto) ltac:(cbn [In]; tauto)). destruct (f x y) as [er|n].
    + destruct H as [H1 H2]. rewrite H2. apply R_fail_last; [assumption|reflexivity].
    + destruct H as (z & H1 & -> & H3). rewrite H1. r_pop. r_pop. r_push; [assumption|]. r_done.
Qed.

Lemma arith_gen f : (forall x y, Z.abs (f x y) <= Z.abs x + Z.abs y)%Z ->
  agrees m0 (op_binary cf (b_arith f) false m0) (binary cf s a (fun n m => Some (f n m))).
Proof.
  intros B. apply bin_gen; [|reflexivity]. intros x y Hx Hy. unfold b_arith. eexists. repeat split.
  eapply N.le_lt_trans; [apply add_len; exact B|]. eapply len_max; eassumption.
Qed.

Lemma o_add : goal OP_ADD.
Proof. apply arith_gen. intros; lia. Qed.
Lemma o_sub : goal OP_SUB.
Proof. apply arith_gen. intros; lia. Qed.
Lemma o_mul : goal OP_MUL.
Proof.
  apply bin_gen; [|reflexivity]. intros x y Hx Hy. unfold b_arith. eexists. repeat split.
  eapply N.le_lt_trans; [apply mul_len|]. eapply len_max; eassumption.
Qed.

Lemma o_div : goal OP_DIV.
Proof.
  apply bin_gen; [|reflexivity]. intros x y Hx Hy. unfold b_div. rewrite is_zero_iff.
  destruct (Z.eqb_spec (sn_val y) 0) as [E|E]; [split; [not_ok|reflexivity]|].
  destruct (Tr (sn_val x) (sn_val y) E) as [-> _]. eexists. repeat split.
  eapply N.le_lt_trans; [apply (add_len x y Z.quot); apply quot_le|]. eapply len_max; eassumption.
Qed.
Lemma o_mod : goal OP_MOD.
Proof.
  apply bin_gen; [|reflexivity]. intros x y Hx Hy. unfold b_mod. rewrite is_zero_iff.
  destruct (Z.eqb_spec (sn_val y) 0) as [E|E]; [split; [not_ok|reflexivity]|].
  destruct (Tr (sn_val x) (sn_val y) E) as [_ ->]. eexists. repeat split.
  eapply N.le_lt_trans; [apply (add_len x y Z.rem); apply rem_le|]. eapply len_max; eassumption.
Qed.

Lemma cmp_gen f g : (forall x y, f x y = g x y) ->
  agrees m0 (op_binary cf (b_bool f) false m0) (compare cf s a g).
Proof.
  intros E. apply bin_gen; [|reflexivity]. intros x y Hx Hy. unfold b_bool. eexists. repeat split.
  - unfold sn_bool. rewrite E. reflexivity.
  - apply bool62.
Qed.

Lemma o_booland : goal OP_BOOLAND. Proof. apply cmp_gen. reflexivity. Qed.
Lemma o_boolor : goal OP_BOOLOR. Proof. apply cmp_gen. reflexivity. Qed.
Lemma o_numequal : goal OP_NUMEQUAL. Proof. apply cmp_gen. reflexivity. Qed.
Lemma o_numnotequal : goal OP_NUMNOTEQUAL. Proof. apply cmp_gen. reflexivity. Qed.
Lemma o_lessthan : goal OP_LESSTHAN. Proof. apply cmp_gen. reflexivity. Qed.
Lemma o_greaterthan : goal OP_GREATERTHAN. Proof. apply cmp_gen. intros. apply Z.gtb_ltb. Qed.
Lemma o_le : goal OP_LESSTHANOREQUAL. Proof. apply cmp_gen. reflexivity. Qed.
Lemma o_ge : goal OP_GREATERTHANOREQUAL. Proof. apply cmp_gen. intros. apply Z.geb_leb. Qed.

Lemma pick_gen f g : (forall x y, f x y = inr (g (sn_val x) (sn_val y) x y)) ->
  (forall n m x y, g n m x y = x \/ g n m x y = y) ->
  agrees m0 (op_binary cf f false m0) (with2 s (fun x y r =>
      match operand cf x, operand cf y with
      | Some n, Some m => Some (g n m x y :: r, a)
      | _, _ => None
      end)).
Proof.
  intros Ef Eg. unfold op_binary, with2. destruct s as [|y [|x r]].
  - eapply R_top_none; [eassumption| reflexivity | reflexivity | reflexivity].
  - eapply R_top_none; [eassumption| reflexivity | reflexivity | reflexivity].
  - r_top. r_num. r_top. r_num; [|rewrite On, On0; reflexivity]. rewrite On, On0, Ef.
    r_pop. r_pop. r_push; [|r_done]. destruct (Eg (sn_val x) (sn_val y) x y) as [-> | ->]; small_in.
Qed.

Lemma o_min : goal OP_MIN.
Proof.
  apply (pick_gen _ (fun n m x y => if (n <? m)%Z then x else y)); [reflexivity|].
  intros. destruct (n <? m)%Z; auto.
Qed.
Lemma o_max : goal OP_MAX.
Proof.
  apply (pick_gen _ (fun n m x y => if (m <? n)%Z then x else y)); [reflexivity|].
  intros. destruct (m <? n)%Z; auto.
Qed.


Lemma o_numequalverify : goal OP_NUMEQUALVERIFY.
Proof.
  cbn [exec_op effect]. unfold op_binary, with2. destruct s as [|y [|x r]].
  - eapply R_top_none; [eassumption| reflexivity | reflexivity | reflexivity].
  - eapply R_top_none; [eassumption| reflexivity | reflexivity | reflexivity].
  - r_top. r_num. r_top. r_num; [|rewrite On, On0; reflexivity]. rewrite On, On0.
    unfold b_bool. r_pop. r_pop. destruct (Z.eqb_spec (sn_val x) (sn_val y)) as [E|E].
    + eapply R_push; [eassumption| apply bool62 | intro_at |].
      * r_top. change (nonzero (sn_bool true)) with true. cbv iota. r_last. r_pop. r_done.
      * intros Nf. exfalso. apply Nf. eapply fits_swap_in; [exact At0 | exact Rm | apply bool_len].
    + eapply R_push; [eassumption| apply bool62 | intro_at | discriminate].
      r_top. change (nonzero (sn_bool false)) with false. cbv iota. apply R_fail_last; [not_ok|reflexivity].
Qed.

Lemma o_equal : goal OP_EQUAL.
Proof.
  cbn [exec_op effect]. unfold op_equal, with2. destruct s as [|y [|x r]]; r_need.
  r_top. r_top. r_pop. r_pop. r_push; [apply bool62|]. r_done.
Qed.
Lemma o_equalverify : goal OP_EQUALVERIFY.
Proof.
  cbn [exec_op effect]. unfold op_equal, with2. destruct s as [|y [|x r]]; r_need.
  r_top. r_top. r_pop. r_pop. destruct (bytes_eqb x y) eqn:E.
  - eapply R_push; [eassumption| apply bool62 | intro_at |].
    + r_last. r_pop. r_done.
    + intros Nf. exfalso. apply Nf. eapply fits_swap_in; [exact At0 | exact Rm | apply bool_len].
  - eapply R_push; [eassumption| apply bool62 | intro_at | discriminate].
    apply R_fail_last; [not_ok|reflexivity].
Qed.

Lemma o_within : goal OP_WITHIN.
Proof.
  cbn [exec_op effect]. unfold op_within, with3. destruct s as [|z [|y [|x r]]]; r_need.
  r_top. r_num. r_top. r_num; [|rewrite On, On0; reflexivity]. r_top. r_num; [|rewrite On, On0, On1; reflexivity].
  rewrite On, On0, On1. r_pop. r_pop. r_pop. r_last. r_push; [apply bool62|]. r_done.
Qed.

Lemma bit_gen fb fn : (forall x y, length x = length y -> zip_bytes fb x y = combine fn x y) ->
  agrees m0 (op_bitwise fb m0) (bitwise s a (combine fn)).
Proof.
  intros E. unfold op_bitwise, bitwise, with2. destruct s as [|y [|x r]]; r_need.
  r_top. r_top. apply R_guard; [not_ok| |]; intros B; rewrite B; [|reflexivity].
  assert (L : length x = length y) by (unfold len in B; lia). rewrite (E x y L).
  eapply R_update; [eassumption | lia | reflexivity | unfold len; rewrite combine_length; reflexivity | intro_at].
  change (Z.to_nat (- (-2) - 1)) with 1%nat in At. cbn [set_nth] in At. r_last. r_pop. r_done.
Qed.
Lemma o_and : goal OP_AND. Proof. apply bit_gen, and_combine. Qed.
Lemma o_or : goal OP_OR. Proof. apply bit_gen, or_combine. Qed.
Lemma o_xor : goal OP_XOR. Proof. apply bit_gen, xor_combine. Qed.
Lemma o_invert : goal OP_INVERT.
Proof.
  cbn [exec_op effect]. unfold op_invert, with1. destruct s as [|x r]; r_need. r_top. r_last. rewrite not_complement.
  eapply R_update; [eassumption | lia | reflexivity | unfold len; rewrite complement_length; reflexivity | intro_at].
  change (Z.to_nat (- (-1) - 1)) with 0%nat in At. cbn [set_nth] in At. r_done.
Qed.

Lemma hash_gen h : (forall x, len (h x) < 2 ^ 31) -> agrees m0 (op_hash h m0) (hash s a h).
Proof.
  intros H. unfold op_hash, hash, with1. destruct s as [|x r]; r_need. r_top. r_last. unfold replace_back.
  eapply R_modify; [eassumption | reflexivity | apply lt62, H | intro_at | limits]. r_done.
Qed.
Lemma o_ripemd : goal OP_RIPEMD160. Proof. apply hash_gen. intros. apply Sh. Qed.
Lemma o_sha1 : goal OP_SHA1. Proof. apply hash_gen. intros. apply Sh. Qed.
Lemma o_sha256 : goal OP_SHA256. Proof. apply hash_gen. intros. apply Sh. Qed.
Lemma o_hash160 : goal OP_HASH160. Proof. apply hash_gen. intros. apply Sh. Qed.
Lemma o_hash256 : goal OP_HASH256. Proof. apply hash_gen. intros. apply Sh. Qed.

Lemma o_cat : goal OP_CAT.
Proof.
  cbn [exec_op effect]. unfold op_cat, with2. destruct s as [|y [|x r]]; r_need. r_top. r_pop. r_last.
  eapply R_modify; [eassumption | reflexivity | | intro_at | limits]; [|r_done].
  pose proof (elem_small _ x Sm ltac:(cbn [In]; tauto)). pose proof (elem_small _ y Sm ltac:(cbn [In]; tauto)).
  unfold len in *. rewrite app_length. change (2 ^ 31) with 2147483648 in *. change (2 ^ 62) with 4611686018427387904. lia.
Qed.

Lemma o_bin2num : goal OP_BIN2NUM.
Proof.
  cbn [exec_op effect]. unfold op_bin2num, with1, trim_number. destruct s as [|x r]; r_need. r_last.
  destruct (N.ltb_spec (c_max_num cf) (len (sn_enc (sn_val x)))) as [L|L];
  destruct (N.leb_spec (len (sn_enc (sn_val x))) (c_max_num cf)) as [L'|L']; try lia.
  - eapply R_modify_throw; [eassumption| |reflexivity]. cbv zeta beta.
    replace (c_max_num cf <? len (sn_enc (sn_val x))) with true by lia. reflexivity.
  - eapply R_modify; [eassumption | | | intro_at | limits].
    + cbv zeta beta. replace (c_max_num cf <? len (sn_enc (sn_val x))) with false by lia. reflexivity.
    + pose proof (sn_enc_shortest x _ eq_refl) as Sz. apply lt62.
      pose proof (elem_small _ x Sm (or_introl eq_refl)). unfold len in *. lia.
    + r_done.
Qed.

Hypothesis Nz : no_negative_zero cf OP_PICK s.

Lemma shift_gen sh spec :
  (forall n v, sn_val n = Z.of_N (le_val n) -> len v < 2 ^ 63 -> shift_op sh n v = Some (spec v (le_val n))) ->
  (forall v n, length (spec v n) = length v) ->
  agrees m0 (op_shift cf sh m0) (with2 s (fun x n r =>
      match operand cf n with
      | Some z => if (z <? 0)%Z then None else Some (spec x (Z.to_N z) :: r, a)
      | None => None
      end)).
Proof.
  intros H Hl. unfold op_shift, with2. destruct s as [|n [|x r]]; r_need. r_top. r_num. rewrite On.
  apply R_guard; [not_ok| |]; intros B; [|replace (sn_val n <? 0)%Z with true by lia; reflexivity].
  replace (sn_val n <? 0)%Z with false by lia. r_pop. r_last.
  pose proof (plain cf n (nz1 _ _ _ _ Nz) On ltac:(lia)) as P.
  pose proof (elem_small _ x Sm ltac:(cbn [In]; tauto)) as Lx.
  assert (Lx3 : len x < 2 ^ 63) by (change (2 ^ 63) with 9223372036854775808; change (2 ^ 31) with 2147483648 in Lx; lia).
  rewrite P, N2Z.id. eapply R_modify; [eassumption | rewrite (H n x P Lx3); reflexivity | | intro_at | limits]; [|r_done].
  unfold len. rewrite Hl. apply lt62, Lx.
Qed.
Lemma o_lshift : goal OP_LSHIFT.
Proof. apply (shift_gen left_shift shl_bits); [intros; apply lshift_op_exact; assumption | intros; apply be_length]. Qed.
Lemma o_rshift : goal OP_RSHIFT.
Proof. apply (shift_gen right_shift shr_bits); [intros; apply rshift_op_exact; assumption | intros; apply be_length]. Qed.

Lemma o_split : goal OP_SPLIT.
Proof.
  cbn [exec_op effect]. unfold op_split, with2. destruct s as [|n [|x r]]; r_need. r_top. r_top. r_num;
    [|rewrite index_none by assumption; reflexivity].
  rewrite (index_some cf n (len x) On). apply R_guard; [not_ok| |]; intros B; rewrite B; [|reflexivity].
  pose proof (plain cf n (nz1 _ _ _ _ Nz) On ltac:(lia)) as P.
  pose proof (elem_small _ x Sm ltac:(cbn [In]; tauto)) as Lx. change (2 ^ 31) with 2147483648 in Lx.
  rewrite (r32 n P) by lia. replace (len x <? Z.to_N (sn_val n)) with false by lia.
  r_pop. r_pop. unfold take, drop. pose proof (take_len (N.to_nat (Z.to_N (sn_val n))) x). pose proof (drop_len (N.to_nat (Z.to_N (sn_val n))) x).
  change (2 ^ 62) with 4611686018427387904 in *.
  r_push; [change (2 ^ 62) with 4611686018427387904; lia|]. r_last. r_push; [change (2 ^ 62) with 4611686018427387904; lia|]. r_done.
Qed.

Lemma left_gen right :
  agrees m0 (op_left cf right m0) (with2 s (fun x n r => match index cf n (len x) with
    | Some i => Some ((if right then drop (len x - i) x else take i x) :: r, a) | None => None end)).
Proof.
  unfold op_left, with2. destruct s as [|n [|x r]]; r_need. r_top. r_top. r_num;
    [|rewrite index_none by assumption; reflexivity].
  rewrite (index_some cf n (len x) On). apply R_guard; [not_ok| |]; intros B; rewrite B; [|reflexivity].
  pose proof (plain cf n (nz1 _ _ _ _ Nz) On ltac:(lia)) as P.
  pose proof (elem_small _ x Sm ltac:(cbn [In]; tauto)) as Lx. change (2 ^ 31) with 2147483648 in Lx.
  rewrite (r32 n P) by lia. replace (len x <? Z.to_N (sn_val n)) with false by lia.
  r_pop. r_pop. r_last. unfold take, drop. r_push; [|r_done].
  pose proof (take_len (N.to_nat (Z.to_N (sn_val n))) x). pose proof (drop_len (N.to_nat (len x - Z.to_N (sn_val n))) x).
  change (2 ^ 62) with 4611686018427387904. destruct right; lia.
Qed.
Lemma o_left : goal OP_LEFT. Proof. apply (left_gen false). Qed.
Lemma o_right : goal OP_RIGHT. Proof. apply (left_gen true). Qed.

Lemma o_substr : no_negative_zero cf OP_SUBSTR s -> goal OP_SUBSTR.
Proof.
  clear Nz. intros Nz2.
  cbn [exec_op effect]. unfold op_substr, with3. destruct s as [|n [|p [|x r]]]; r_need. r_top. r_top.
  r_num; [|destruct (index cf p (len x)); [rewrite index_none by assumption|]; reflexivity].
  r_top. r_num; [|rewrite index_none by assumption; reflexivity].
  rewrite (index_some cf p (len x) On0). apply R_guard; [not_ok| |]; intros B; rewrite B; [|reflexivity].
  rewrite (index_some cf n _ On).
  apply R_guard; [not_ok| |]; intros B2.
  - replace ((0 <=? sn_val n)%Z && (sn_val n <=? Z.of_N (len x - Z.to_N (sn_val p)))%Z) with true by lia.
    pose proof (plain cf n (nz1 _ _ _ _ Nz2) On ltac:(lia)) as P. pose proof (plain cf p (nz2 _ _ _ _ Nz2) On0 ltac:(lia)) as P2.
    pose proof (elem_small _ x Sm ltac:(cbn [In]; tauto)) as Lx. change (2 ^ 31) with 2147483648 in Lx.
    rewrite (r32 n P), (r32 p P2) by lia. replace (len x <? Z.to_N (sn_val p) + Z.to_N (sn_val n)) with false by lia.
    r_pop. r_pop. r_pop. r_last. unfold take, drop. r_push; [|r_done].
    pose proof (take_len (N.to_nat (Z.to_N (sn_val n))) (skipn (N.to_nat (Z.to_N (sn_val p))) x)). pose proof (drop_len (N.to_nat (Z.to_N (sn_val p))) x).
    change (2 ^ 62) with 4611686018427387904. lia.
  - replace ((0 <=? sn_val n)%Z && (sn_val n <=? Z.of_N (len x - Z.to_N (sn_val p)))%Z) with false by lia. reflexivity.
Qed.

Lemma o_num2bin : goal OP_NUM2BIN.
Proof.
  cbn [exec_op effect]. unfold op_num2bin, with2. destruct s as [|n [|x r]]; r_need. r_top.
  r_num; [|rewrite index_none by assumption; reflexivity].
  rewrite (index_some cf n _ On). change (2 ^ 31 - 1) with 2147483647. unfold INT32_MAX, MAX_ELEMENT_BEFORE_GENESIS.
  apply R_guard; [not_ok| |]; intros B.
  2:{ replace ((0 <=? sn_val n)%Z && (sn_val n <=? Z.of_N (if genesis cf then 2147483647 else 520))%Z) with false; [reflexivity|].
      destruct (genesis cf); lia. }
  pose proof (plain cf n (nz1 _ _ _ _ Nz) On ltac:(lia)) as P. rewrite (r32 n P) by lia.
  apply R_guard; [not_ok| |]; intros B2.
  2:{ replace ((0 <=? sn_val n)%Z && (sn_val n <=? Z.of_N (if genesis cf then 2147483647 else 520))%Z) with false; [reflexivity|].
      destruct (genesis cf); lia. }
  replace ((0 <=? sn_val n)%Z && (sn_val n <=? Z.of_N (if genesis cf then 2147483647 else 520))%Z) with true
    by (destruct (genesis cf); lia).
  r_pop. r_last. destruct (N.leb_spec (len x) (Z.to_N (sn_val n))) as [L|L].
  - eapply R_modify; [eassumption | | | intro_at | limits].
    + cbv beta. replace (Z.to_N (sn_val n) <? len x) with false by lia. reflexivity.
    + rewrite extend_length by assumption. change (2 ^ 62) with 4611686018427387904. lia.
    + r_done.
  - eapply R_modify_throw; [eassumption | | reflexivity].
    cbv beta. replace (Z.to_N (sn_val n) <? len x) with true by lia. reflexivity.
Qed.

Lemma o_pick : goal OP_PICK.
Proof.
  cbn [exec_op effect]. unfold op_pick, with1. destruct s as [|n r]; r_need.
  2:{ intros L. destruct r; [|cbn [length] in L; lia]. destruct (index cf n (N.of_nat (length (@nil bytes)))) as [i|]; [|reflexivity]. destruct (N.to_nat i); reflexivity. }
  r_top. r_num; [|rewrite index_none by assumption; reflexivity].
  rewrite (index_some cf n _ On). r_pop. eapply R_size; [eassumption|].
  destruct Sm as [Sl _]. cbn [length] in Sl. change (2 ^ 31) with 2147483648 in Sl.
  apply R_guard; [not_ok| |]; intros B.
  - replace ((0 <=? sn_val n)%Z && (sn_val n <=? Z.of_N (N.of_nat (length r)))%Z) with true by lia.
    pose proof (plain cf n (nz1 _ _ _ _ Nz) On ltac:(lia)) as P. cbv zeta. rewrite (pick_index n P) by lia.
    destruct (nth_error r (N.to_nat (Z.to_N (sn_val n)))) as [v|] eqn:Ev; [|apply nth_error_None in Ev; lia].
    eapply R_top; [eassumption | lia | replace (Z.to_nat (- (- sn_val n - 1) - 1)) with (N.to_nat (Z.to_N (sn_val n))) by lia; exact Ev |].
    apply R_ret. r_last. r_push; [|r_done]. apply lt62. eapply elem_small; [exact Sm|]. right. eapply nth_error_In, Ev.
  - destruct ((0 <=? sn_val n)%Z && (sn_val n <=? Z.of_N (N.of_nat (length r)))%Z) eqn:B2; [|reflexivity].
    assert (Ei : N.to_nat (Z.to_N (sn_val n)) = length r) by lia. rewrite Ei, (proj2 (nth_error_None r (length r))) by lia. reflexivity.
Qed.

Lemma o_roll : goal OP_ROLL.
Proof.
  cbn [exec_op effect]. unfold op_pick, with1. destruct s as [|n r]; r_need.
  2:{ intros L. destruct r; [|cbn [length] in L; lia]. destruct (index cf n (N.of_nat (length (@nil bytes)))) as [i|]; [|reflexivity]. destruct (N.to_nat i); reflexivity. }
  r_top. r_num; [|rewrite index_none by assumption; reflexivity].
  rewrite (index_some cf n _ On). r_pop. eapply R_size; [eassumption|].
  destruct Sm as [Sl _]. cbn [length] in Sl. change (2 ^ 31) with 2147483648 in Sl.
  apply R_guard; [not_ok| |]; intros B.
  - replace ((0 <=? sn_val n)%Z && (sn_val n <=? Z.of_N (N.of_nat (length r)))%Z) with true by lia.
    pose proof (plain cf n (nz1 _ _ _ _ Nz) On ltac:(lia)) as P. cbv zeta. rewrite (pick_index n P) by lia.
    destruct (nth_error r (N.to_nat (Z.to_N (sn_val n)))) as [v|] eqn:Ev; [|apply nth_error_None in Ev; lia].
    assert (Ei : Z.to_nat (- (- sn_val n - 1) - 1) = N.to_nat (Z.to_N (sn_val n))) by lia.
    eapply R_top; [eassumption | lia | rewrite Ei; exact Ev |].
    eapply R_erase; [eassumption | lia | rewrite Ei; exact Ev | intro_at]. rewrite Ei in At1.
    r_last. r_push; [|r_done]. apply lt62. eapply elem_small; [exact Sm|]. right. eapply nth_error_In, Ev.
  - destruct ((0 <=? sn_val n)%Z && (sn_val n <=? Z.of_N (N.of_nat (length r)))%Z) eqn:B2; [|reflexivity].
    assert (Ei : N.to_nat (Z.to_N (sn_val n)) = length r) by lia. rewrite Ei, (proj2 (nth_error_None r (length r))) by lia. reflexivity.
Qed.
End Ops.

Lemma exec_exact X doc cf c o m :
  good (m_stack m) -> small (s_main (m_stack m)) -> truncating X -> short_hashes X -> roomy (s_lim (m_stack m)) ->
  (positional o = true -> no_negative_zero cf o (s_main (m_stack m))) -> impure o = false ->
  agrees m (exec_op X doc cf c o m) (effect X cf o (s_main (m_stack m)) (s_alt (m_stack m))).
Proof.
  intros G Sm Tr Sh Rm Nz I. pose proof (at_refl m G) as At0. destruct o; try discriminate I; clear I;
  lazymatch goal with
  | |- agrees _ (exec_op _ _ _ _ OP_TOALTSTACK _) _ => apply o_toalt; auto
  | |- agrees _ (exec_op _ _ _ _ OP_FROMALTSTACK _) _ => apply o_fromalt; auto
  | |- agrees _ (exec_op _ _ _ _ OP_2DROP _) _ => apply o_2drop; auto
  | |- agrees _ (exec_op _ _ _ _ OP_2DUP _) _ => apply o_2dup; auto
  | |- agrees _ (exec_op _ _ _ _ OP_3DUP _) _ => apply o_3dup; auto
  | |- agrees _ (exec_op _ _ _ _ OP_2OVER _) _ => apply o_2over; auto
  | |- agrees _ (exec_op _ _ _ _ OP_2ROT _) _ => apply o_2rot; auto
  | |- agrees _ (exec_op _ _ _ _ OP_2SWAP _) _ => apply o_2swap; auto
  | |- agrees _ (exec_op _ _ _ _ OP_IFDUP _) _ => apply o_ifdup; auto
  | |- agrees _ (exec_op _ _ _ _ OP_DEPTH _) _ => apply o_depth; auto
  | |- agrees _ (exec_op _ _ _ _ OP_DROP _) _ => apply o_drop; auto
  | |- agrees _ (exec_op _ _ _ _ OP_DUP _) _ => apply o_dup; auto
  | |- agrees _ (exec_op _ _ _ _ OP_NIP _) _ => apply o_nip; auto
  | |- agrees _ (exec_op _ _ _ _ OP_OVER _) _ => apply o_over; auto
  | |- agrees _ (exec_op _ _ _ _ OP_ROT _) _ => apply o_rot; auto
  | |- agrees _ (exec_op _ _ _ _ OP_SWAP _) _ => apply o_swap; auto
  | |- agrees _ (exec_op _ _ _ _ OP_TUCK _) _ => apply o_tuck; auto
  | |- agrees _ (exec_op _ _ _ _ OP_SIZE _) _ => apply o_size; auto
  | |- agrees _ (exec_op _ _ _ _ OP_VERIFY _) _ => apply o_verify; auto
  | |- agrees _ (exec_op _ _ _ _ OP_PICK _) _ => apply o_pick; try exact (Nz eq_refl); auto
  | |- agrees _ (exec_op _ _ _ _ OP_ROLL _) _ => apply o_roll; try exact (Nz eq_refl); auto
  | |- agrees _ (exec_op _ _ _ _ OP_AND _) _ => apply o_and; auto
  | |- agrees _ (exec_op _ _ _ _ OP_OR _) _ => apply o_or; auto
  | |- agrees _ (exec_op _ _ _ _ OP_XOR _) _ => apply o_xor; auto
  | |- agrees _ (exec_op _ _ _ _ OP_INVERT _) _ => apply o_invert; auto
  | |- agrees _ (exec_op _ _ _ _ OP_LSHIFT _) _ => apply o_lshift; try exact (Nz eq_refl); auto
  | |- agrees _ (exec_op _ _ _ _ OP_RSHIFT _) _ => apply o_rshift; try exact (Nz eq_refl); auto
  | |- agrees _ (exec_op _ _ _ _ OP_EQUAL _) _ => apply o_equal; auto
  | |- agrees _ (exec_op _ _ _ _ OP_EQUALVERIFY _) _ => apply o_equalverify; auto
  | |- agrees _ (exec_op _ _ _ _ OP_1ADD _) _ => apply o_1add; auto
  | |- agrees _ (exec_op _ _ _ _ OP_1SUB _) _ => apply o_1sub; auto
  | |- agrees _ (exec_op _ _ _ _ OP_2MUL _) _ => apply o_2mul; auto
  | |- agrees _ (exec_op _ _ _ _ OP_2DIV _) _ => apply o_2div; auto
  | |- agrees _ (exec_op _ _ _ _ OP_NEGATE _) _ => apply o_negate; auto
  | |- agrees _ (exec_op _ _ _ _ OP_ABS _) _ => apply o_abs; auto
  | |- agrees _ (exec_op _ _ _ _ OP_NOT _) _ => apply o_not; auto
  | |- agrees _ (exec_op _ _ _ _ OP_0NOTEQUAL _) _ => apply o_0notequal; auto
  | |- agrees _ (exec_op _ _ _ _ OP_ADD _) _ => apply o_add; auto
  | |- agrees _ (exec_op _ _ _ _ OP_SUB _) _ => apply o_sub; auto
  | |- agrees _ (exec_op _ _ _ _ OP_MUL _) _ => apply o_mul; auto
  | |- agrees _ (exec_op _ _ _ _ OP_DIV _) _ => apply o_div; auto
  | |- agrees _ (exec_op _ _ _ _ OP_MOD _) _ => apply o_mod; auto
  | |- agrees _ (exec_op _ _ _ _ OP_BOOLAND _) _ => apply o_booland; auto
  | |- agrees _ (exec_op _ _ _ _ OP_BOOLOR _) _ => apply o_boolor; auto
  | |- agrees _ (exec_op _ _ _ _ OP_NUMEQUAL _) _ => apply o_numequal; auto
  | |- agrees _ (exec_op _ _ _ _ OP_NUMEQUALVERIFY _) _ => apply o_numequalverify; auto
  | |- agrees _ (exec_op _ _ _ _ OP_NUMNOTEQUAL _) _ => apply o_numnotequal; auto
  | |- agrees _ (exec_op _ _ _ _ OP_LESSTHAN _) _ => apply o_lessthan; auto
  | |- agrees _ (exec_op _ _ _ _ OP_GREATERTHAN _) _ => apply o_greaterthan; auto
  | |- agrees _ (exec_op _ _ _ _ OP_LESSTHANOREQUAL _) _ => apply o_le; auto
  | |- agrees _ (exec_op _ _ _ _ OP_GREATERTHANOREQUAL _) _ => apply o_ge; auto
  | |- agrees _ (exec_op _ _ _ _ OP_MIN _) _ => apply o_min; auto
  | |- agrees _ (exec_op _ _ _ _ OP_MAX _) _ => apply o_max; auto
  | |- agrees _ (exec_op _ _ _ _ OP_WITHIN _) _ => apply o_within; auto
  | |- agrees _ (exec_op _ _ _ _ OP_RIPEMD160 _) _ => apply o_ripemd; auto
  | |- agrees _ (exec_op _ _ _ _ OP_SHA1 _) _ => apply o_sha1; auto
  | |- agrees _ (exec_op _ _ _ _ OP_SHA256 _) _ => apply o_sha256; auto
  | |- agrees _ (exec_op _ _ _ _ OP_HASH160 _) _ => apply o_hash160; auto
  | |- agrees _ (exec_op _ _ _ _ OP_HASH256 _) _ => apply o_hash256; auto
  | |- agrees _ (exec_op _ _ _ _ OP_CAT _) _ => apply o_cat; auto
  | |- agrees _ (exec_op _ _ _ _ OP_SPLIT _) _ => apply o_split; try exact (Nz eq_refl); auto
  | |- agrees _ (exec_op _ _ _ _ OP_NUM2BIN _) _ => apply o_num2bin; try exact (Nz eq_refl); auto
  | |- agrees _ (exec_op _ _ _ _ OP_BIN2NUM _) _ => apply o_bin2num; auto
  | |- agrees _ (exec_op _ _ _ _ OP_SUBSTR _) _ => apply o_substr; try exact (Nz eq_refl); auto
  | |- agrees _ (exec_op _ _ _ _ OP_LEFT _) _ => apply o_left; try exact (Nz eq_refl); auto
  | |- agrees _ (exec_op _ _ _ _ OP_RIGHT _) _ => apply o_right; try exact (Nz eq_refl); auto
  | |- agrees _ (exec_op _ _ _ _ OP_NOP1 _) _ => eapply o_discourage; eassumption
  | |- agrees _ (exec_op _ _ _ _ OP_NOP7 _) _ => eapply o_discourage; eassumption
  | |- agrees _ (exec_op _ _ _ _ OP_NOP8 _) _ => eapply o_discourage; eassumption
  | |- agrees _ (exec_op _ _ _ _ OP_NOP9 _) _ => eapply o_discourage; eassumption
  | |- agrees _ (exec_op _ _ _ _ OP_NOP10 _) _ => eapply o_discourage; eassumption
  | |- agrees _ (exec_op _ _ _ _ OP_NOP _) _ => eapply R_done; [exact At0|reflexivity]
  | |- agrees _ (exec_op _ _ _ _ OP_CODESEPARATOR _) _ => eapply R_done; [exact At0|reflexivity]
  | _ => first [apply R_fail_last; [not_ok|reflexivity] | apply ops_push; [assumption|vm_compute; discriminate]]
  end.
Qed.
