From Verif Require Import Base BaseProofs ScriptModel NumModel NumSpec NumProofs ShiftProofs WireProofs.
From Verif Require Import StackModel StackSpec MachineModel MachineSpec MachineProofs NumLibModel NumLibSpec.
From Coq Require Import Lia ZifyBool ZifyNat ZifyN.
Local Open Scope N_scope.

(* ---- signs and magnitudes ---- *)

Lemma minus_snoc r l : minus (r ++ [l]) = (128 <=? b2n l).
Proof.
  unfold minus. rewrite app_length. cbn [length]. rewrite Nat.add_1_r, pow256_S, le_val_snoc.
  pose proof (le_val_bound r). pose proof (b2n_lt l). destruct (N.leb_spec 128 (b2n l)).
  - apply N.leb_le. nia.
  - apply N.leb_gt. nia.
Qed.

Lemma magnitude_snoc r l : magnitude (r ++ [l]) = le_val r + pow256 (length r) * (b2n l mod 128).
Proof.
  unfold magnitude. rewrite minus_snoc, half_snoc, le_val_snoc. pose proof (b2n_lt l).
  destruct (N.leb_spec 128 (b2n l)).
  - replace (b2n l mod 128) with (b2n l - 128) by (zify; Z.to_euclidean_division_equations; lia). nia.
  - rewrite N.mod_small by lia. reflexivity.
Qed.

Lemma repeat_snoc k : repeat x00 (S k) = repeat x00 k ++ [x00].
Proof. induction k as [|k IH]; [reflexivity|]. cbn [repeat app] in *. rewrite IH. reflexivity. Qed.

Lemma widened_extend x n : len x <= n -> widened n x (extend_number x n).
Proof.
  intros H. split; [apply extend_length; exact H|].
  induction x as [|l r _] using rev_ind.
  - unfold extend_number. cbn [rev]. destruct (N.to_nat n) as [|k]; [split; reflexivity|].
    rewrite repeat_snoc, minus_snoc, magnitude_snoc, le_val_repeat0. change (b2n x00) with 0.
    split; [reflexivity|]. change (0 mod 128) with 0. rewrite N.mul_0_r. reflexivity.
  - unfold extend_number. rewrite rev_app_distr. cbn [rev app].
    destruct (N.eqb_spec (len (r ++ [l])) n) as [E|E]; [split; reflexivity|].
    rewrite rev_involutive.
    set (k := (N.to_nat n - length (r ++ [l]) - 1)%nat).
    replace (r ++ n2b (b2n l mod 128) :: repeat x00 k ++ [n2b (128 * (b2n l / 128))])
      with ((r ++ n2b (b2n l mod 128) :: repeat x00 k) ++ [n2b (128 * (b2n l / 128))])
      by (rewrite <- app_assoc; reflexivity).
    rewrite !minus_snoc, !magnitude_snoc. pose proof (b2n_lt l).
    rewrite !le_val_app. cbn [le_val]. rewrite le_val_repeat0, N.mul_0_r, N.add_0_r.
    rewrite !b2n_n2b.
    replace ((b2n l mod 128) mod 256) with (b2n l mod 128) by (zify; Z.to_euclidean_division_equations; lia).
    destruct (N.leb_spec 128 (b2n l)) as [G|G].
    + replace (b2n l / 128) with 1 by (zify; Z.to_euclidean_division_equations; lia).
      change ((128 * 1) mod 256) with 128. change (128 mod 128) with 0. split; [reflexivity|]. rewrite N.mul_0_r. lia.
    + replace (b2n l / 128) with 0 by (zify; Z.to_euclidean_division_equations; lia).
      change ((128 * 0) mod 256) with 0. change (0 mod 128) with 0. split; [reflexivity|]. rewrite N.mul_0_r. lia.
Qed.

Lemma le_val_inj (x y : bytes) : len x = len y -> le_val x = le_val y -> x = y.
Proof.
  intros L V. assert (length x = length y) by (unfold len in L; lia).
  rewrite <- (le_le_val x), <- (le_le_val y). congruence.
Qed.

Lemma le_val_parts x : le_val x = magnitude x + (if minus x then pow256 (length x) / 2 else 0).
Proof.
  unfold magnitude. destruct (minus x) eqn:M; [|lia]. unfold minus in M. apply N.leb_le in M.
  assert (pow256 (length x) / 2 <= le_val x) by (zify; Z.to_euclidean_division_equations; lia). lia.
Qed.

Lemma widened_unique n x u v : widened n x u -> widened n x v -> u = v.
Proof.
  intros (L & M & G) (L' & M' & G'). apply le_val_inj; [congruence|].
  rewrite (le_val_parts u), (le_val_parts v).
  assert (E : length u = length v) by (unfold len in *; lia). rewrite M, M', G, G', E. reflexivity.
Qed.

Lemma widened_same x w : widened (len x) x w -> w = x.
Proof. intros W. apply (widened_unique (len x) x); [exact W|]. repeat split. Qed.

(* ---- bitwise functions ---- *)

Lemma zip_value (fb : byte -> byte -> byte) (fn : N -> N -> N) (f : bool -> bool -> bool) a b :
  fb x00 x00 = x00 -> (forall x y m, m < 8 -> N.testbit (b2n (fb x y)) m = f (N.testbit (b2n x) m) (N.testbit (b2n y) m)) ->
  (forall x y m, N.testbit (fn x y) m = f (N.testbit x m) (N.testbit y m)) ->
  length a = length b -> le_val (zip_bytes fb a b) = fn (le_val a) (le_val b).
Proof.
  intros F0 Fb Fn L. apply N.bits_inj. intros k.
  rewrite Fn, !le_val_testbit, nth_zip, Fb; auto. apply N.mod_lt. lia.
Qed.

Lemma and_value a b : length a = length b -> le_val (zip_bytes byte_and a b) = N.land (le_val a) (le_val b).
Proof.
  intros L. apply (zip_value _ _ andb); auto.
  - intros x y m Hm. unfold byte_and. rewrite n2b_testbit, N.land_spec; auto.
  - intros. apply N.land_spec.
Qed.
Lemma or_value a b : length a = length b -> le_val (zip_bytes byte_or a b) = N.lor (le_val a) (le_val b).
Proof.
  intros L. apply (zip_value _ _ orb); auto.
  - intros x y m Hm. unfold byte_or. rewrite n2b_testbit, N.lor_spec; auto.
  - intros. apply N.lor_spec.
Qed.
Lemma xor_value a b : length a = length b -> le_val (zip_bytes byte_xor a b) = N.lxor (le_val a) (le_val b).
Proof.
  intros L. apply (zip_value _ _ xorb); auto.
  - intros x y m Hm. unfold byte_xor. rewrite n2b_testbit, N.lxor_spec; auto.
  - intros. apply N.lxor_spec.
Qed.

Lemma num_bitwise_combined fb fn x y :
  (forall a b, length a = length b -> le_val (zip_bytes fb a b) = fn (le_val a) (le_val b)) ->
  (forall a b, fn a b = fn b a) -> combined fn x y (num_bitwise fb x y).
Proof.
  intros V C. unfold combined, num_bitwise. destruct (N.ltb_spec (len x) (len y)) as [H|H].
  - rewrite N.max_r by lia. pose proof (widened_extend x (len y) ltac:(lia)) as W.
    assert (E : length (extend_number x (len y)) = length y) by (destruct W as (L & _); apply Nat2N.inj; exact L).
    exists (extend_number x (len y)), y. split; [exact W|]. split; [repeat split|]. split.
    + unfold len at 1. rewrite zip_length by exact E. rewrite E. reflexivity.
    + apply V. exact E.
  - rewrite N.max_l by lia. pose proof (widened_extend y (len x) ltac:(lia)) as W.
    assert (E : length (extend_number y (len x)) = length x) by (destruct W as (L & _); apply Nat2N.inj; exact L).
    exists x, (extend_number y (len x)). split; [repeat split|]. split; [exact W|]. split.
    + unfold len at 1. rewrite zip_length by exact E. rewrite E. reflexivity.
    + rewrite V by exact E. apply C.
Qed.

Theorem bitwise_exact x y : combined N.land x y (bit_and x y) /\ combined N.lor x y (bit_or x y) /\
  combined N.lxor x y (bit_xor x y).
Proof.
  split; [|split]; apply num_bitwise_combined; auto using and_value, or_value, xor_value, N.land_comm, N.lor_comm, N.lxor_comm.
Qed.

Theorem combined_unique f x y r r' : combined f x y r -> combined f x y r' -> r = r'.
Proof.
  intros (a & b & A & B & L & V) (a' & b' & A' & B' & L' & V').
  rewrite (widened_unique _ _ _ _ A' A), (widened_unique _ _ _ _ B' B) in V'. apply le_val_inj; congruence.
Qed.

Lemma combined_swap f x y r : (forall a b, f a b = f b a) -> combined f x y r -> combined f y x r.
Proof.
  intros C (a & b & A & B & L & V). rewrite N.max_comm in *. exists b, a. rewrite C. auto.
Qed.

Theorem bitwise_swap x y : bit_and x y = bit_and y x /\ bit_or x y = bit_or y x /\ bit_xor x y = bit_xor y x.
Proof.
  destruct (bitwise_exact x y) as (A & O & Xr). destruct (bitwise_exact y x) as (A' & O' & Xr').
  split; [|split]; eapply combined_unique; eauto; apply combined_swap; auto using N.land_comm, N.lor_comm, N.lxor_comm.
Qed.

Lemma num_bitwise_same fb x y : len x = len y -> num_bitwise fb x y = zip_bytes fb y x.
Proof.
  intros L. unfold num_bitwise. rewrite (proj2 (N.ltb_ge _ _)) by lia. f_equal.
  apply widened_same. rewrite <- L. rewrite L at 2. rewrite <- L. apply widened_extend. lia.
Qed.

Section Opcodes.
Variable X : externals.
Variable cf : config.

Theorem bitwise_opcodes x y r a :
  effect X cf OP_AND (y :: x :: r) a = (if len x =? len y then Some (bit_and x y :: r, a) else None) /\
  effect X cf OP_OR (y :: x :: r) a = (if len x =? len y then Some (bit_or x y :: r, a) else None) /\
  effect X cf OP_XOR (y :: x :: r) a = (if len x =? len y then Some (bit_xor x y :: r, a) else None) /\
  effect X cf OP_INVERT (x :: r) a = Some (bit_not x :: r, a).
Proof.
  destruct (bitwise_swap x y) as (SA & SO & SX). rewrite SA, SO, SX.
  assert (L : len x = len y -> length x = length y) by (unfold len; lia).
  split; [|split; [|split]]; cbn [effect with1]; unfold bitwise; cbn [with2].
  - destruct (N.eqb_spec (len x) (len y)) as [E|E]; [|reflexivity]. unfold bit_and.
    rewrite num_bitwise_same, and_combine by auto. reflexivity.
  - destruct (N.eqb_spec (len x) (len y)) as [E|E]; [|reflexivity]. unfold bit_or.
    rewrite num_bitwise_same, or_combine by auto. reflexivity.
  - destruct (N.eqb_spec (len x) (len y)) as [E|E]; [|reflexivity]. unfold bit_xor.
    rewrite num_bitwise_same, xor_combine by auto. reflexivity.
  - unfold bit_not. rewrite not_complement. reflexivity.
Qed.

Theorem bitwise_opcodes_refuted :
  ~ (forall x y r a, effect X cf OP_AND (y :: x :: r) a = Some (bit_and x y :: r, a)).
Proof. intros H. specialize (H [] [x01] [] []). cbn [effect] in H. discriminate H. Qed.

Theorem parts_opcodes x n r a :
  effect X cf OP_SPLIT (n :: x :: r) a =
    match index cf n (len x) with
    | Some k => match num_split x k with inr (u, v) => Some (v :: u :: r, a) | inl _ => None end
    | None => None
    end /\
  effect X cf OP_LEFT (n :: x :: r) a =
    match index cf n (len x) with
    | Some k => match str_left x k with inr u => Some (u :: r, a) | inl _ => None end
    | None => None
    end /\
  effect X cf OP_RIGHT (n :: x :: r) a =
    match index cf n (len x) with
    | Some k => match num_right x k with inr u => Some (u :: r, a) | inl _ => None end
    | None => None
    end /\
  effect X cf OP_CAT (n :: x :: r) a = Some (num_cat x n :: r, a).
Proof.
  assert (B : forall k, index cf n (len x) = Some k -> (len x <? k) = false).
  { intros k. unfold index. destruct (operand cf n) as [z|]; [|discriminate].
    destruct ((0 <=? z)%Z && (z <=? Z.of_N (len x))%Z) eqn:E; [|discriminate]. intros K. inversion K. lia. }
  cbn [effect with2]. fold (len x).
  destruct (index cf n (len x)) as [k|]; [|repeat split].
  specialize (B k eq_refl). unfold num_split, str_left, num_right. rewrite B. repeat split.
Qed.
End Opcodes.

(* ---- adding zero bytes instead ---- *)

Lemma widened_plain n x w : widened n x w -> n = len x \/ minus x = false -> le_val w = le_val x.
Proof.
  intros W [E|E].
  - subst n. rewrite (widened_same _ _ W). reflexivity.
  - destruct W as (_ & M & G). rewrite (le_val_parts w), (le_val_parts x), M, G, E. reflexivity.
Qed.

Lemma widened_other n x w : len x < n -> widened n x w -> minus x = true -> le_val w <> le_val x.
Proof.
  intros L W E. destruct W as (Lw & M & G). rewrite (le_val_parts w), (le_val_parts x), M, G, E.
  assert (length x < length w)%nat as L' by (unfold len in *; lia).
  assert (P : pow256 (length x) < pow256 (length w)).
  { rewrite !pow256_pow2. apply N.pow_lt_mono_r; lia. }
  destruct (length w) as [|k]; [lia|]. destruct (length x) as [|j].
  - rewrite pow256_half. change (pow256 0 / 2) with 0. assert (0 < pow256 k) by (rewrite pow256_pow2; apply N.neq_0_lt_0, N.pow_nonzero; lia). lia.
  - rewrite !pow256_half. rewrite !pow256_S in P. lia.
Qed.

Lemma combined_plain f x y r : plain x y -> combined f x y r -> zero_combined f x y r.
Proof.
  intros (P & Q) (a & b & A & B & L & V). split; [exact L|].
  rewrite V, (widened_plain _ _ _ A), (widened_plain _ _ _ B); [reflexivity| |].
  - destruct (N.ltb_spec (len y) (len x)) as [G|G]; [right; auto|left; lia].
  - destruct (N.ltb_spec (len x) (len y)) as [G|G]; [right; auto|left; lia].
Qed.

Lemma lxor_cancel_r a b c : N.lxor a c = N.lxor b c -> a = b.
Proof.
  intros H. apply (f_equal (fun t => N.lxor t c)) in H. rewrite !N.lxor_assoc, N.lxor_nilpotent, !N.lxor_0_r in H. exact H.
Qed.

Theorem zero_exact x y :
  (plain x y -> zero_combined N.land x y (bit_and x y) /\ zero_combined N.lor x y (bit_or x y)) /\
  (zero_combined N.lxor x y (bit_xor x y) <-> plain x y).
Proof.
  destruct (bitwise_exact x y) as (A & O & Xr). split; [|split].
  - intros P. split; apply combined_plain; assumption.
  - intros (_ & Z). destruct Xr as (a & b & A' & B' & _ & V). rewrite V in Z. split; intros L.
    + rewrite N.max_r in * by lia. rewrite (widened_same _ _ B') in Z. apply lxor_cancel_r in Z.
      destruct (minus x) eqn:M; [|reflexivity]. exfalso. exact (widened_other _ _ _ L A' M Z).
    + rewrite N.max_l in * by lia. rewrite (widened_same _ _ A'), !(N.lxor_comm (le_val x)) in Z. apply lxor_cancel_r in Z.
      destruct (minus y) eqn:M; [|reflexivity]. exfalso. exact (widened_other _ _ _ L B' M Z).
  - intros P. apply combined_plain; assumption.
Qed.

Theorem zero_refuted : ~ (forall x y, zero_combined N.land x y (bit_and x y)).
Proof. intros H. destruct (H [x80] [xff; xff]) as (_ & V). vm_compute in V. discriminate V. Qed.

(* ---- complement ---- *)

Theorem not_exact x : len (bit_not x) = len x /\ le_val x + le_val (bit_not x) + 1 = pow256 (length x) /\
  bit_not (bit_not x) = x.
Proof.
  assert (L : len (bit_not x) = len x) by (unfold bit_not, len; rewrite map_length; reflexivity).
  assert (V : forall u, le_val u + le_val (bit_not u) + 1 = pow256 (length u)).
  { intros u. unfold bit_not. rewrite not_complement. unfold complement. rewrite le_val_le.
    pose proof (le_val_bound u). rewrite N.mod_small by lia. lia. }
  split; [exact L|]. split; [apply V|]. apply le_val_inj.
  - unfold bit_not, len. rewrite !map_length. reflexivity.
  - pose proof (V x) as A. pose proof (V (bit_not x)) as B.
    replace (length (bit_not x)) with (length x) in B by (unfold len in L; lia). lia.
Qed.

(* ---- parts of strings ---- *)

Lemma firstn_iff (x r : bytes) k : (k <= length x)%nat -> r = firstn k x <-> length r = k /\ exists t, x = r ++ t.
Proof.
  intros K. split.
  - intros ->. split; [apply firstn_length_le; exact K|]. exists (skipn k x). symmetry. apply firstn_skipn.
  - intros (L & t & ->). rewrite <- L, firstn_app, firstn_all, Nat.sub_diag. cbn [firstn]. rewrite app_nil_r. reflexivity.
Qed.
Lemma skipn_iff (x r : bytes) k : (k <= length x)%nat -> r = skipn k x <-> exists t, length t = k /\ x = t ++ r.
Proof.
  intros K. split.
  - intros ->. exists (firstn k x). split; [apply firstn_length_le; exact K|]. symmetry. apply firstn_skipn.
  - intros (t & L & ->). rewrite <- L, skipn_app, skipn_all, Nat.sub_diag. reflexivity.
Qed.

Lemma invalid_iff {A} (x : bytes) n (r : A) : (if len x <? n then inl InvalidRange else inr r) = inl InvalidRange <-> len x < n.
Proof. destruct (N.ltb_spec (len x) n); split; intros; try lia; try reflexivity; discriminate. Qed.
Lemma part_iff {A} (x : bytes) n (u r : A) (P : Prop) : (n <= len x -> (r = u <-> P)) -> (P -> n <= len x) ->
  (if len x <? n then inl InvalidRange else inr u) = inr r <-> P.
Proof.
  intros H G. destruct (N.ltb_spec (len x) n) as [L|L].
  - split; [discriminate|]. intros p. specialize (G p). lia.
  - rewrite <- (H L). split; congruence.
Qed.

Theorem left_exact x n r :
  (str_left x n = inr r <-> len r = n /\ exists t, x = r ++ t) /\ (str_left x n = inl InvalidRange <-> len x < n).
Proof.
  split; [|apply invalid_iff]. apply part_iff.
  - intros L. rewrite firstn_iff by (unfold len in L; lia). unfold len. split; intros (A & B); split; auto; lia.
  - intros (L & t & ->). rewrite len_app. lia.
Qed.

Theorem right_exact x n r :
  (num_right x n = inr r <-> len r = n /\ exists t, x = t ++ r) /\ (num_right x n = inl InvalidRange <-> len x < n).
Proof.
  split; [|apply invalid_iff]. apply part_iff.
  - intros L. rewrite skipn_iff by (unfold len in *; lia). split.
    + intros (t & A & ->). split; [|exists t; reflexivity]. rewrite len_app in *. unfold len in *. lia.
    + intros (A & t & ->). exists t. split; [|reflexivity]. rewrite len_app in *. unfold len in *. lia.
  - intros (L & t & ->). rewrite len_app. lia.
Qed.

Theorem left_rest x n r :
  (num_left false x n = str_left x n) /\
  (num_left true x n = inr r <-> exists t, len t = n /\ x = t ++ r) /\
  (num_left true x n = inl InvalidRange <-> len x < n).
Proof.
  split; [reflexivity|]. split; [|apply invalid_iff]. apply part_iff.
  - intros L. rewrite skipn_iff by (unfold len in L; lia). unfold len.
    split; intros (t & A & B); exists t; split; auto; lia.
  - intros (t & L & ->). rewrite len_app. lia.
Qed.

Theorem left_iff rest : (forall x n, num_left rest x n = str_left x n) <-> rest = false.
Proof.
  split; [|intros ->; reflexivity]. intros H. destruct rest; [|reflexivity]. specialize (H [x01; x02] 1). discriminate H.
Qed.

Theorem string_right_exact x n r :
  (str_right x n = inr r <->
    exists t u, x = t ++ r ++ u /\ len r + len u = n /\ len r = N.min n (len x - n)) /\
  (str_right x n = inl InvalidRange <-> len x < n).
Proof.
  split; [|apply invalid_iff]. apply part_iff.
  - intros L. split.
    + intros ->. exists (firstn (N.to_nat (len x - n)) x), (skipn (N.to_nat (len x - n)) (skipn (N.to_nat (len x - n)) x)).
      split; [rewrite !firstn_skipn; reflexivity|].
      rewrite <- len_app, firstn_skipn. unfold len in *. rewrite firstn_length, skipn_length. lia.
    + intros (t & u & E & A & B).
      assert (T : length t = N.to_nat (len x - n)) by (rewrite E, !len_app; unfold len in *; lia).
      assert (R : skipn (N.to_nat (len x - n)) x = r ++ u).
      { rewrite <- T. rewrite E. rewrite skipn_app, skipn_all, Nat.sub_diag. reflexivity. }
      rewrite R. destruct (N.leb_spec n (len x - n)) as [G|G].
      * rewrite firstn_all2 by (rewrite app_length; unfold len in *; lia).
        destruct u; [rewrite app_nil_r; reflexivity|]. unfold len in *. cbn [length] in A. lia.
      * replace (N.to_nat (len x - n)) with (length r) by (unfold len in *; lia).
        rewrite firstn_app, firstn_all, Nat.sub_diag. cbn [firstn]. rewrite app_nil_r. reflexivity.
  - intros (t & u & -> & A & _). rewrite !len_app. lia.
Qed.

Theorem string_right_iff x n : str_right x n = num_right x n <-> len x < n \/ 2 * n <= len x.
Proof.
  unfold str_right, num_right. destruct (N.ltb_spec (len x) n) as [L|L].
  - split; [left; exact L|reflexivity].
  - split.
    + intros H. right. assert (E : length (firstn (N.to_nat (len x - n)) (skipn (N.to_nat (len x - n)) x)) =
        length (skipn (N.to_nat (len x - n)) x)) by (f_equal; congruence).
      rewrite firstn_length, skipn_length in E. unfold len in *. lia.
    + intros [H|H]; [lia|]. rewrite firstn_all2; [reflexivity|]. rewrite skipn_length. unfold len in *. lia.
Qed.

Theorem string_right_refuted : ~ (forall x n, str_right x n = num_right x n).
Proof. intros H. specialize (H [x01] 1). discriminate H. Qed.

Theorem split_exact x n a b :
  (num_split x n = inr (a, b) <-> x = num_cat a b /\ len a = n) /\ (num_split x n = inl InvalidRange <-> len x < n).
Proof.
  split; [|apply invalid_iff]. unfold num_cat. apply part_iff.
  - intros L. split.
    + intros E. assert (a = firstn (N.to_nat n) x) by congruence. assert (b = skipn (N.to_nat n) x) by congruence. subst a b.
      split; [symmetry; apply firstn_skipn|]. unfold len in *. rewrite firstn_length. lia.
    + intros (-> & A). replace (N.to_nat n) with (length a) by (unfold len in A; lia).
      rewrite firstn_app, firstn_all, Nat.sub_diag, skipn_app, skipn_all, Nat.sub_diag. cbn [firstn skipn app].
      rewrite app_nil_r. reflexivity.
  - intros (-> & L). rewrite len_app. lia.
Qed.

(* ---- truth ---- *)

Theorem bool_exact x y n m : number_of x n -> number_of y m ->
  bool_not x = (n =? 0)%Z /\ bool_and x y = negb (n =? 0)%Z && negb (m =? 0)%Z /\
  bool_or x y = negb (n =? 0)%Z || negb (m =? 0)%Z.
Proof.
  intros A B. apply number_of_iff in A, B. subst.
  unfold bool_not, bool_and, bool_or. rewrite !nonzero_iff, is_zero_iff. repeat split.
Qed.
