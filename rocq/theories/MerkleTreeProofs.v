(* tree::make, tree::proofs, tree::valid, tree::operator []. *)
From Verif Require Import Base BaseProofs MerkleModel MerkleSpec MerkleProofs.
From Coq Require Import ZifyBool ZifyNat ZifyN.
Ltac Zify.zify_post_hook ::= Z.div_mod_to_equations.
Local Open Scope N_scope.

Lemma bytes_eqb_refl : forall a, bytes_eqb a a = true.
Proof. induction a; cbn [bytes_eqb]; [reflexivity|]. rewrite IHa. unfold byte_eqb. destruct a; reflexivity. Qed.

Lemma bytes_eqb_eq : forall a b, bytes_eqb a b = true <-> a = b.
Proof.
  induction a; intros [|y b]; cbn [bytes_eqb]; split; intros E; try discriminate; auto.
  - apply andb_true_iff in E. destruct E as [E F]. apply IHa in F. subst. unfold byte_eqb in E.
    apply Byte.byte_dec_bl in E. subst. reflexivity.
  - injection E as -> ->. change (byte_eqb y y && bytes_eqb b b = true). rewrite (proj2 (IHa b) eq_refl).
    unfold byte_eqb. rewrite Byte.byte_dec_lb; reflexivity.
Qed.

Lemma pow2_pos : forall k, 0 < 2 ^ k.
Proof. intros. apply N.neq_0_lt_0, N.pow_nonzero. lia. Qed.

Lemma pow2_S : forall k, 2 ^ N.of_nat (S k) = 2 * 2 ^ N.of_nat k.
Proof. intros. rewrite Nat2N.inj_succ. apply N.pow_succ_r'. Qed.

Lemma lt_width : forall n k j, 0 < n -> (j < width n k <-> j * 2 ^ N.of_nat k < n).
Proof.
  intros n k j Hn. rewrite (width_closed n k Hn). pose proof (pow2_pos (N.of_nat k)) as P.
  set (p := 2 ^ N.of_nat k) in *. split; intros E.
  - assert (j <= (n - 1) / p) by lia. pose proof (N.mul_div_le (n - 1) p ltac:(lia)).
    assert (p * j <= p * ((n - 1) / p)) by (apply N.mul_le_mono_l; assumption). rewrite (N.mul_comm j p). lia.
  - assert (j <= (n - 1) / p); [|lia]. apply N.div_le_lower_bound; [lia|]. rewrite N.mul_comm. lia.
Qed.

Lemma depth_bound : forall n b, n <= 2 ^ N.of_nat b -> (depth n <= b)%nat.
Proof.
  intros n b E. destruct (Nat.le_gt_cases (depth n) b) as [L|G]; [exact L|].
  pose proof (width_below n b G) as W. destruct (N.eq_0_gt_0_cases n) as [->|Hn].
  - unfold depth in G. cbn in G. lia.
  - apply (width_top_one n b Hn) in E. lia.
Qed.

Lemma depth_pos : forall n, 1 < n -> (0 < depth n)%nat.
Proof.
  intros n E. destruct (depth n) eqn:D; [|lia].
  pose proof (width_depth n ltac:(lia)) as W. rewrite D in W. cbn [width] in W. lia.
Qed.

Section Tree.
Variable H : bytes -> bytes.
Notation node := (node H).
Notation subtree := (subtree H).

Lemma subtree_root : forall l k j, dt_root (subtree l k j) = Some (node l k j).
Proof. intros l [|k] j; reflexivity. Qed.

Lemma subtree_not_empty : forall l k j, subtree l k j <> Nil.
Proof. intros l [|k] j; discriminate. Qed.

(* ---- make ---- *)

Lemma build_level_from : forall l k m m' j,
  2 * j + N.of_nat m' = width (count l) k -> N.of_nat m = (N.of_nat m' + 1) / 2 ->
  build_level (map (node l (S k)) (upto_from j m)) (map (subtree l k) (upto_from (2 * j) m')) =
  Some (map (subtree l (S k)) (upto_from j m)).
Proof.
  intros l k. induction m; intros m' j W E.
  - reflexivity.
  - destruct m' as [|[|m']]; [lia| |].
    + replace m with 0%nat in * by lia. cbn [upto_from map build_level option_map].
      cbn [MerkleSpec.subtree]. destruct (N.ltb_spec (2 * j + 1) (width (count l) k)); [lia|]. reflexivity.
    + cbn [upto_from map build_level].
      replace (2 * j + 1 + 1) with (2 * (j + 1)) by lia. rewrite IHm by lia. cbn [option_map].
      cbn [MerkleSpec.subtree]. destruct (N.ltb_spec (2 * j + 1) (width (count l) k)); [|lia]. reflexivity.
Qed.

Lemma build_level_exact : forall l k,
  build_level (rounds H (S k) l) (map (subtree l k) (upto (width (count l) k))) =
  Some (map (subtree l (S k)) (upto (width (count l) (S k)))).
Proof.
  intros l k. rewrite rounds_list. unfold upto. change 0 with (2 * 0) at 2. apply build_level_from.
  - lia.
  - cbn [width]. lia.
Qed.

Lemma make_loop_exact : forall l, l <> [] -> count l < 4294967296 -> forall fuel k,
  (k <= depth (count l))%nat -> (depth (count l) - k <= fuel)%nat ->
  make_loop H fuel (rounds H k l) (map (subtree l k) (upto (width (count l) k))) (N.of_nat k + 1) =
  Some ([subtree l (depth (count l)) 0], N.of_nat (depth (count l)) + 1).
Proof.
  intros l Ne Hn. assert (D : (depth (count l) <= 32)%nat) by (apply depth_bound; change (2 ^ N.of_nat 32) with 4294967296; lia).
  assert (Z := nonempty_count l Ne).
  assert (Top : forall fuel, make_loop H fuel (rounds H (depth (count l)) l) (map (subtree l (depth (count l))) (upto (width (count l) (depth (count l)))))
      (N.of_nat (depth (count l)) + 1) = Some ([subtree l (depth (count l)) 0], N.of_nat (depth (count l)) + 1)).
  { intros fuel. pose proof (rounds_count H (depth (count l)) l) as C. unfold count in C at 1.
    rewrite (width_depth _ Z) in *. destruct fuel; cbn [make_loop]; rewrite C; reflexivity. }
  induction fuel; intros k Hk Hf.
  - replace k with (depth (count l)) by lia. apply Top.
  - destruct (Nat.eq_dec k (depth (count l))) as [->|NE]; [apply Top|].
    cbn [make_loop]. pose proof (rounds_count H k l) as C. unfold count in C at 1. rewrite C.
    pose proof (width_below (count l) k ltac:(lia)) as W.
    destruct (N.ltb_spec 1 (width (count l) k)); [|lia].
    change (MerkleModel.round H (rounds H k l)) with (rounds H (S k) l).
    rewrite build_level_exact. rewrite <- (IHfuel (S k)) by lia. f_equal. unfold w32. lia.
Qed.

Lemma map_leaf_subtree : forall l, map dt_leaf l = map (subtree l 0) (upto (width (count l) 0)).
Proof.
  intros l. rewrite <- (list_upto l) at 1. rewrite map_map. reflexivity.
Qed.

Lemma tree_make_exact : forall l, l <> [] -> count l < 4294967296 -> tree_make H l = Some (tree_of H l).
Proof.
  intros l Ne Hn. assert (Z := nonempty_count l Ne).
  destruct l as [|a [|b r]]; [congruence|reflexivity|].
  set (l := a :: b :: r) in *.
  assert (1 < count l) by (unfold l; rewrite !count_cons; lia).
  unfold tree_make. change (a :: b :: r) with l. unfold l at 1.
  change (MerkleModel.round H l) with (rounds H 1 l).
  rewrite map_leaf_subtree, build_level_exact.
  change 2 with (N.of_nat 1 + 1) at 1. rewrite (make_loop_exact l Ne Hn (length l) 1).
  - unfold tree_of. do 2 f_equal. unfold w32. unfold count in *. lia.
  - apply depth_pos. assumption.
  - pose proof (depth_le (count l) Z). unfold count in *. lia.
Qed.

Lemma tree_make_empty : tree_make H [] = None.
Proof. reflexivity. Qed.

(* ---- proofs ---- *)

Lemma sibling_digests_snoc : forall l m k i,
  sibling_digests H l k i (S m) =
  sibling_digests H l k i m ++ [Some (node l (k + m) (sibling_position (width (count l) (k + m)) (i / 2 ^ N.of_nat m)))].
Proof.
  intros l. induction m; intros k i.
  - cbn [sibling_digests app]. change (2 ^ N.of_nat 0) with 1. rewrite N.div_1_r, Nat.add_0_r. reflexivity.
  - change (sibling_digests H l k i (S (S m))) with
      (Some (node l k (sibling_position (width (count l) k) i)) :: sibling_digests H l (S k) (i / 2) (S m)).
    rewrite IHm. cbn [sibling_digests app]. do 2 f_equal. rewrite pow2_S, <- N.div_div by (try apply N.pow_nonzero; lia).
    replace (S k + m)%nat with (k + S m)%nat by lia. reflexivity.
Qed.

(* the leaves below position j of level k *)
Definition below (n : N) (k : nat) (j : N) : nat := N.to_nat (N.min (2 ^ N.of_nat k) (n - j * 2 ^ N.of_nat k)).
Definition leaves_below (n : N) (k : nat) (j : N) : list N := upto_from (j * 2 ^ N.of_nat k) (below n k j).

Lemma leaves_below_In : forall n k j i, In i (leaves_below n k j) -> i / 2 ^ N.of_nat k = j /\ i < n.
Proof.
  intros n k j i E. unfold leaves_below, below in E. apply upto_from_In in E. pose proof (pow2_pos (N.of_nat k)) as P.
  set (p := 2 ^ N.of_nat k) in *. split; [|lia].
  symmetry. apply (N.div_unique i p j (i - j * p)); [|rewrite (N.mul_comm p)]; lia.
Qed.

Lemma leaves_below_S : forall n k j, 0 < n -> j < width n (S k) ->
  leaves_below n (S k) j = leaves_below n k (2 * j) ++ (if 2 * j + 1 <? width n k then leaves_below n k (2 * j + 1) else []).
Proof.
  intros n k j Hn E. apply (lt_width n (S k) j Hn) in E.
  assert (X := lt_width n k (2 * j + 1) Hn). unfold leaves_below, below. rewrite !pow2_S in *.
  pose proof (pow2_pos (N.of_nat k)) as P. set (p := 2 ^ N.of_nat k) in *.
  replace (j * (2 * p)) with (2 * j * p) in * by lia.
  replace ((2 * j + 1) * p) with (2 * j * p + p) in * by lia.
  set (s := 2 * j * p) in *.
  destruct (N.ltb_spec (2 * j + 1) (width n k)) as [L|L].
  - replace (N.to_nat (N.min (2 * p) (n - s))) with (N.to_nat (N.min p (n - s)) + N.to_nat (N.min p (n - (s + p))))%nat by lia.
    rewrite upto_from_app. do 2 f_equal. lia.
  - rewrite app_nil_r. f_equal. lia.
Qed.

Definition proof_below (l : list bytes) (k : nat) (D : digests) (r : bytes) (i : N) : proof :=
  mkproof (mkbranch (mkleaf (nthd l i) i) (sibling_digests H l 0 i k ++ D)) r.

Lemma append_proofs_exact : forall l, count l < 4294967296 -> forall k j D r, j < width (count l) k -> (k < 64)%nat ->
  append_proofs (subtree l k j) j D r (N.of_nat k + 1) = Some (map (proof_below l k D r) (leaves_below (count l) k j)).
Proof.
  intros l Hn. induction k; intros j D r E K.
  - cbn [MerkleSpec.subtree append_proofs]. cbn [width] in E. change (N.of_nat 0 + 1 =? 1) with true. cbv iota.
    unfold leaves_below, below. change (2 ^ N.of_nat 0) with 1.
    replace (N.to_nat (N.min 1 (count l - j * 1))) with 1%nat by lia.
    cbn [upto_from map]. replace (j * 1) with j by lia. reflexivity.
  - assert (Z : 0 < count l) by (destruct (count l) eqn:C; [exfalso; clear -E; induction k; cbn [width] in *; lia|lia]).
    assert (J : j * 2 ^ N.of_nat (S k) < count l) by (apply lt_width; assumption).
    rewrite pow2_S in J. pose proof (pow2_pos (N.of_nat k)) as P. set (p := 2 ^ N.of_nat k) in *.
    assert (J2 : 2 * j < count l). { apply N.le_lt_trans with (j * (2 * p)); [|exact J]. rewrite (N.mul_comm 2 p), N.mul_assoc, (N.mul_comm _ 2).
      apply N.mul_le_mono_l. rewrite <- (N.mul_1_r j) at 1. apply N.mul_le_mono_l. lia. }
    rewrite leaves_below_S by assumption.
    cbn [MerkleSpec.subtree append_proofs].
    replace (N.of_nat (S k) + 1 =? 1) with false by lia. rewrite subtree_root.
    replace (w32 (N.of_nat (S k) + 1 + 4294967295)) with (N.of_nat k + 1) by (unfold w32; lia).
    replace (w32 (2 * j)) with (2 * j) by (unfold w32; lia).
    assert (L2 : 2 * j < width (count l) k) by (cbn [width] in E; lia).
    assert (Hsib : forall d q, d = node l k (sibling_position (width (count l) k) q) ->
        forall i, In i (leaves_below (count l) k q) -> proof_below l k (Some d :: D) r i = proof_below l (S k) D r i).
    { intros d q Ed i Ii. unfold proof_below. rewrite sibling_digests_snoc, <- app_assoc. cbn [app Nat.add].
      apply leaves_below_In in Ii. destruct Ii as [-> _]. rewrite Ed. reflexivity. }
    assert (Ev : N.odd (2 * j) = false) by (rewrite <- N.negb_even; rewrite (proj2 (N.even_spec (2 * j))); [reflexivity|exists j; lia]).
    assert (Od : N.odd (2 * j + 1) = true) by (apply N.odd_spec; exists j; lia).
    destruct (N.ltb_spec (2 * j + 1) (width (count l) k)) as [L|L].
    + destruct (subtree l k (2 * j + 1)) as [|dr t1 t2] eqn:T; [exfalso; apply (subtree_not_empty _ _ _ T)|].
      pose proof (subtree_root l k (2 * j + 1)) as R. rewrite T in R. cbn [dt_root] in R. assert (R' : dr = node l k (2 * j + 1)) by congruence. clear R. subst dr. rewrite <- T.
      replace (w32 (2 * j + 1)) with (2 * j + 1) by (unfold w32; lia).
      rewrite !IHk by (assumption || lia). rewrite map_app. do 2 f_equal; apply map_ext_in; apply Hsib.
      * unfold sibling_position. rewrite Ev. f_equal. lia.
      * unfold sibling_position. rewrite Od. f_equal. lia.
    + rewrite app_nil_r. rewrite IHk by (assumption || lia). f_equal. apply map_ext_in, Hsib.
      unfold sibling_position. rewrite Ev. f_equal. lia.
Qed.

Lemma tree_proofs_exact : forall l, l <> [] -> count l < 4294967296 ->
  tree_proofs (tree_of H l) = Some (map (proof_of H l) (upto (count l))).
Proof.
  intros l Ne Hn. assert (Z := nonempty_count l Ne). unfold tree_proofs, tree_of. cbn [t_height t_width t_tree].
  replace ((N.of_nat (depth (count l)) + 1 =? 0) || (count l =? 0)) with false by lia.
  destruct (depth (count l)) as [|k] eqn:D.
  - pose proof (width_depth (count l) Z) as W. rewrite D in W. cbn [width] in W.
    cbn [MerkleSpec.subtree]. rewrite W. change (N.of_nat 0 + 1 =? 1) with true. cbv iota.
    cbn [upto upto_from]. change (upto 1) with [0]. cbn [map]. unfold proof_of, merkle_root. rewrite D. reflexivity.
  - cbn [MerkleSpec.subtree]. replace (N.of_nat (S k) + 1 =? 1) with false by lia.
    assert (W1 : 1 < width (count l) k) by (apply width_below; lia).
    assert (W2 : width (count l) (S k) = 1) by (rewrite <- D; apply width_depth; assumption).
    replace (2 * 0 + 1 <? width (count l) k) with true by lia. rewrite !subtree_root.
    assert (K : (S k <= 32)%nat) by (rewrite <- D; apply depth_bound; change (2 ^ N.of_nat 32) with 4294967296; lia).
    replace (N.of_nat (S k) + 1 - 1) with (N.of_nat k + 1) by lia.
    change (2 * 0) with 0. change (0 + 1) with 1.
    rewrite !append_proofs_exact by lia. rewrite <- map_app || idtac.
    assert (U : upto (count l) = leaves_below (count l) k 0 ++ leaves_below (count l) k 1).
    { pose proof (leaves_below_S (count l) k 0 Z ltac:(lia)) as B. change (2 * 0 + 1) with 1 in B. change (2 * 0) with 0 in B.
      replace (1 <? width (count l) k) with true in B by lia. rewrite <- B.
      unfold leaves_below, below, upto. rewrite N.mul_0_l. f_equal.
      apply (width_top_one _ _ Z) in W2. lia. }
    rewrite U, map_app. do 2 f_equal; apply map_ext_in; intros i Ii; unfold proof_below, proof_of; rewrite D;
      rewrite sibling_digests_snoc; apply leaves_below_In in Ii; destruct Ii as [-> _]; cbn [Nat.add]; unfold merkle_root; rewrite D;
      unfold sibling_position; cbn [N.odd]; do 4 f_equal.
    + replace (N.min (0 + 1) (width (count l) k - 1)) with 1 by lia. reflexivity.
Qed.

(* ---- valid ---- *)

Lemma check_tree_exact : forall l, count l < 4294967296 -> forall k j, j < width (count l) k -> (k <= 32)%nat ->
  check_tree H (subtree l k j) (N.of_nat (below (count l) k j)) (N.of_nat k + 1) =
  Some (forallb (fun i => digest_valid (nthd l i)) (leaves_below (count l) k j)).
Proof.
  intros l Hn. induction k; intros j E K.
  - cbn [MerkleSpec.subtree check_tree]. cbn [width] in E. change (N.of_nat 0 + 1 =? 0) with false. change (N.of_nat 0 + 1 =? 1) with true. cbv iota.
    unfold leaves_below, below. change (2 ^ N.of_nat 0) with 1.
    replace (N.to_nat (N.min 1 (count l - j * 1))) with 1%nat by lia.
    cbn [upto_from forallb dt_empty]. replace (j * 1) with j by lia. cbn [N.of_nat N.eqb Pos.of_succ_nat Pos.eqb andb].
    rewrite andb_true_r. reflexivity.
  - assert (Z : 0 < count l) by (destruct (count l) eqn:C; [exfalso; clear -E; induction k; cbn [width] in *; lia|lia]).
    assert (J : j * 2 ^ N.of_nat (S k) < count l) by (apply lt_width; assumption).
    assert (B := leaves_below_S (count l) k j Z E).
    assert (X := lt_width (count l) k (2 * j + 1) Z).
    assert (L2 : 2 * j < width (count l) k) by (cbn [width] in E; lia).
    cbn [MerkleSpec.subtree check_tree].
    replace (N.of_nat (S k) + 1 =? 0) with false by lia. replace (N.of_nat (S k) + 1 =? 1) with false by lia. rewrite subtree_root.
    replace (N.of_nat (S k) + 1 - 1) with (N.of_nat k + 1) by lia. replace (N.of_nat (S k) + 1 - 2) with (N.of_nat k) by lia.
    destruct (N.ltb_spec (2 * j + 1) (width (count l) k)) as [L|L].
    + destruct (subtree l k (2 * j + 1)) as [|dr t1 t2] eqn:T; [exfalso; apply (subtree_not_empty _ _ _ T)|].
      pose proof (subtree_root l k (2 * j + 1)) as R. rewrite T in R. cbn [dt_root] in R. assert (R' : dr = node l k (2 * j + 1)) by congruence. clear R. subst dr. rewrite <- T.
      replace (32 <=? N.of_nat k) with false by lia. cbv zeta.
      assert (W1 : w32 (N.of_nat (below (count l) (S k) j) + 4294967296 - 2 ^ N.of_nat k) = N.of_nat (below (count l) k (2 * j + 1))).
      { unfold below, w32. rewrite pow2_S in *. apply X in L. pose proof (pow2_pos (N.of_nat k)) as P. set (p := 2 ^ N.of_nat k) in *.
        replace (j * (2 * p)) with (2 * j * p) in * by lia. replace ((2 * j + 1) * p) with (2 * j * p + p) in * by lia.
        set (s := 2 * j * p) in *. rewrite !N2Nat.id. assert (p < 4294967296) by lia.
        replace (N.min (2 * p) (count l - s) + 4294967296 - p) with (N.min p (count l - (s + p)) + 1 * 4294967296) by lia.
        rewrite N.mod_add by lia. apply N.mod_small. lia. }
      rewrite W1.
      assert (W2 : 2 ^ N.of_nat k = N.of_nat (below (count l) k (2 * j))).
      { unfold below. apply X in L. pose proof (pow2_pos (N.of_nat k)) as P. set (p := 2 ^ N.of_nat k) in *.
        replace ((2 * j + 1) * p) with (2 * j * p + p) in * by lia. lia. }
      rewrite W2. rewrite !IHk by (assumption || lia). rewrite B, forallb_app.
      destruct (forallb _ (leaves_below (count l) k (2 * j + 1))); [|rewrite andb_false_r; reflexivity].
      rewrite andb_true_r. destruct (forallb _ (leaves_below (count l) k (2 * j))); [|reflexivity].
      f_equal. cbn [MerkleSpec.node]. unfold hcat. rewrite N.min_l by lia. apply bytes_eqb_refl.
    + rewrite B, app_nil_r.
      assert (W2 : below (count l) (S k) j = below (count l) k (2 * j)).
      { unfold below. rewrite pow2_S in *. pose proof (pow2_pos (N.of_nat k)) as P. set (p := 2 ^ N.of_nat k) in *.
        replace (j * (2 * p)) with (2 * j * p) in * by lia. replace ((2 * j + 1) * p) with (2 * j * p + p) in * by lia. lia. }
      rewrite W2, IHk by (assumption || lia).
      destruct (forallb _ (leaves_below (count l) k (2 * j))); [|reflexivity].
      f_equal. cbn [MerkleSpec.node]. unfold hcat. replace (N.min (2 * j + 1) (width (count l) k - 1)) with (2 * j) by lia. apply bytes_eqb_refl.
Qed.

Lemma tree_valid_exact : forall l, l <> [] -> count l < 4294967296 ->
  tree_valid H (tree_of H l) = Some (forallb digest_valid l).
Proof.
  intros l Ne Hn. assert (Z := nonempty_count l Ne). unfold tree_valid, tree_of. cbn [t_height t_width t_tree].
  replace ((N.of_nat (depth (count l)) + 1 =? 0) || (count l =? 0)) with false by lia.
  assert (W := width_depth (count l) Z).
  assert (B : below (count l) (depth (count l)) 0 = N.to_nat (count l)).
  { unfold below. rewrite N.mul_0_l. apply (width_top_one _ _ Z) in W. lia. }
  rewrite <- (N2Nat.id (count l)) at 2. rewrite <- B. rewrite check_tree_exact.
  - f_equal. rewrite <- (list_upto l) at 3. rewrite forallb_map || idtac.
    unfold leaves_below. rewrite B, N.mul_0_l. fold (upto (count l)).
    induction (upto (count l)); cbn [map forallb]; [reflexivity|]. rewrite IHl0. reflexivity.
  - assumption.
  - lia.
  - apply depth_bound. change (2 ^ N.of_nat 32) with 4294967296. lia.
Qed.

End Tree.
