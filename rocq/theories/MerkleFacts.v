(* What roots and proofs determine, and what they leave open. *)
From Verif Require Import Base BaseProofs MerkleModel MerkleSpec MerkleProofs MerkleTreeProofs MerkleServerProofs DualProofs.
From Coq Require Import Sorting.Permutation.
From Coq Require Import ZifyBool ZifyNat ZifyN.
Ltac Zify.zify_post_hook ::= Z.div_mod_to_equations.
Local Open Scope N_scope.

Lemma clip_from_lt : forall n i k c, 0 < n -> c < width n k -> clip_from n i k c < n.
Proof.
  intros n i k. induction k; intros c Z C; cbn [clip_from]; [exact C|]. apply IHk; [exact Z|].
  pose proof (width_pos n k Z). lia.
Qed.
Lemma clip_lt : forall n i, 0 < n -> clip n i < n.
Proof. intros n i Z. apply clip_from_lt; [exact Z|]. rewrite (width_depth n Z). lia. Qed.

Lemma clip_from_mod : forall n i j k c, (forall m, (m < k)%nat -> (i / 2 ^ N.of_nat m) mod 2 = (j / 2 ^ N.of_nat m) mod 2) ->
  clip_from n i k c = clip_from n j k c.
Proof.
  intros n i j. induction k; intros c E; cbn [clip_from]; [reflexivity|]. rewrite (E k) by lia. apply IHk. intros; apply E; lia.
Qed.

Section Facts.
Variable H : bytes -> bytes.

(* ---- duplication ---- *)

Lemma round_duplicate : forall k l, (length l = 2 * k + 1)%nat -> round H (l ++ [last l zero_digest]) = round H l.
Proof.
  induction k; intros l L.
  - destruct l as [|a [|b l]]; cbn [length] in L; try lia. reflexivity.
  - destruct l as [|a [|b l]]; cbn [length] in L; try lia.
    destruct l as [|c l]; [cbn [length] in L; lia|]. set (l0 := c :: l) in *.
    change (round H (a :: b :: (l0 ++ [last l0 zero_digest])) = round H (a :: b :: l0)). cbn [round]. f_equal. apply IHk. lia.
Qed.

Lemma root_loop_fuel : forall f g l a b, root_loop H f l = Some a -> root_loop H g l = Some b -> a = b.
Proof.
  induction f; intros g l a b A B; destruct l as [|x [|y l]]; cbn [root_loop] in A; try discriminate.
  - destruct g; cbn [root_loop] in B; congruence.
  - destruct g; cbn [root_loop] in B; congruence.
  - destruct g; cbn [root_loop] in B; [discriminate|]. eapply IHf; eassumption.
Qed.

Lemma root_of_round : forall l, (2 <= length l)%nat -> root_list H l = root_list H (round H l).
Proof.
  intros l L. assert (Ne : l <> []) by (destruct l; [cbn in L; lia|discriminate]).
  assert (Nr : round H l <> []) by (destruct l as [|? [|? ?]]; [congruence|discriminate|discriminate]).
  pose proof (root_list_exact H l Ne) as A. pose proof (root_list_exact H (round H l) Nr) as B.
  rewrite A, B. f_equal. unfold root_list in A, B. destruct l as [|x [|y l]]; [congruence|cbn in L; lia|].
  destruct (round H (x :: y :: l)) as [|z zs] eqn:R; [congruence|].
  assert (A' : root_loop H (length (y :: l)) (round H (x :: y :: l)) = Some (merkle_root H (x :: y :: l))) by exact A.
  rewrite R in A'. eapply root_loop_fuel; eassumption.
Qed.

Lemma duplicate_root : forall l, N.odd (count l) = true -> 1 < count l -> root_list H (l ++ [last l zero_digest]) = root_list H l.
Proof.
  intros l O L. apply N.odd_spec in O. destruct O as [q O]. unfold count in *.
  rewrite (root_of_round (l ++ _)) by (rewrite app_length; cbn [length]; lia).
  rewrite (round_duplicate (N.to_nat q)) by lia. symmetry. apply root_of_round. lia.
Qed.

Lemma duplicate_merkle_root : forall l, N.odd (count l) = true -> 1 < count l ->
  merkle_root H (l ++ [last l zero_digest]) = merkle_root H l.
Proof.
  intros l O L. assert (Ne : l <> []) by (intros ->; discriminate O).
  assert (E := duplicate_root l O L). rewrite !root_list_exact in E by (try exact Ne; destruct l; discriminate). congruence.
Qed.

(* ---- what a root determines ---- *)

Lemma complete_roots_from : forall l l' k c c', c < width (count l) k -> c' < width (count l') k ->
  (forall i, i < 2 ^ N.of_nat k -> nthd l (clip_from (count l) i k c) = nthd l' (clip_from (count l') i k c')) ->
  node H l k c = node H l' k c'.
Proof.
  intros l l'. induction k; intros c c' C C' E.
  - specialize (E 0 ltac:(change (2 ^ N.of_nat 0) with 1; lia)). exact E.
  - cbn [node]. cbn [width] in C, C'.
    assert (P : 2 ^ N.of_nat (S k) = 2 * 2 ^ N.of_nat k) by (rewrite Nat2N.inj_succ, N.pow_succ_r'; reflexivity).
    assert (G : forall b, b = 0 \/ b = 1 -> node H l k (N.min (2 * c + b) (width (count l) k - 1)) = node H l' k (N.min (2 * c' + b) (width (count l') k - 1))).
    { intros b B. apply IHk; try lia. intros i I.
      assert (Ei := E (b * 2 ^ N.of_nat k + i)). cbn [clip_from] in Ei.
      assert (Q : (b * 2 ^ N.of_nat k + i) / 2 ^ N.of_nat k = b) by (rewrite N.div_add_l by lia; rewrite N.div_small by exact I; lia).
      rewrite Q in Ei. replace (b mod 2) with b in Ei by (destruct B; subst; reflexivity).
      assert (M : forall n c0, clip_from n (b * 2 ^ N.of_nat k + i) k c0 = clip_from n i k c0).
      { intros n c0. apply clip_from_mod. intros m Hm.
        replace (2 ^ N.of_nat k) with (2 ^ (N.of_nat k - N.of_nat m - 1) * 2 * 2 ^ N.of_nat m).
        2:{ rewrite <- (N.pow_1_r 2) at 2. rewrite <- !N.pow_add_r. f_equal. lia. }
        rewrite !N.mul_assoc. rewrite N.div_add_l by (apply N.pow_nonzero; lia). rewrite N.add_comm, N.mod_add by lia. reflexivity. }
      rewrite !M in Ei. apply Ei. destruct B; subst; lia. }
    assert (G0 := G 0 (or_introl eq_refl)). assert (G1 := G 1 (or_intror eq_refl)).
    rewrite !N.add_0_r in G0. rewrite (N.min_l (2 * c)), (N.min_l (2 * c')) in G0 by lia. rewrite G0, G1. reflexivity.
Qed.

Lemma complete_roots : forall l l', l <> [] -> l' <> [] -> depth (count l) = depth (count l') ->
  (forall i, i < 2 ^ N.of_nat (depth (count l)) -> nthd l (clip (count l) i) = nthd l' (clip (count l') i)) ->
  merkle_root H l = merkle_root H l'.
Proof.
  intros l l' Ne Ne' D E. unfold merkle_root. unfold clip in E. rewrite <- D in *.
  assert (W := width_depth _ (nonempty_count l Ne)). assert (W' := width_depth _ (nonempty_count l' Ne')). rewrite <- D in W'.
  apply complete_roots_from; try lia. exact E.
Qed.

Section Sized.
Hypothesis H32 : forall m, length (H m) = 32%nat.

Lemma roots_determine_from : forall l l' i k c c', sized_leaf_digests l -> sized_leaf_digests l' ->
  c < width (count l) k -> c' < width (count l') k -> node H l k c = node H l' k c' ->
  nthd l (clip_from (count l) i k c) = nthd l' (clip_from (count l') i k c') \/ collision H (level_preimages H l k) (level_preimages H l' k).
Proof.
  intros l l' i. induction k; intros c c' Sl Sl' C C' E; [left; exact E|].
  assert (W := C). assert (W' := C'). cbn [width] in C, C'.
  set (p := node H l k (2 * c) ++ node H l k (N.min (2 * c + 1) (width (count l) k - 1))).
  set (p' := node H l' k (2 * c') ++ node H l' k (N.min (2 * c' + 1) (width (count l') k - 1))).
  destruct (list_eq_dec Byte.byte_eq_dec p p') as [P|P].
  - unfold p, p' in P. pose proof (node_sized H H32 l k (2 * c) Sl) as A. pose proof (node_sized H H32 l' k (2 * c') Sl') as A'. unfold sized in A, A'.
    apply app_inj_len in P; [|congruence]. destruct P as [P0 P1].
    cbn [clip_from].
    assert (Ev : node H l k (N.min (2 * c + (i / 2 ^ N.of_nat k) mod 2) (width (count l) k - 1)) = node H l' k (N.min (2 * c' + (i / 2 ^ N.of_nat k) mod 2) (width (count l') k - 1))).
    { assert (B : (i / 2 ^ N.of_nat k) mod 2 = 0 \/ (i / 2 ^ N.of_nat k) mod 2 = 1) by (generalize (i / 2 ^ N.of_nat k); intros; lia).
      destruct B as [-> | ->]; [|exact P1]. rewrite !N.add_0_r, !N.min_l by lia. exact P0. }
    generalize dependent ((i / 2 ^ N.of_nat k) mod 2). intros b Ev.
    destruct (IHk (N.min (2 * c + b) (width (count l) k - 1)) (N.min (2 * c' + b) (width (count l') k - 1)) Sl Sl') as [G|G]; [lia|lia|exact Ev|left; exact G|right].
    destruct G as (x & y & X & Y & Z). exists x, y. cbn [level_preimages]. split; [apply in_or_app; right; exact X|]. split; [apply in_or_app; right; exact Y|exact Z].
  - right. exists p, p'. split; [apply (level_preimages_In H l (S k) k); [lia|exact W]|]. split; [apply (level_preimages_In H l' (S k) k); [lia|exact W']|]. split; [exact P|exact E].
Qed.

Lemma roots_determine : forall l l', l <> [] -> l' <> [] -> sized_leaf_digests l -> sized_leaf_digests l' ->
  depth (count l) = depth (count l') -> merkle_root H l = merkle_root H l' ->
  (forall i, nthd l (clip (count l) i) = nthd l' (clip (count l') i)) \/ collision H (tree_preimages H l) (tree_preimages H l').
Proof.
  intros l l' Ne Ne' Sl Sl' D E.
  assert (W := width_depth _ (nonempty_count l Ne)). assert (W' := width_depth _ (nonempty_count l' Ne')).
  assert (G : forall i, nthd l (clip (count l) i) = nthd l' (clip (count l') i) \/ collision H (tree_preimages H l) (tree_preimages H l')).
  { intros i. unfold clip, tree_preimages. unfold merkle_root in E. rewrite <- D in *. apply roots_determine_from; auto; lia. }
  assert (F : forall m, (forall i, i < N.of_nat m -> nthd l (clip (count l) i) = nthd l' (clip (count l') i)) \/ collision H (tree_preimages H l) (tree_preimages H l')).
  { induction m as [|m IH]; [left; intros; lia|]. destruct IH as [IH|IH]; [|auto]. destruct (G (N.of_nat m)) as [G1|G1]; [|auto]. left. intros i I.
    destruct (N.eq_dec i (N.of_nat m)) as [->|]; [exact G1|apply IH; lia]. }
  destruct (F (N.to_nat (2 ^ N.of_nat (depth (count l))))) as [A|A]; [left|auto]. rewrite N2Nat.id in A. intros i.
  assert (P : 2 ^ N.of_nat (depth (count l)) <> 0) by (apply N.pow_nonzero; lia).
  assert (M : forall n, depth n = depth (count l) -> clip n i = clip n (i mod 2 ^ N.of_nat (depth (count l)))).
  { intros n Dn. unfold clip. apply clip_from_mod. intros m Hm. rewrite Dn in Hm.
    rewrite (N.div_mod i (2 ^ N.of_nat (depth (count l))) P) at 1.
    set (r := i mod _). set (q := i / 2 ^ N.of_nat (depth (count l))).
    replace (2 ^ N.of_nat (depth (count l)) * q + r) with (q * 2 ^ (N.of_nat (depth (count l)) - N.of_nat m - 1) * 2 * 2 ^ N.of_nat m + r).
    2:{ f_equal. rewrite <- !N.mul_assoc, N.mul_comm. f_equal. rewrite <- (N.pow_1_r 2) at 2. rewrite <- !N.pow_add_r. f_equal. lia. }
    rewrite N.div_add_l by (apply N.pow_nonzero; lia). rewrite N.add_comm, N.mod_add by lia. reflexivity. }
  rewrite (M (count l)), (M (count l')) by congruence. apply A. apply N.mod_lt, P.
Qed.

Lemma equal_lengths : forall l l', sized_leaf_digests l -> sized_leaf_digests l' -> length l = length l' ->
  root_list H l = root_list H l' -> l = l' \/ collision H (tree_preimages H l) (tree_preimages H l').
Proof.
  intros l l' Sl Sl' L E. destruct l as [|a l]; [destruct l'; [auto|discriminate]|]. destruct l' as [|a' l']; [discriminate|].
  rewrite !root_list_exact in E by discriminate. set (x := a :: l) in *. set (x' := a' :: l') in *.
  destruct (roots_determine x x') as [A|A]; try discriminate; auto.
  { unfold count. congruence. }
  { congruence. }
  left. apply (nth_ext _ _ zero_digest zero_digest L). intros n Hn. specialize (A (N.of_nat n)).
  rewrite !clip_inside in A by (unfold count; lia). unfold nthd in A. rewrite Nat2N.id in A. exact A.
Qed.

Lemma list_sound_inside : forall l lf ds, l <> [] -> sized_leaf_digests l -> sized (l_digest lf) -> Forall sized_opt ds ->
  length ds = depth (count l) -> root_leaf H lf ds = merkle_root H l ->
  In (l_digest lf) l \/ collision H (branch_preimages H lf ds) (tree_preimages H l).
Proof.
  intros l lf ds Ne Sl Sz F L R. destruct (list_sound H H32 l lf ds Ne Sl Sz F L R) as [E|E]; [left|right; exact E].
  rewrite E. apply nthd_in, clip_lt, nonempty_count, Ne.
Qed.

End Sized.

(* ---- proofs of inner nodes; proofs at other positions ---- *)

Lemma inner_node_derives : forall l k j, l <> [] -> (k <= depth (count l))%nat -> j < width (count l) k ->
  branch_root H (mkbranch (mkleaf (node H l k j) j) (sibling_digests H l k j (depth (count l) - k))) = merkle_root H l.
Proof.
  intros l k j Ne K J. unfold branch_root, root_leaf. cbn [b_leaf b_digests]. rewrite climb_siblings by exact J. cbn [l_digest].
  unfold merkle_root. replace (k + (depth (count l) - k))%nat with (depth (count l)) by lia. f_equal.
  apply N.div_small. assert (Z := nonempty_count l Ne).
  pose proof (pos_shift) as _.
  assert (W := width_depth _ Z). replace (depth (count l)) with (k + (depth (count l) - k))%nat in W by lia.
  rewrite <- width_width in W. apply width_top_one in W; [lia|]. apply width_pos, Z.
Qed.

Lemma odd_shift : forall i q m, N.odd (i + q * 2 ^ N.of_nat (S m)) = N.odd i.
Proof.
  intros i q m. rewrite Nat2N.inj_succ, N.pow_succ_r'. rewrite N.odd_add.
  replace (q * (2 * 2 ^ N.of_nat m)) with (2 * (q * 2 ^ N.of_nat m)) by lia. rewrite N.odd_mul. apply xorb_false_r.
Qed.

Lemma climb_shift : forall ds d i q, l_digest (climb H (mkleaf d (i + q * 2 ^ N.of_nat (length ds))) ds) = l_digest (climb H (mkleaf d i) ds).
Proof.
  induction ds as [|m ds IH]; intros d i q; [reflexivity|]. cbn [length climb]. unfold leaf_next. cbn [l_digest l_index].
  rewrite odd_shift. replace ((i + q * 2 ^ N.of_nat (S (length ds))) / 2) with (i / 2 + q * 2 ^ N.of_nat (length ds)).
  2:{ rewrite Nat2N.inj_succ, N.pow_succ_r'. replace (q * (2 * 2 ^ N.of_nat (length ds))) with (q * 2 ^ N.of_nat (length ds) * 2) by lia.
      rewrite N.div_add by lia. reflexivity. }
  assert (Sb : sibling m (mkleaf d (i + q * 2 ^ N.of_nat (S (length ds)))) = sibling m (mkleaf d i)) by (destruct m; reflexivity).
  rewrite Sb. apply IH.
Qed.

Lemma proof_valid_shift : forall d i ds r q, proof_valid H (mkproof (mkbranch (mkleaf d (i + q * 2 ^ count ds)) ds) r) =
  proof_valid H (mkproof (mkbranch (mkleaf d i) ds) r).
Proof.
  intros. unfold proof_valid, branch_valid, branch_root, root_leaf. cbn [pr_root pr_branch b_leaf b_digests l_digest].
  unfold count. rewrite climb_shift. reflexivity.
Qed.

Lemma proof_valid_rest : forall p, proof_valid H p = true -> digest_valid (l_digest (b_leaf (branch_rest H (pr_branch p)))) = true ->
  proof_valid H (mkproof (branch_rest H (pr_branch p)) (pr_root p)) = true.
Proof.
  intros [[lf [|m ds]] r] V D; unfold proof_valid in *; cbn [pr_root pr_branch branch_rest b_digests b_leaf] in *; [exact V|].
  rewrite !andb_true_iff in V. destruct V as [[V1 V2] V3]. unfold branch_valid in *. cbn [b_leaf b_digests] in *.
  assert (V5 : digests_valid ds = true).
  { apply andb_true_iff in V2. destruct V2 as [_ V2]. unfold digests_valid in *. cbn [forallb] in V2. apply andb_true_iff in V2. tauto. }
  rewrite V1, D, V5. exact V3.
Qed.

Lemma proof_valid_exact : forall d i ds r, proof_valid H (mkproof (mkbranch (mkleaf d i) ds) r) = true <->
  r <> zero_digest /\ d <> zero_digest /\ (forall x, In (Some x) ds -> x <> zero_digest) /\ derive_root H (mkpath i ds) d = r.
Proof.
  intros d i ds r. unfold proof_valid, branch_valid, branch_root, derive_root. cbn [pr_root pr_branch b_leaf b_digests l_digest p_index p_digests].
  assert (V : forall x, digest_valid x = true <-> x <> zero_digest).
  { intros x. unfold digest_valid. rewrite negb_true_iff. split.
    - intros E ->. rewrite bytes_eqb_refl in E. discriminate.
    - intros N. destruct (bytes_eqb x zero_digest) eqn:E; [apply bytes_eqb_eq in E; contradiction|reflexivity]. }
  rewrite !andb_true_iff, !V, bytes_eqb_eq. unfold digests_valid. rewrite forallb_forall.
  split.
  - intros [[A [B C]] D]. repeat split; auto. intros x I. apply V. exact (C (Some x) I).
  - intros (A & B & C & D). repeat split; auto. intros [x|] I; [apply V, C, I|reflexivity].
Qed.

(* tree::valid accepts trees that make never builds *)
Lemma tall_tree_valid : forall d, digest_valid d = true ->
  tree_valid H (mktree (Node (H (d ++ d)) (dt_leaf d) Nil) 1 2) = Some true.
Proof.
  intros d V. unfold tree_valid. cbn [t_height t_width t_tree]. change ((2 =? 0) || (1 =? 0)) with false. cbv iota.
  unfold dt_leaf. cbn [check_tree dt_root]. change (2 =? 0) with false. change (2 =? 1) with false. cbv iota.
  change (2 - 1 =? 0) with false. change (2 - 1 =? 1) with true. cbv iota. change (1 =? 1) with true. cbn [dt_empty andb]. rewrite V.
  unfold hcat. rewrite bytes_eqb_refl. reflexivity.
Qed.
Lemma tall_tree_not_made : forall d l, count l < 4294967296 -> tree_make H l <> Some (mktree (Node (H (d ++ d)) (dt_leaf d) Nil) 1 2).
Proof.
  intros d l L E. destruct l as [|a l]; [rewrite tree_make_empty in E; discriminate|].
  rewrite tree_make_exact in E by (try discriminate; exact L). assert (E1 : tree_of H (a :: l) = mktree (Node (H (d ++ d)) (dt_leaf d) Nil) 1 2) by congruence.
  assert (W := f_equal t_width E1). assert (T := f_equal t_height E1). unfold tree_of in W, T. cbn [t_width t_height] in W, T.
  rewrite W in T. discriminate T.
Qed.


(* ---- dual: histories of additions ---- *)

Section Sums.
Variables (ins : branch -> list branch -> list branch) (ord : list branch -> list branch) (dup : option (path -> path -> path)).
Hypothesis H32 : forall m, length (H m) = 32%nat.
Hypothesis Ins : inserts ins.
Hypothesis Ord : forall l, Permutation (ord l) l.

Lemma paths_valid_In : forall m, paths_valid m = true <-> (forall e, In e m -> digest_valid (fst e) && digests_valid (p_digests (snd e)) = true).
Proof. intros m. unfold paths_valid. apply forallb_forall. Qed.

Lemma longest_le : forall L m, (forall e, In e m -> full_path L e) -> (longest m <= L)%nat.
Proof.
  intros L. induction m as [|e m IH]; intros A; cbn [longest]; [lia|]. destruct (A e (or_introl eq_refl)) as (_ & -> & _).
  specialize (IH ltac:(intros; apply A; right; assumption)). lia.
Qed.

Lemma full_agrees : forall L d, (forall e, In e (d_paths d) -> full_path L e /\ derive_root H (snd e) (fst e) = d_root d) ->
  dual_agrees H d (d_root d) 0.
Proof.
  intros L d A e E. destruct (A e E) as [(_ & Le & Be & _) Re]. split; [exact Re|]. unfold count. rewrite Le. apply N.div_small, Be.
Qed.

Lemma full_valid : forall L d fuel, dual_well_formed d -> (S L <= fuel)%nat ->
  (forall e, In e (d_paths d) -> full_path L e /\ derive_root H (snd e) (fst e) = d_root d) ->
  dual_valid H ins fuel d = Done true.
Proof.
  intros L d fuel W F A. rewrite (dual_valid_agrees H ins Ins d (d_root d) 0 W (full_agrees L d A)).
  - rewrite bytes_eqb_refl. reflexivity.
  - assert (longest (d_paths d) <= L)%nat by (apply longest_le; intros e E; apply A, E). lia.
Qed.

Lemma dual_sum_exact : forall L fuel ds a, (L <= 31)%nat -> (S L <= fuel)%nat -> dual_well_formed a ->
  (forall d, In d ds -> d_root d = d_root a /\ paths_valid (d_paths d) = true) ->
  (forall e, In e (d_paths a ++ concat (map d_paths ds)) -> full_path L e /\ derive_root H (snd e) (fst e) = d_root a) ->
  same_positions (d_paths a ++ concat (map d_paths ds)) -> collision_free H (d_paths a ++ concat (map d_paths ds)) ->
  exists r, dual_sum H ins ord dup fuel a ds = Done r /\ d_root r = d_root a /\ dual_valid H ins fuel r = Done true /\
    (forall e, In e (d_paths r) <-> In e (d_paths a ++ concat (map d_paths ds))).
Proof.
  intros L fuel. induction ds as [|d ds IH]; intros a HL F W D U P C; cbn [dual_sum].
  - exists a. cbn [map concat] in *. rewrite app_nil_r in *. split; [reflexivity|]. split; [reflexivity|].
    split; [exact (full_valid L a fuel W F U)|intros; reflexivity].
  - cbn [map concat] in *.
    assert (Sub : forall e, In e (d_paths a ++ d_paths d) -> In e (d_paths a ++ d_paths d ++ concat (map d_paths ds))).
    { intros e E. rewrite app_assoc. apply in_or_app. left. exact E. }
    destruct (D d (or_introl eq_refl)) as [Rd Vd].
    destruct (dual_plus_exact H ins ord dup a d L fuel H32 Ins Ord HL W) as (r & R1 & R2 & R3 & R4); auto.
    + intros e f E1 E2. apply P; auto.
    + intros e f E1 E2. apply C; auto.
    + rewrite R1.
      assert (Sub2 : forall e, In e (d_paths r ++ concat (map d_paths ds)) <-> In e (d_paths a ++ d_paths d ++ concat (map d_paths ds))).
      { intros e. rewrite !in_app_iff, R4. tauto. }
      destruct (IH r HL F) as (s & S1 & S2 & S3 & S4).
      * destruct W as (W1 & W2 & W3). unfold dual_well_formed. rewrite R2. split; [exact W1|]. split.
        -- apply paths_valid_In. intros e E. apply R4 in E. destruct E as [E|E]; [apply (proj1 (paths_valid_In _) W2 e E)|apply (proj1 (paths_valid_In _) Vd e E)].
        -- destruct (d_paths a) as [|e m] eqn:Q; [congruence|]. intros X. rewrite X in R4. apply (proj2 (R4 e)). left. left. reflexivity.
      * intros d' E. rewrite R2. apply D. right. exact E.
      * intros e E. rewrite R2. apply U, Sub2, E.
      * intros e f E1 E2. apply P; apply Sub2; assumption.
      * intros e f E1 E2. apply C; apply Sub2; assumption.
      * exists s. split; [exact S1|]. split; [congruence|]. split; [exact S3|]. intros e. rewrite S4. apply Sub2.
Qed.

End Sums.

(* ---- dual: what goes wrong ---- *)

Lemma plus_invalid : forall ins ord dup fuel a d, dual_valid H ins fuel a = Done false -> dual_plus H ins ord dup fuel a d = Done d.
Proof. intros. unfold dual_plus. rewrite H0. reflexivity. Qed.

Lemma ins_nil : forall ins : branch -> list branch -> list branch, inserts ins -> forall x, ins x [] = [x].
Proof. intros ins I x. pose proof (I x []) as P. apply Permutation_sym, Permutation_length_1_inv in P. exact P. Qed.
Lemma ord_one : forall ord : list branch -> list branch, (forall l, Permutation (ord l) l) -> forall x, ord [x] = [x].
Proof. intros ord O x. pose proof (O [x]) as P. apply Permutation_sym, Permutation_length_1_inv in P. exact P. Qed.

Lemma one_path_valid : forall ins k i ds r fuel, inserts ins -> digest_valid r = true -> digest_valid k = true -> digests_valid ds = true ->
  (S (length ds) <= fuel)%nat -> derive_root H (mkpath i ds) k = r -> dual_valid H ins fuel (one_path k i ds r) = Done true.
Proof.
  intros ins k i ds r fuel I Vr Vk Vd F D.
  rewrite (dual_valid_agrees H ins I (one_path k i ds r) r (i / 2 ^ count ds)).
  - cbn [one_path d_root]. rewrite bytes_eqb_refl. reflexivity.
  - split; [exact Vr|]. split; [|discriminate]. cbn [one_path d_paths paths_valid forallb fst snd p_digests]. rewrite Vk, Vd. reflexivity.
  - intros e [<-|[]]. split; [exact D|reflexivity].
  - cbn [one_path d_paths longest snd p_digests]. lia.
Qed.

(* the same proof with the sibling left implicit and written out *)
Lemma implicit_explicit : forall ins ord dup k fuel, inserts ins -> (forall l, Permutation (ord l) l) -> digest_valid k = true -> digest_valid (H (k ++ k)) = true ->
  (2 <= fuel)%nat ->
  dual_valid H ins fuel (one_path k 0 [None] (H (k ++ k))) = Done true /\
  dual_valid H ins fuel (one_path k 0 [Some k] (H (k ++ k))) = Done true /\
  dual_plus H ins ord dup fuel (one_path k 0 [None] (H (k ++ k))) (one_path k 0 [Some k] (H (k ++ k))) = Done empty_dual.
Proof.
  intros ins ord dup k fuel I O Vk Vr F.
  assert (A : dual_valid H ins fuel (one_path k 0 [None] (H (k ++ k))) = Done true) by (apply one_path_valid; auto).
  split; [exact A|]. split.
  - apply one_path_valid; auto. unfold digests_valid. cbn [forallb]. rewrite Vk. reflexivity.
  - unfold dual_plus. rewrite A. cbn [one_path d_root d_paths map]. rewrite bytes_eqb_refl. cbn [negb]. rewrite (ord_one ord O).
    unfold by_index. cbn [fold_left]. change (w32 (p_index (snd (k, mkpath 0 [None])))) with 0. cbn [fst snd p_digests branches_set add_all].
    unfold add. cbn [path_branch b_leaf b_digests l_index l_digest fst snd p_index p_digests]. change (w32 0) with 0. cbn [branches_get]. change (0 =? 0) with true. cbv iota.
    cbn [digests_eqb maybe_eqb]. rewrite bytes_eqb_refl. reflexivity.
Qed.

(* a wrong proof is taken in unchecked; afterwards valid () runs for ever *)
Lemma bad_proof_accepted : forall ins ord dup x y z w fuel, inserts ins -> (forall l, Permutation (ord l) l) ->
  digest_valid x = true -> digest_valid y = true -> digest_valid z = true -> digest_valid w = true -> digest_valid (H (x ++ y)) = true ->
  x <> z -> H (w ++ z) <> H (x ++ y) -> (2 <= fuel)%nat ->
  let r := mkdual [(x, mkpath 0 [Some y]); (z, mkpath 1 [Some w])] (H (x ++ y)) in
  dual_valid H ins fuel (one_path x 0 [Some y] (H (x ++ y))) = Done true /\
  dual_valid H ins fuel (one_path z 1 [Some w] (H (x ++ y))) = Done false /\
  dual_plus H ins ord dup fuel (one_path x 0 [Some y] (H (x ++ y))) (one_path z 1 [Some w] (H (x ++ y))) = Done r /\
  forall n, dual_valid H ins n r = More.
Proof.
  intros ins ord dup x y z w fuel I O Vx Vy Vz Vw Vr N1 N2 F r.
  assert (Ds : forall d, digest_valid d = true -> digests_valid [Some d] = true) by (intros d Vd; unfold digests_valid; cbn [forallb]; rewrite Vd; reflexivity).
  assert (A : dual_valid H ins fuel (one_path x 0 [Some y] (H (x ++ y))) = Done true) by (apply one_path_valid; auto).
  split; [exact A|]. split; [|split].
  - rewrite (dual_valid_agrees H ins I _ (H (w ++ z)) 0).
    + cbn [one_path d_root]. destruct (bytes_eqb (H (x ++ y)) (H (w ++ z))) eqn:E; [apply bytes_eqb_eq in E; congruence|reflexivity].
    + split; [exact Vr|]. split; [|discriminate]. cbn [one_path d_paths paths_valid forallb fst snd p_digests]. rewrite Vz, Ds by exact Vw. reflexivity.
    + intros e [<-|[]]. split; reflexivity.
    + cbn [one_path d_paths longest snd p_digests length]. lia.
  - unfold dual_plus. rewrite A. cbn [one_path d_root d_paths map]. rewrite bytes_eqb_refl. cbn [negb]. rewrite (ord_one ord O).
    unfold by_index. cbn [fold_left]. change (w32 (p_index (snd (x, mkpath 0 [Some y])))) with 0. cbn [fst snd p_digests branches_set add_all].
    unfold add. cbn [path_branch b_leaf b_digests l_index l_digest fst snd p_index p_digests].
    change (w32 1) with 1. cbn [branches_get]. change (1 =? 0) with false. cbv iota. cbn [map fst length].
    change (1 - 1)%nat with 0%nat. cbn [nth_error]. change (1 <? 0) with false. change (0 <? 1) with true. cbv iota.
    change (w32 (N.of_nat 2 + 4294967294)) with 0. change (same_half 0 1 0) with (Some false). cbv iota.
    cbn [branches_set]. change (1 <? 0) with false. change (1 =? 0) with false. cbv iota.
    cbn [from_index path_insert]. destruct (bytes_eqb z x) eqn:E; [apply bytes_eqb_eq in E; congruence|]. reflexivity.
  - intros n. apply (dual_valid_for_ever H ins I).
    + split; [exact Vr|]. split; [|discriminate]. unfold r. cbn [d_paths paths_valid forallb fst snd p_digests]. rewrite Vx, Vz, !Ds by assumption. reflexivity.
    + intros (r' & t & G).
      destruct (G (x, mkpath 0 [Some y]) (or_introl eq_refl)) as [G1 _]. destruct (G (z, mkpath 1 [Some w]) (or_intror (or_introl eq_refl))) as [G2 _].
      change (H (x ++ y) = r') in G1. change (H (w ++ z) = r') in G2. congruence.
Qed.

End Facts.
