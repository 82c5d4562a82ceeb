(* Levels of a Merkle tree, roots of lists, proofs up to the root, soundness of branches. *)
From Verif Require Import Base BaseProofs MerkleModel MerkleSpec.
From Coq Require Import ZifyBool ZifyNat ZifyN.
Ltac Zify.zify_post_hook ::= Z.div_mod_to_equations.
Local Open Scope N_scope.

(* ---- widths and depth ---- *)

Lemma width_pos : forall n k, 0 < n -> 0 < width n k.
Proof. induction k; intros Hn; cbn [width]; [assumption|]. specialize (IHk Hn). lia. Qed.

Lemma width_closed : forall n k, 0 < n -> width n k = (n - 1) / 2 ^ N.of_nat k + 1.
Proof.
  intros n k Hn. induction k.
  - cbn [width]. change (2 ^ N.of_nat 0) with 1. rewrite N.div_1_r. lia.
  - cbn [width]. rewrite IHk, Nat2N.inj_succ, N.pow_succ_r', (N.mul_comm 2), <- N.div_div by (try lia; apply N.pow_nonzero; lia).
    set (q := (n - 1) / 2 ^ N.of_nat k). lia.
Qed.

Lemma width_top_one : forall n k, 0 < n -> (width n k = 1 <-> n <= 2 ^ N.of_nat k).
Proof.
  intros n k Hn. rewrite (width_closed _ _ Hn).
  assert (2 ^ N.of_nat k <> 0) by (apply N.pow_nonzero; lia).
  split; intros E.
  - assert ((n - 1) / 2 ^ N.of_nat k = 0) by lia. apply N.div_small_iff in H0; lia.
  - rewrite N.div_small by lia. reflexivity.
Qed.

Lemma width_depth : forall n, 0 < n -> width n (depth n) = 1.
Proof.
  intros n Hn. apply (width_top_one _ _ Hn). unfold depth. rewrite N2Nat.id.
  destruct (N.lt_ge_cases 1 n) as [E|E].
  - apply N.log2_up_spec. assumption.
  - rewrite N.log2_up_eqn0 by lia. change (2 ^ 0) with 1. lia.
Qed.

Lemma width_below : forall n k, (k < depth n)%nat -> 1 < width n k.
Proof.
  intros n k Hk.
  destruct (N.lt_ge_cases 1 n) as [E|E].
  - assert (0 < n) by lia. pose proof (width_pos n k H).
    assert (width n k <> 1); [|lia].
    rewrite (width_top_one n k H). unfold depth in Hk.
    destruct (N.log2_up_spec n E) as [L _].
    assert (2 ^ N.of_nat k <= 2 ^ N.pred (N.log2_up n)) by (apply N.pow_le_mono_r; lia).
    lia.
  - unfold depth in Hk. rewrite N.log2_up_eqn0 in Hk by lia. cbn in Hk. lia.
Qed.

Lemma width_above : forall n k, 0 < n -> (depth n <= k)%nat -> width n k = 1.
Proof.
  intros n k Hn Hk. induction k.
  - pose proof (width_depth n Hn) as W. replace (depth n) with 0%nat in W by lia. exact W.
  - destruct (Nat.eq_dec (depth n) (S k)) as [E|E]; [rewrite <- E; apply width_depth; assumption|].
    cbn [width]. rewrite IHk by lia. reflexivity.
Qed.

Lemma depth_le : forall n, 0 < n -> N.of_nat (depth n) <= n - 1.
Proof.
  intros n Hn. unfold depth. rewrite N2Nat.id.
  destruct (N.lt_ge_cases 1 n) as [E|E].
  - apply N.log2_up_le_pow2; [lia|].
    clear E. destruct n as [|p]; [lia|].
    assert (forall m, m + 1 <= 2 ^ m).
    { intros m. induction m using N.peano_ind; [cbn; lia|]. rewrite N.pow_succ_r'. lia. }
    specialize (H (N.pos p - 1)). lia.
  - rewrite N.log2_up_eqn0 by lia. lia.
Qed.

Lemma width_le : forall n k, width n (S k) <= width n k.
Proof. intros n k. cbn [width]. lia. Qed.

Lemma pos_half : forall n k i, i < width n k -> i / 2 < width n (S k).
Proof. intros n k i E. cbn [width]. lia. Qed.

Lemma pos_shift : forall n i k, i < n -> i / 2 ^ N.of_nat k < width n k.
Proof.
  intros n i k E. rewrite (width_closed n k) by lia.
  pose proof (N.div_le_mono i (n - 1) (2 ^ N.of_nat k) (N.pow_nonzero 2 (N.of_nat k) ltac:(lia)) ltac:(lia)). lia.
Qed.

(* ---- positions ---- *)

Lemma nthd_cons : forall a l j, nthd (a :: l) (N.succ j) = nthd l j.
Proof. intros. unfold nthd. rewrite N2Nat.inj_succ. reflexivity. Qed.

Lemma nthd_0 : forall a l, nthd (a :: l) 0 = a.
Proof. reflexivity. Qed.

Lemma count_cons : forall A (a : A) l, count (a :: l) = N.succ (count l).
Proof. intros. unfold count. cbn [length]. lia. Qed.

Lemma count_app : forall A (a b : list A), count (a ++ b) = count a + count b.
Proof. intros. unfold count. rewrite app_length. lia. Qed.

Lemma count_map : forall A B (f : A -> B) l, count (map f l) = count l.
Proof. intros. unfold count. rewrite map_length. reflexivity. Qed.

Lemma upto_from_length : forall k s, length (upto_from s k) = k.
Proof. induction k; intros; cbn [upto_from length]; [reflexivity|]. rewrite IHk. reflexivity. Qed.

Lemma count_upto : forall n, count (upto n) = n.
Proof. intros. unfold count, upto. rewrite upto_from_length. lia. Qed.

Lemma upto_from_nth : forall k s j, (j < k)%nat -> nth_error (upto_from s k) j = Some (s + N.of_nat j).
Proof.
  induction k; intros s j E; [lia|].
  destruct j; cbn [upto_from nth_error]; [f_equal; lia|].
  rewrite IHk by lia. f_equal. lia.
Qed.

Lemma upto_from_app : forall a b s, upto_from s (a + b) = upto_from s a ++ upto_from (s + N.of_nat a) b.
Proof.
  induction a; intros b s; cbn [upto_from app Nat.add].
  - f_equal. lia.
  - rewrite IHa. do 3 f_equal. lia.
Qed.

Lemma upto_from_In : forall k s j, In j (upto_from s k) <-> s <= j < s + N.of_nat k.
Proof.
  induction k; intros s j; cbn [upto_from In]; [lia|]. rewrite IHk. lia.
Qed.

Lemma upto_In : forall n j, In j (upto n) <-> j < n.
Proof. intros. unfold upto. rewrite upto_from_In. lia. Qed.

Lemma nthd_in : forall l j, j < count l -> In (nthd l j) l.
Proof. intros l j E. unfold nthd. apply nth_In. unfold count in E. lia. Qed.

Lemma list_upto : forall l, map (nthd l) (upto (count l)) = l.
Proof.
  intros l. apply (nth_ext _ _ zero_digest zero_digest).
  - rewrite map_length. unfold upto. rewrite upto_from_length. unfold count. lia.
  - intros j E. rewrite map_length in E. unfold upto in *. rewrite upto_from_length in E.
    rewrite (nth_indep _ zero_digest (nthd l 0)) by (rewrite map_length, upto_from_length; lia).
    rewrite map_nth.
    rewrite (nth_error_nth (upto_from 0 (N.to_nat (count l))) j 0 (upto_from_nth _ _ _ E)).
    unfold nthd. f_equal. lia.
Qed.

Lemma nonempty_count : forall l : list bytes, l <> [] -> 0 < count l.
Proof. intros [|? ?] E; [congruence|rewrite count_cons; lia]. Qed.

Section Merkle.
Variable H : bytes -> bytes.
Notation node := (node H).
Notation hcat := (hcat H).
Notation round := (round H).
Notation climb := (climb H).

(* ---- rounds ---- *)

Lemma two_step_ind : forall (P : list bytes -> Prop), P [] -> (forall a, P [a]) ->
  (forall a b r, P r -> P (a :: b :: r)) -> forall l, P l.
Proof.
  intros P P0 P1 P2. fix IH 1. intros [|a [|b r]]; [exact P0|apply P1|apply P2, IH].
Qed.

Lemma round_count : forall l, count (round l) = (count l + 1) / 2.
Proof.
  apply two_step_ind; [reflexivity|reflexivity|].
  intros a b r IH. cbn [MerkleModel.round]. rewrite !count_cons, IH. lia.
Qed.

Lemma round_nthd : forall l j, j < count (round l) ->
  nthd (round l) j = hcat (nthd l (2 * j)) (nthd l (N.min (2 * j + 1) (count l - 1))).
Proof.
  intros l. induction l as [|a|a b l IHl] using two_step_ind; intros j E.
  - cbn in E. lia.
  - rewrite round_count in E. unfold count in *. cbn [length] in *. replace j with 0 by lia. reflexivity.
  - destruct (N.eq_dec j 0) as [->|J].
    + cbn [MerkleModel.round]. rewrite nthd_0, !count_cons. f_equal.
      replace (N.min (2 * 0 + 1) (N.succ (N.succ (count l)) - 1)) with 1 by lia. reflexivity.
    + cbn [MerkleModel.round] in *. rewrite count_cons in E.
      replace j with (N.succ (j - 1)) at 1 by lia. rewrite nthd_cons, IHl by lia.
      assert (0 < count l) by (rewrite round_count in E; lia).
      rewrite !count_cons.
      replace (2 * j) with (N.succ (N.succ (2 * (j - 1)))) by lia. rewrite !nthd_cons.
      f_equal.
      replace (N.min (N.succ (N.succ (2 * (j - 1))) + 1) (N.succ (N.succ (count l)) - 1))
        with (N.succ (N.succ (N.min (2 * (j - 1) + 1) (count l - 1)))) by lia.
      rewrite !nthd_cons. reflexivity.
Qed.

Fixpoint rounds (k : nat) (l : list bytes) : list bytes :=
  match k with O => l | S k' => round (rounds k' l) end.

Lemma rounds_count : forall k l, count (rounds k l) = width (count l) k.
Proof. induction k; intros; cbn [rounds width]; [reflexivity|]. rewrite round_count, IHk. reflexivity. Qed.

Lemma rounds_nthd : forall k l j, j < width (count l) k -> nthd (rounds k l) j = node l k j.
Proof.
  induction k; intros l j E; cbn [rounds MerkleSpec.node]; [reflexivity|].
  rewrite round_nthd by (change (round (rounds k l)) with (rounds (S k) l); rewrite rounds_count; assumption).
  cbn [width] in E. rewrite rounds_count.
  unfold MerkleModel.hcat. rewrite !IHk by lia. reflexivity.
Qed.

Lemma rounds_list : forall k l, rounds k l = map (node l k) (upto (width (count l) k)).
Proof.
  intros k l. rewrite <- (list_upto (rounds k l)), rounds_count.
  apply map_ext_in. intros j E. apply rounds_nthd, upto_In, E.
Qed.

Lemma root_loop_rounds : forall fuel k l, l <> [] -> (k <= depth (count l))%nat -> (depth (count l) - k <= fuel)%nat ->
  root_loop H fuel (rounds k l) = Some (merkle_root H l).
Proof.
  assert (Z : forall l : list bytes, l <> [] -> 0 < count l)
    by (intros [|? ?] E; [congruence|rewrite count_cons; lia]).
  induction fuel; intros k l Hl Hk Hf.
  - replace k with (depth (count l)) by lia.
    pose proof (rounds_count (depth (count l)) l) as C. rewrite width_depth in C by auto.
    pose proof (rounds_nthd (depth (count l)) l 0) as R. rewrite width_depth in R by auto. specialize (R ltac:(lia)).
    destruct (rounds (depth (count l)) l) as [|a [|b r]]; unfold count in C; cbn [length] in C; try lia.
    cbn [root_loop]. rewrite nthd_0 in R. rewrite R. reflexivity.
  - destruct (Nat.eq_dec k (depth (count l))) as [->|Ne].
    + pose proof (rounds_count (depth (count l)) l) as C. rewrite width_depth in C by auto.
      pose proof (rounds_nthd (depth (count l)) l 0) as R. rewrite width_depth in R by auto. specialize (R ltac:(lia)).
      destruct (rounds (depth (count l)) l) as [|a [|b r]]; unfold count in C; cbn [length] in C; try lia.
      cbn [root_loop]. rewrite nthd_0 in R. rewrite R. reflexivity.
    + pose proof (rounds_count k l) as C. pose proof (width_below (count l) k ltac:(lia)) as W.
      destruct (rounds k l) as [|a [|b r]] eqn:R; unfold count in C at 1; cbn [length] in C; try lia.
      cbn [root_loop]. rewrite <- R. change (round (rounds k l)) with (rounds (S k) l). apply IHfuel; auto; lia.
Qed.

Lemma root_list_exact : forall l, l <> [] -> root_list H l = Some (merkle_root H l).
Proof.
  intros l E. unfold root_list. destruct l as [|a r]; [congruence|].
  apply (root_loop_rounds _ 0 (a :: r)); [discriminate|lia|].
  pose proof (depth_le (count (a :: r)) (nonempty_count _ E)). unfold count in *. lia.
Qed.

(* ---- following a proof ---- *)

Lemma climb_siblings : forall l m k i, i < width (count l) k ->
  climb (mkleaf (node l k i) i) (sibling_digests H l k i m) = mkleaf (node l (k + m) (i / 2 ^ N.of_nat m)) (i / 2 ^ N.of_nat m).
Proof.
  intros l. induction m; intros k i E.
  - cbn [sibling_digests MerkleModel.climb]. change (2 ^ N.of_nat 0) with 1. rewrite N.div_1_r, Nat.add_0_r. reflexivity.
  - cbn [sibling_digests MerkleModel.climb sibling].
    assert (L : leaf_next H (mkleaf (node l k i) i) (node l k (sibling_position (width (count l) k) i)) =
                mkleaf (node l (S k) (i / 2)) (i / 2)).
    { unfold leaf_next, sibling_position. cbn [l_digest l_index]. f_equal. cbn [MerkleSpec.node]. unfold MerkleModel.hcat.
      destruct (N.odd i) eqn:O.
      - apply N.odd_spec in O. destruct O as [q ->].
        replace ((2 * q + 1) / 2) with q by lia. replace (2 * q + 1 - 1) with (2 * q) by lia.
        rewrite N.min_l by lia. reflexivity.
      - rewrite <- N.negb_even in O. apply negb_false_iff, N.even_spec in O. destruct O as [q ->].
        replace (2 * q / 2) with q by lia. reflexivity. }
    rewrite L, IHm by (apply pos_half; assumption).
    rewrite Nat2N.inj_succ, N.pow_succ_r', <- N.div_div by (try apply N.pow_nonzero; lia).
    replace (S k + m)%nat with (k + S m)%nat by lia. reflexivity.
Qed.

Lemma sibling_digests_length : forall l m k i, length (sibling_digests H l k i m) = m.
Proof. intros l. induction m; intros; cbn [sibling_digests length]; [reflexivity|]. rewrite IHm. reflexivity. Qed.

Lemma proof_of_derives : forall l i, i < count l -> branch_root H (pr_branch (proof_of H l i)) = merkle_root H l.
Proof.
  intros l i E. unfold proof_of, branch_root, root_leaf. cbn [pr_branch b_leaf b_digests].
  change (nthd l i) with (node l 0 i). rewrite climb_siblings by exact E. cbn [l_digest].
  unfold merkle_root. f_equal.
  apply N.div_small. assert (0 < count l) by lia.
  pose proof (width_depth (count l) H0) as W. apply (width_top_one _ _ H0) in W. lia.
Qed.

(* ---- soundness ---- *)

(* a branch whose leaf is at height k, i.e. the positions of two branches are compared along the way up *)
Lemma climb_app : forall a b lf, climb lf (a ++ b) = climb (climb lf a) b.
Proof. induction a; intros; cbn [app MerkleModel.climb]; auto. Qed.

Lemma climb_index : forall ds lf, l_index (climb lf ds) = l_index lf / 2 ^ N.of_nat (length ds).
Proof.
  induction ds; intros lf; cbn [MerkleModel.climb length].
  - change (2 ^ N.of_nat 0) with 1. rewrite N.div_1_r. reflexivity.
  - rewrite IHds. cbn [leaf_next l_index]. rewrite Nat2N.inj_succ, N.pow_succ_r', <- N.div_div by (try apply N.pow_nonzero; lia).
    reflexivity.
Qed.

Definition step_preimage (lf : leaf) (m : option bytes) : bytes :=
  let s := match m with Some d => d | None => l_digest lf end in
  if N.odd (l_index lf) then s ++ l_digest lf else l_digest lf ++ s.

Lemma leaf_next_hash : forall lf m, leaf_next H lf (sibling m lf) = mkleaf (H (step_preimage lf m)) (l_index lf / 2).
Proof.
  intros lf m. unfold leaf_next, sibling, step_preimage, MerkleModel.hcat.
  destruct (N.odd (l_index lf)); reflexivity.
Qed.

Lemma branch_preimages_cons : forall lf m r,
  branch_preimages H lf (m :: r) = step_preimage lf m :: branch_preimages H (leaf_next H lf (sibling m lf)) r.
Proof. intros. rewrite leaf_next_hash. reflexivity. Qed.

Lemma step_inj : forall a b m n, l_index a = l_index b -> sized (l_digest a) -> sized (l_digest b) -> sized_opt m -> sized_opt n ->
  step_preimage a m = step_preimage b n -> l_digest a = l_digest b /\
  sibling m a = sibling n b.
Proof.
  intros a b m n I Sa Sb Sm Sn E. unfold step_preimage in E. rewrite I in E. unfold sibling.
  assert (length (match m with Some d => d | None => l_digest a end) = 32%nat) by (destruct m; assumption).
  assert (length (match n with Some d => d | None => l_digest b end) = 32%nat) by (destruct n; assumption).
  unfold sized in *.
  destruct (N.odd (l_index b)); apply app_inj_len in E; intuition congruence.
Qed.

Hypothesis H32 : forall m, length (H m) = 32%nat.

Lemma leaf_next_sized : forall lf d, sized (l_digest (leaf_next H lf d)).
Proof. intros. unfold leaf_next, sized. cbn [l_digest]. destruct (N.odd _); apply H32. Qed.

(* two branches of the same length from the same position to the same root have the same leaf,
   or their computations exhibit a collision *)
Lemma branch_sound : forall ds es a b, l_index a = l_index b -> length ds = length es ->
  sized (l_digest a) -> sized (l_digest b) -> Forall sized_opt ds -> Forall sized_opt es ->
  root_leaf H a ds = root_leaf H b es ->
  l_digest a = l_digest b \/ collision H (branch_preimages H a ds) (branch_preimages H b es).
Proof.
  induction ds; intros [|m es] x y I L Sx Sy Fd Fe R; try discriminate L.
  - left. exact R.
  - injection L as L. inversion Fd; inversion Fe; subst.
    unfold root_leaf in R. cbn [MerkleModel.climb] in R.
    destruct (IHds es (leaf_next H x (sibling a x)) (leaf_next H y (sibling m y))) as [E|C]; auto using leaf_next_sized.
    + cbn [leaf_next l_index]. congruence.
    + rewrite !leaf_next_hash in E. cbn [l_digest] in E.
      destruct (list_eq_dec Byte.byte_eq_dec (step_preimage x a) (step_preimage y m)) as [P|P].
      * left. apply (step_inj x y a m); auto.
      * right. exists (step_preimage x a), (step_preimage y m).
        rewrite !branch_preimages_cons. cbn [In]. auto.
    + right. destruct C as (p & q & A & B & C). exists p, q. rewrite !branch_preimages_cons. cbn [In]. tauto.
Qed.

(* ... and then also the same siblings (an absent one standing for the node itself) *)
Definition filled_siblings := fix go (lf : leaf) (ds : digests) : list bytes :=
  match ds with [] => [] | m :: r => sibling m lf :: go (leaf_next H lf (sibling m lf)) r end.

Lemma branch_sound_siblings : forall ds es a b, l_index a = l_index b -> length ds = length es ->
  sized (l_digest a) -> sized (l_digest b) -> Forall sized_opt ds -> Forall sized_opt es ->
  root_leaf H a ds = root_leaf H b es ->
  (l_digest a = l_digest b /\ filled_siblings a ds = filled_siblings b es) \/
  collision H (branch_preimages H a ds) (branch_preimages H b es).
Proof.
  induction ds; intros [|m es] x y I L Sx Sy Fd Fe R; try discriminate L.
  - left. split; [exact R|reflexivity].
  - injection L as L. inversion Fd; inversion Fe; subst.
    unfold root_leaf in R. cbn [MerkleModel.climb] in R.
    destruct (IHds es (leaf_next H x (sibling a x)) (leaf_next H y (sibling m y))) as [[E F]|C]; auto using leaf_next_sized.
    + cbn [leaf_next l_index]. congruence.
    + rewrite !leaf_next_hash in E. cbn [l_digest] in E.
      destruct (list_eq_dec Byte.byte_eq_dec (step_preimage x a) (step_preimage y m)) as [P|P].
      * left. destruct (step_inj x y a m) as [A B]; auto. split; [exact A|]. cbn [filled_siblings]. f_equal; assumption.
      * right. exists (step_preimage x a), (step_preimage y m).
        rewrite !branch_preimages_cons. cbn [In]. auto.
    + right. destruct C as (p & q & A & B & C). exists p, q. rewrite !branch_preimages_cons. cbn [In]. tauto.
Qed.

(* ---- soundness against a list ---- *)

Lemma node_sized : forall l k j, sized_leaf_digests l -> sized (node l k j).
Proof.
  intros l k j S. destruct k; cbn [MerkleSpec.node]; [|apply H32].
  unfold nthd, sized. destruct (Nat.lt_ge_cases (N.to_nat j) (length l)) as [E|E].
  - apply (proj1 (Forall_forall _ _) S), nth_In, E.
  - rewrite nth_overflow by exact E. reflexivity.
Qed.

Lemma level_preimages_In : forall l K k c, (k < K)%nat -> c < width (count l) (S k) ->
  In (node l k (2 * c) ++ node l k (N.min (2 * c + 1) (width (count l) k - 1))) (level_preimages H l K).
Proof.
  induction K; intros k c E C; [lia|].
  cbn [level_preimages]. apply in_or_app.
  destruct (Nat.eq_dec k K) as [->|Ne]; [left|right; apply IHK; [lia|assumption]].
  apply (in_map (fun j => node l K (2 * j) ++ node l K (N.min (2 * j + 1) (width (count l) K - 1)))). apply upto_In, C.
Qed.

(* clip_from with the last position given first *)
Lemma clip_from_bound : forall n i k c, 0 < n -> c < width n k -> clip_from n i k c < n.
Proof.
  intros n i k. induction k; intros c Hn E; cbn [clip_from]; [exact E|].
  apply IHk; [assumption|]. pose proof (width_pos n k Hn). lia.
Qed.

Lemma mod2_odd : forall x, x mod 2 = if N.odd x then 1 else 0.
Proof.
  intros x. destruct (N.odd x) eqn:O.
  - apply N.odd_spec in O. destruct O as [q ->]. lia.
  - rewrite <- N.negb_even in O. apply negb_false_iff, N.even_spec in O. destruct O as [q ->]. lia.
Qed.

(* the branch below height k: [lf] is the node reached after K - k steps counted from the top *)
Lemma list_sound_from : forall l, sized_leaf_digests l -> forall ds lf K c i,
  (length ds <= K)%nat ->
  l_index lf = i / 2 ^ N.of_nat (K - length ds) ->
  c < width (count l) K ->
  sized (l_digest lf) -> Forall sized_opt ds ->
  root_leaf H lf ds = node l K c ->
  (exists c', c' < width (count l) (K - length ds) /\ l_digest lf = node l (K - length ds) c' /\
     clip_from (count l) i K c = clip_from (count l) i (K - length ds) c') \/
  collision H (branch_preimages H lf ds) (level_preimages H l K).
Proof.
  intros l Sl. induction ds as [|m ds IH]; intros lf K c i Hk I C Sz F R.
  - left. exists c. cbn [length]. rewrite Nat.sub_0_r. repeat split; auto.
  - inversion F as [|? ? Fm Fd]; subst. cbn [length] in *.
    unfold root_leaf in R. cbn [MerkleModel.climb] in R.
    set (h := (K - length ds)%nat) in *.
    assert (Hh : h = S (K - S (length ds))) by lia.
    destruct (IH (leaf_next H lf (sibling m lf)) K c i) as [(c' & C' & D & E)|Col]; auto using leaf_next_sized; try lia.
    { cbn [leaf_next l_index]. rewrite I. fold h. rewrite Hh. rewrite Nat2N.inj_succ, N.pow_succ_r', (N.mul_comm 2), N.div_div by (try apply N.pow_nonzero; lia). reflexivity. }
    + fold h in C', D, E. set (k := (K - S (length ds))%nat) in *. rewrite Hh in C', D, E.
      rewrite leaf_next_hash in D. cbn [l_digest] in D. cbn [MerkleSpec.node] in D.
      set (p := node l k (2 * c') ++ node l k (N.min (2 * c' + 1) (width (count l) k - 1))) in *.
      destruct (list_eq_dec Byte.byte_eq_dec (step_preimage lf m) p) as [P|P].
      * left. exists (N.min (2 * c' + (i / 2 ^ N.of_nat k) mod 2) (width (count l) k - 1)).
        assert (Wk : 2 * c' < width (count l) k) by (cbn [width] in C'; lia).
        split; [lia|]. split; [|rewrite E; reflexivity].
        rewrite mod2_odd, <- I. unfold step_preimage in P. unfold p in P.
        assert (length (match m with Some d => d | None => l_digest lf end) = 32%nat) by (destruct m; assumption).
        pose proof (node_sized l k (2 * c') Sl). unfold sized in *.
        destruct (N.odd (l_index lf)); apply app_inj_len in P; try congruence; destruct P as [P1 P2].
        -- exact P2.
        -- rewrite P1. f_equal. lia.
      * right. exists (step_preimage lf m), p. rewrite branch_preimages_cons. split; [left; reflexivity|].
        split; [apply level_preimages_In; [lia|exact C']|]. split; [exact P|exact D].
    + right. destruct Col as (p & q & A & B & Cc). exists p, q. rewrite branch_preimages_cons. cbn [In]. tauto.
Qed.

Lemma list_sound : forall l lf ds, l <> [] -> sized_leaf_digests l -> sized (l_digest lf) -> Forall sized_opt ds ->
  length ds = depth (count l) -> root_leaf H lf ds = merkle_root H l ->
  l_digest lf = nthd l (clip (count l) (l_index lf)) \/
  collision H (branch_preimages H lf ds) (tree_preimages H l).
Proof.
  intros l lf ds Ne Sl Sz F L R.
  destruct (list_sound_from l Sl ds lf (depth (count l)) 0 (l_index lf)) as [(c & C & D & E)|Col]; auto; try lia.
  - rewrite L, Nat.sub_diag. change (2 ^ N.of_nat 0) with 1. rewrite N.div_1_r. reflexivity.
  - rewrite width_depth by (apply nonempty_count, Ne). lia.
  - left. rewrite L, Nat.sub_diag in *. cbn [MerkleSpec.node] in D. rewrite D. unfold clip. rewrite E. reflexivity.
Qed.

End Merkle.

Lemma clip_from_inside : forall n i k, i < n -> clip_from n i k (i / 2 ^ N.of_nat k) = i.
Proof.
  intros n i k E. induction k; cbn [clip_from].
  - change (2 ^ N.of_nat 0) with 1. apply N.div_1_r.
  - rewrite Nat2N.inj_succ, N.pow_succ_r', (N.mul_comm 2 (2 ^ _)), <- N.div_div by (try apply N.pow_nonzero; lia).
    set (q := i / 2 ^ N.of_nat k) in *.
    replace (2 * (q / 2) + q mod 2) with q by lia.
    pose proof (pos_shift n i k E). fold q in H. rewrite N.min_l by lia. exact IHk.
Qed.

Lemma clip_inside : forall n i, i < n -> clip n i = i.
Proof.
  intros n i E. unfold clip. rewrite <- (clip_from_inside n i (depth n) E) at 2. f_equal. symmetry. apply N.div_small.
  assert (0 < n) by lia. pose proof (width_depth n H) as W. apply (width_top_one _ _ H) in W. lia.
Qed.
