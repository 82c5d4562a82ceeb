(* C26 - C29, C70: Merkle trees, proofs, servers and duals. *)
From Verif Require Import Base BaseProofs MerkleModel MerkleSpec MerkleProofs MerkleTreeProofs MerkleServerProofs MerkleValidProofs DualProofs MerkleFacts MerkleExamples.
From Coq Require Import Sorting.Permutation.
Local Open Scope N_scope.

(* C26 *)
Theorem C26_root : forall H l, l <> [] -> root_list H l = Some (merkle_root H l).
Proof. exact root_list_exact. Qed.
Print Assumptions C26_root.
Theorem C26_proofs_derive_root : forall H l i, i < count l ->
  l_index (b_leaf (pr_branch (proof_of H l i))) = i /\ l_digest (b_leaf (pr_branch (proof_of H l i))) = nthd l i /\
  pr_root (proof_of H l i) = merkle_root H l /\ branch_root H (pr_branch (proof_of H l i)) = merkle_root H l /\
  length (b_digests (pr_branch (proof_of H l i))) = depth (count l).
Proof.
  exact (fun H l i E => conj eq_refl (conj eq_refl (conj eq_refl (conj (proof_of_derives H l i E) (sibling_digests_length H l _ 0 i))))).
Qed.
Print Assumptions C26_proofs_derive_root.
Theorem C26_tree : forall H l, l <> [] -> count l < 4294967296 ->
  tree_make H l = Some (tree_of H l) /\
  tree_proofs (tree_of H l) = Some (map (proof_of H l) (upto (count l))) /\
  tree_valid H (tree_of H l) = Some (forallb digest_valid l).
Proof.
  exact (fun H l Ne L => conj (tree_make_exact H l Ne L) (conj (tree_proofs_exact H l Ne L) (tree_valid_exact H l Ne L))).
Qed.
Print Assumptions C26_tree.
Theorem C26_server : forall H dup l i d, l <> [] -> NoDup l -> count l <= 2147483600 ->
  exists s, server_make H dup l = Some s /\ s_digests s = all_nodes H l /\ s_width s = count l /\ s_height s = N.of_nat (depth (count l)) + 1 /\
    (i < count l -> nthd l i = d -> server_at s d = Some (proof_of H l i)) /\
    (~ In d l -> server_at s d = Some empty_proof).
Proof. exact (fun H dup l i d Ne ND L => server_at_exact H dup l i d Ne ND (total_nodes_bound _ L)). Qed.
Print Assumptions C26_server.
Theorem C26_server_proofs : forall H l m h, l <> [] -> count l <= 2147483600 ->
  server_proofs (mkserver (all_nodes H l) m (count l) h) = Some (map (proof_of H l) (upto (count l))).
Proof. exact (fun H l m h Ne L => server_proofs_exact H l m h Ne (total_nodes_bound _ L)). Qed.
Print Assumptions C26_server_proofs.
Theorem C26_tree_and_server : forall H l m, l <> [] -> count l <= 2147483600 ->
  server_of_tree (tree_of H l) = Some (mkserver (all_nodes H l) [] (count l) (N.of_nat (depth (count l)) + 1)) /\
  tree_of_server (mkserver (all_nodes H l) m (count l) (N.of_nat (depth (count l)) + 1)) = Some (tree_of H l).
Proof. exact (fun H l m Ne L => conj (server_of_tree_exact H l Ne (total_nodes_bound _ L)) (tree_of_server_exact H l m Ne)). Qed.
Print Assumptions C26_tree_and_server.
(* a server made from a tree has no index, so it finds no proof by digest *)
Theorem C26_server_of_tree_finds_nothing_refuted : exists l, l <> [] /\ NoDup l /\ forall H, exists s,
  server_of_tree (tree_of H l) = Some s /\ forall d, server_at s d = Some empty_proof.
Proof.
  exists ex_leaves. split; [discriminate|]. split; [repeat constructor; cbn; intuition discriminate|]. intros H. eexists.
  split; [apply server_of_tree_exact; [discriminate|reflexivity]|]. intros d. reflexivity.
Qed.
Print Assumptions C26_server_of_tree_finds_nothing_refuted.
Theorem C26_empty_tree_refuted : exists l, forall H, tree_make H l = None.
Proof. exact (ex_intro _ [] tree_make_empty). Qed.
Print Assumptions C26_empty_tree_refuted.
(* which trees are valid *)
Theorem C26_valid_exact : forall H t, t_width t < 4294967296 ->
  tree_valid H t = Some true <-> exists k, t_height t = N.of_nat k + 1 /\ well_made H (t_tree t) k (t_width t).
Proof. exact tree_valid_iff. Qed.
Print Assumptions C26_valid_exact.
(* valid () also accepts trees with superfluous levels *)
Theorem C26_tree_valid_canonical_refuted : forall H d, digest_valid d = true ->
  exists t, tree_valid H t = Some true /\ forall l, count l < 4294967296 -> tree_make H l <> Some t.
Proof. exact (fun H d V => ex_intro _ _ (conj (tall_tree_valid H d V) (tall_tree_not_made H d))). Qed.
Print Assumptions C26_tree_valid_canonical_refuted.
Example C26_example : ex_leaves <> [] /\ NoDup ex_leaves /\ count ex_leaves = 3 /\ depth 3 = 2%nat /\
  proof_valid ex_hash32 (proof_of ex_hash32 ex_leaves 2) = true /\
  option_map t_height (tree_make ex_hash32 ex_leaves) = Some 3 /\ count (all_nodes ex_hash32 ex_leaves) = 6.
Proof.
  split; [discriminate|]. split; [repeat constructor; cbn; intuition discriminate|].
  split; [reflexivity|]. split; [reflexivity|]. split; [vm_compute; reflexivity|]. split; vm_compute; reflexivity.
Qed.

(* C27 *)
Theorem C27_proof_valid_exact : forall H d i ds r, proof_valid H (mkproof (mkbranch (mkleaf d i) ds) r) = true <->
  r <> zero_digest /\ d <> zero_digest /\ (forall x, In (Some x) ds -> x <> zero_digest) /\ derive_root H (mkpath i ds) d = r.
Proof. exact proof_valid_exact. Qed.
Print Assumptions C27_proof_valid_exact.
Theorem C27_sound : forall H, (forall m, length (H m) = 32%nat) -> forall l lf ds,
  l <> [] -> sized_leaf_digests l -> sized (l_digest lf) -> Forall sized_opt ds ->
  length ds = depth (count l) -> root_leaf H lf ds = merkle_root H l ->
  l_digest lf = nthd l (clip (count l) (l_index lf)) \/ collision H (branch_preimages H lf ds) (tree_preimages H l).
Proof. exact list_sound. Qed.
Print Assumptions C27_sound.
Theorem C27_index_inside : forall n i, i < n -> clip n i = i.
Proof. exact clip_inside. Qed.
Print Assumptions C27_index_inside.
Theorem C27_leaf_is_in_the_list : forall H, (forall m, length (H m) = 32%nat) -> forall l lf ds,
  l <> [] -> sized_leaf_digests l -> sized (l_digest lf) -> Forall sized_opt ds ->
  length ds = depth (count l) -> root_leaf H lf ds = merkle_root H l ->
  In (l_digest lf) l \/ collision H (branch_preimages H lf ds) (tree_preimages H l).
Proof. exact list_sound_inside. Qed.
Print Assumptions C27_leaf_is_in_the_list.
(* two branches from the same position: same leaf and same siblings *)
Theorem C27_branches_agree : forall H, (forall m, length (H m) = 32%nat) -> forall ds es a b, l_index a = l_index b -> length ds = length es ->
  sized (l_digest a) -> sized (l_digest b) -> Forall sized_opt ds -> Forall sized_opt es ->
  root_leaf H a ds = root_leaf H b es ->
  l_digest a = l_digest b \/ collision H (branch_preimages H a ds) (branch_preimages H b es).
Proof.
  exact (fun H H32 ds es a b I L Sa Sb Fa Fb R =>
    match branch_sound_siblings H H32 ds es a b I L Sa Sb Fa Fb R with or_introl (conj E _) => or_introl E | or_intror C => or_intror C end).
Qed.
Print Assumptions C27_branches_agree.
(* valid () does not look at the height: every inner node passes for a leaf *)
Theorem C27_inner_node_refuted : forall H l k j, l <> [] -> (k <= depth (count l))%nat -> j < width (count l) k ->
  branch_root H (mkbranch (mkleaf (node H l k j) j) (sibling_digests H l k j (depth (count l) - k))) = merkle_root H l.
Proof. exact inner_node_derives. Qed.
Print Assumptions C27_inner_node_refuted.
(* nor at the part of the index beyond the height *)
Theorem C27_index_refuted : forall H d i ds r q,
  proof_valid H (mkproof (mkbranch (mkleaf d (i + q * 2 ^ count ds)) ds) r) = proof_valid H (mkproof (mkbranch (mkleaf d i) ds) r).
Proof. exact proof_valid_shift. Qed.
Print Assumptions C27_index_refuted.
Example C27_example :
  let p := proof_of ex_hash32 ex_leaves 2 in
  length (b_digests (pr_branch p)) = depth (count ex_leaves) /\
  root_leaf ex_hash32 (b_leaf (pr_branch p)) (b_digests (pr_branch p)) = merkle_root ex_hash32 ex_leaves /\
  (* position 3 is the duplicate of position 2 *)
  clip 3 3 = 2 /\
  root_leaf ex_hash32 (mkleaf (ex_digest 3) 3) (b_digests (pr_branch p)) = merkle_root ex_hash32 ex_leaves.
Proof. split; [reflexivity|]. split; [vm_compute; reflexivity|]. split; vm_compute; reflexivity. Qed.

(* C28 *)
Theorem C28_duplicate : forall H l, N.odd (count l) = true -> 1 < count l ->
  root_list H (l ++ [last l zero_digest]) = root_list H l.
Proof. exact duplicate_root. Qed.
Print Assumptions C28_duplicate.
(* exactly: lists of the same height have the same root iff their completions by duplication are equal *)
Theorem C28_same_completion : forall H l l', l <> [] -> l' <> [] -> depth (count l) = depth (count l') ->
  (forall i, i < 2 ^ N.of_nat (depth (count l)) -> nthd l (clip (count l) i) = nthd l' (clip (count l') i)) ->
  merkle_root H l = merkle_root H l'.
Proof. exact complete_roots. Qed.
Print Assumptions C28_same_completion.
Theorem C28_root_determines : forall H, (forall m, length (H m) = 32%nat) -> forall l l',
  l <> [] -> l' <> [] -> sized_leaf_digests l -> sized_leaf_digests l' ->
  depth (count l) = depth (count l') -> merkle_root H l = merkle_root H l' ->
  (forall i, nthd l (clip (count l) i) = nthd l' (clip (count l') i)) \/ collision H (tree_preimages H l) (tree_preimages H l').
Proof. exact roots_determine. Qed.
Print Assumptions C28_root_determines.
Theorem C28_equal_lengths : forall H, (forall m, length (H m) = 32%nat) -> forall l l',
  sized_leaf_digests l -> sized_leaf_digests l' -> length l = length l' ->
  root_list H l = root_list H l' -> l = l' \/ collision H (tree_preimages H l) (tree_preimages H l').
Proof. exact equal_lengths. Qed.
Print Assumptions C28_equal_lengths.
Example C28_example : N.odd (count ex_leaves) = true /\ 1 < count ex_leaves /\
  ex_leaves ++ [last ex_leaves zero_digest] <> ex_leaves /\ depth 3 = depth 4 /\ sized_leaf_digests ex_leaves /\
  merkle_root ex_hash32 ex_leaves <> merkle_root ex_hash32 (map ex_digest [1; 2; 4]).
Proof.
  split; [reflexivity|]. split; [reflexivity|]. split; [discriminate|]. split; [reflexivity|]. split; [exact ex_leaves_sized|].
  vm_compute. discriminate.
Qed.

(* C29: for every ordering [ins], [ord] and map policy [dup] the external containers may have *)
Theorem C29_valid_is_sound : forall H ins, inserts ins -> forall d fuel, dual_valid H ins fuel d = Done true ->
  dual_well_formed d /\ exists t, dual_agrees H d (d_root d) t.
Proof. exact dual_valid_true. Qed.
Print Assumptions C29_valid_is_sound.
Theorem C29_valid_is_complete : forall H ins, inserts ins -> forall d r t, dual_well_formed d -> dual_agrees H d r t ->
  forall fuel, (S (longest (d_paths d)) <= fuel)%nat -> dual_valid H ins fuel d = Done (bytes_eqb (d_root d) r).
Proof. exact dual_valid_agrees. Qed.
Print Assumptions C29_valid_is_complete.
Theorem C29_dual_of_tree : forall H dup l, l <> [] -> NoDup l -> count l < 4294967296 ->
  exists d, dual_of_tree dup (tree_of H l) = Some d /\ d_root d = merkle_root H l /\ dual_agrees H d (merkle_root H l) 0 /\
    forall i, i < count l -> dual_at d (nthd l i) = proof_of H l i.
Proof.
  exact (fun H dup l Ne ND L => ex_intro _ _ (conj (dual_of_tree_exact H dup l Ne ND L) (conj eq_refl
    (conj (dual_of_tree_agrees H l Ne) (fun i E => dual_of_tree_at H l i ND E))))).
Qed.
Print Assumptions C29_dual_of_tree.
(* one addition, and any history of additions *)
Theorem C29_addition : forall H ins ord dup a d L fuel, (forall m, length (H m) = 32%nat) -> inserts ins -> (forall l, Permutation (ord l) l) ->
  (L <= 31)%nat -> dual_well_formed a -> d_root a = d_root d ->
  (forall e, In e (d_paths a ++ d_paths d) -> full_path L e /\ derive_root H (snd e) (fst e) = d_root a) ->
  same_positions (d_paths a ++ d_paths d) -> collision_free H (d_paths a ++ d_paths d) -> (S L <= fuel)%nat ->
  exists r, dual_plus H ins ord dup fuel a d = Done r /\ d_root r = d_root a /\ NoDup (map fst (d_paths r)) /\
    forall e, In e (d_paths r) <-> In e (d_paths a) \/ In e (d_paths d).
Proof. exact dual_plus_exact. Qed.
Print Assumptions C29_addition.
Theorem C29_histories : forall H ins ord dup, (forall m, length (H m) = 32%nat) -> inserts ins -> (forall l, Permutation (ord l) l) ->
  forall L fuel ds a, (L <= 31)%nat -> (S L <= fuel)%nat -> dual_well_formed a ->
  (forall d, In d ds -> d_root d = d_root a /\ paths_valid (d_paths d) = true) ->
  (forall e, In e (d_paths a ++ concat (map d_paths ds)) -> full_path L e /\ derive_root H (snd e) (fst e) = d_root a) ->
  same_positions (d_paths a ++ concat (map d_paths ds)) -> collision_free H (d_paths a ++ concat (map d_paths ds)) ->
  exists r, dual_sum H ins ord dup fuel a ds = Done r /\ d_root r = d_root a /\ dual_valid H ins fuel r = Done true /\
    (forall e, In e (d_paths r) <-> In e (d_paths a ++ concat (map d_paths ds))).
Proof. exact dual_sum_exact. Qed.
Print Assumptions C29_histories.
(* the same proof written in two ways: both valid, the sum is the empty dual *)
Theorem C29_implicit_sibling_refuted : forall H ins ord dup k fuel, inserts ins -> (forall l, Permutation (ord l) l) ->
  digest_valid k = true -> digest_valid (H (k ++ k)) = true -> (2 <= fuel)%nat ->
  dual_valid H ins fuel (one_path k 0 [None] (H (k ++ k))) = Done true /\
  dual_valid H ins fuel (one_path k 0 [Some k] (H (k ++ k))) = Done true /\
  dual_plus H ins ord dup fuel (one_path k 0 [None] (H (k ++ k))) (one_path k 0 [Some k] (H (k ++ k))) = Done empty_dual.
Proof. exact implicit_explicit. Qed.
Print Assumptions C29_implicit_sibling_refuted.
(* operator + checks only the left operand *)
Theorem C29_unchecked_addition_refuted : forall H ins ord dup x y z w fuel, inserts ins -> (forall l, Permutation (ord l) l) ->
  digest_valid x = true -> digest_valid y = true -> digest_valid z = true -> digest_valid w = true -> digest_valid (H (x ++ y)) = true ->
  x <> z -> H (w ++ z) <> H (x ++ y) -> (2 <= fuel)%nat ->
  let r := mkdual [(x, mkpath 0 [Some y]); (z, mkpath 1 [Some w])] (H (x ++ y)) in
  dual_valid H ins fuel (one_path x 0 [Some y] (H (x ++ y))) = Done true /\
  dual_valid H ins fuel (one_path z 1 [Some w] (H (x ++ y))) = Done false /\
  dual_plus H ins ord dup fuel (one_path x 0 [Some y] (H (x ++ y))) (one_path z 1 [Some w] (H (x ++ y))) = Done r /\
  forall n, dual_valid H ins n r = More.
Proof. exact bad_proof_accepted. Qed.
Print Assumptions C29_unchecked_addition_refuted.
Theorem C29_invalid_left_operand : forall H ins ord dup fuel a d,
  dual_valid H ins fuel a = Done false -> dual_plus H ins ord dup fuel a d = Done d.
Proof. exact plus_invalid. Qed.
Print Assumptions C29_invalid_left_operand.

(* C70: valid () of a dual terminates exactly when the paths agree *)
Theorem C70_ill_formed : forall H ins d fuel, ~ dual_well_formed d -> dual_valid H ins fuel d = Done false.
Proof. exact dual_valid_ill_formed. Qed.
Print Assumptions C70_ill_formed.
Theorem C70_terminates_exact : forall H ins, inserts ins -> forall d, dual_well_formed d ->
  ((exists fuel b, dual_valid H ins fuel d = Done b) <-> (exists r t, dual_agrees H d r t)).
Proof.
  exact (fun H ins I d W => conj
    (fun '(ex_intro _ f (ex_intro _ b E)) => match dual_valid_done H ins I d f b W E with ex_intro _ r (ex_intro _ t (conj A _)) => ex_intro _ r (ex_intro _ t A) end)
    (fun '(ex_intro _ r (ex_intro _ t A)) => ex_intro _ _ (ex_intro _ _ (dual_valid_agrees H ins I d r t W A _ (le_n _))))).
Qed.
Print Assumptions C70_terminates_exact.
Theorem C70_runs_for_ever : forall H ins, inserts ins -> forall d, dual_well_formed d -> ~ (exists r t, dual_agrees H d r t) ->
  forall fuel, dual_valid H ins fuel d = More.
Proof. exact dual_valid_for_ever. Qed.
Print Assumptions C70_runs_for_ever.

(* the branches of the example list, added one by one *)
Example C29_example :
  let e i := branch_entry (pr_branch (proof_of ex_hash32 ex_leaves i)) in
  let d i := mkdual [e i] (merkle_root ex_hash32 ex_leaves) in
  inserts (@cons branch) /\ dual_well_formed (d 0) /\
  (forall x, In x [e 0; e 1; e 2] -> full_path 2 x /\ derive_root ex_hash32 (snd x) (fst x) = merkle_root ex_hash32 ex_leaves) /\
  same_positions [e 0; e 1; e 2] /\ collision_free ex_hash32 [e 0; e 1; e 2] /\
  (exists r, dual_sum ex_hash32 cons (fun l => l) None 3 (d 2) [d 0; d 1] = Done r /\ length (d_paths r) = 3%nat).
Proof.
  intros e d. split; [intros x l; apply Permutation_refl|]. split; [split; [reflexivity|split; [reflexivity|discriminate]]|].
  split; [|split; [|split]].
  - intros x [<-|[<-|[<-|[]]]]; (split; [split; [reflexivity|split; [reflexivity|split; [reflexivity|]]]|vm_compute; reflexivity]);
      repeat constructor; eexists; split; reflexivity.
  - intros x y [<-|[<-|[<-|[]]]] [<-|[<-|[<-|[]]]] E; try reflexivity; vm_compute in E; discriminate E.
  - intros x y [<-|[<-|[<-|[]]]] [<-|[<-|[<-|[]]]] (p & q & P & Q & N & E);
      vm_compute in P; vm_compute in Q; cbn [In] in P, Q;
      destruct P as [P|[P|[]]]; destruct Q as [Q|[Q|[]]]; subst p q; try (apply N; reflexivity); vm_compute in E; discriminate E.
  - eexists. split; [vm_compute; reflexivity|reflexivity].
Qed.

(* C71: tree::operator [] *)
Theorem C71_outside : forall t i, t_width t <= i -> tree_at t i = Some empty_proof.
Proof. exact tree_at_outside. Qed.
Print Assumptions C71_outside.
Theorem C71_first_leaf_for_every_index_refuted : forall H l i, i + 1 < count l ->
  tree_at (tree_of H l) i =
  Some (mkproof (mkbranch (mkleaf (nthd l 0) i) (left_edge H l (depth (count l)))) (merkle_root H l)).
Proof. exact tree_at_first_leaf. Qed.
Print Assumptions C71_first_leaf_for_every_index_refuted.
Theorem C71_last_undefined_refuted : forall H l, 0 < count l -> count l <> 2 ^ N.of_nat (depth (count l)) ->
  tree_at (tree_of H l) (count l - 1) = None.
Proof. exact tree_at_last_undefined. Qed.
Print Assumptions C71_last_undefined_refuted.
(* a proof from operator [] is valid only if the root is itself part of a preimage of the root *)
Theorem C71_proof_needs_a_cycle : forall H l i p, 1 < count l -> i < count l -> tree_at (tree_of H l) i = Some p ->
  branch_root H (pr_branch p) = merkle_root H l ->
  exists y, H (y ++ merkle_root H l) = merkle_root H l \/ H (merkle_root H l ++ y) = merkle_root H l.
Proof. exact tree_at_needs_cycle. Qed.
Print Assumptions C71_proof_needs_a_cycle.
Example C71_example : 0 + 1 < count ex_leaves /\ count ex_leaves <> 2 ^ N.of_nat (depth (count ex_leaves)) /\
  exists p, tree_at (tree_of ex_hash32 ex_leaves) 1 = Some p /\ proof_valid ex_hash32 p = false.
Proof. split; [reflexivity|]. split; [discriminate|]. eexists. split; vm_compute; reflexivity. Qed.
