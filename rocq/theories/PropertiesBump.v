(* C30, C72, C73: BUMP. *)
From Verif Require Import Base BaseProofs WireModel WireSpec MerkleModel MerkleSpec MerkleExamples BumpModel BumpSpec BumpProofs BumpPathProofs BumpBranchProofs BumpSumProofs BumpFacts BumpExamples.
From Coq Require Import Sorting.Permutation.
Local Open Scope N_scope.

(* C30: binary form *)
Theorem C30_roundtrip : forall ins, ordered_insert ins -> forall b rest, bump_wf b -> Forall sorted (bp_path b) ->
  bump_read ins (bump_write b ++ rest) = Some (b, rest).
Proof. exact bump_rt. Qed.
Print Assumptions C30_roundtrip.
Theorem C30_bytes : forall ins, ordered_insert ins -> forall b, bump_wf b -> bp_path b <> [] -> Forall sorted (bp_path b) ->
  bump_bytes b = Some (bump_write b) /\ len (bump_write b) = bump_size b /\ bump_of_bytes ins (bump_write b) = b.
Proof. exact bytes_all. Qed.
Print Assumptions C30_bytes.
Theorem C30_256_levels_refuted : forall ins d, length d = 32%nat ->
  Forall sorted (bp_path (deep_bump d)) /\ Forall level_wf (bp_path (deep_bump d)) /\ bump_valid (deep_bump d) = true /\
  bump_of_bytes ins (bump_write (deep_bump d)) = mkbump 0 [].
Proof. exact deep_lost. Qed.
Print Assumptions C30_256_levels_refuted.
(* paths and root *)
Theorem C30_paths_derive_root : forall H ins, ordered_insert ins -> forall dup b r m, dup_picks dup -> tidy b -> bump_root H ins b = Ret r -> r <> zero_digest ->
  bump_paths H ins dup b = Some m -> forall k p, In (k, p) m -> derive_root H p k = r.
Proof. exact paths_sound. Qed.
Print Assumptions C30_paths_derive_root.
Theorem C30_paths_are_the_clients : forall H ins, ordered_insert ins -> forall dup b r, tidy b -> bump_root H ins b = Ret r -> r <> zero_digest ->
  (forall j o j' o' k, client_node b j o k -> client_node b j' o' k -> j = j' /\ o = o') ->
  exists m, bump_paths H ins dup b = Some m /\ NoDup (map fst m) /\
    (forall k p, In (k, p) m -> derive_root H p k = r) /\
    (forall k p, In (k, p) m -> (length (p_digests p) <= length (bp_path b))%nat) /\
    (forall j o k, client_node b j o k <-> exists ds, In (k, mkpath o ds) m /\ (j + length ds = length (bp_path b))%nat).
Proof. exact paths_exact. Qed.
Print Assumptions C30_paths_are_the_clients.
Theorem C30_validate_exact : forall H ins b x,
  (bump_validate H ins b x = Some true <-> bump_root H ins b = Ret x) /\
  (bump_validate H ins b x = Some false <-> bump_root H ins b = Throw tt \/ exists r, bump_root H ins b = Ret r /\ r <> x).
Proof. exact validate_exact. Qed.
Print Assumptions C30_validate_exact.
(* a BUMP can validate against a root that says nothing about one of its clients *)
Theorem C30_redundant_node_refuted : forall H ins, ordered_insert ins -> forall dup h a b c d e,
  bump_validate H ins (redundant_bump h a b c d e) (H (H (a ++ b) ++ e)) = Some true /\
  client_node (redundant_bump h a b c d e) 0 2 c /\
  bump_paths H ins dup (redundant_bump h a b c d e) = Some [(c, mkpath 2 [Some d; Some (H (a ++ b))])] /\
  derive_root H (mkpath 2 [Some d; Some (H (a ++ b))]) c = H (H (a ++ b) ++ H (c ++ d)).
Proof. exact redundant_all. Qed.
Print Assumptions C30_redundant_node_refuted.
Example C30_example : ordered_insert keep_both /\ bump_wf ex_bump /\ Forall sorted (bp_path ex_bump) /\ tidy ex_bump /\
  bump_root ex_hash32 keep_both ex_bump = Ret (ex_tr 3 0) /\ ex_tr 3 0 <> zero_digest /\
  (forall j o j' o' k, client_node ex_bump j o k -> client_node ex_bump j' o' k -> j = j' /\ o = o') /\
  (exists m, bump_paths ex_hash32 keep_both None ex_bump = Some m /\ map (fun e => p_index (snd e)) m = [1; 6]).
Proof. exact ex_bump_facts. Qed.

(* C72: sums *)
Theorem C72_remove_unnecessary : forall ins, ordered_insert ins -> forall b, Forall sorted (bp_path b) -> small (bp_path b) -> complete b ->
  remove_unnecessary_nodes ins b = Some (mkbump (bp_height b) (trim_from [] (bp_path b))).
Proof. exact remove_exact. Qed.
Print Assumptions C72_remove_unnecessary.
Theorem C72_root : forall H ins, ordered_insert ins -> forall tr, tree_digests H tr -> forall b t, tidy b -> complete b ->
  levels_in tr 0 (bp_path b) -> small (bp_path b) -> single_top (bp_path b) t ->
  bump_root H ins b = Ret (tr (length (bp_path b)) t).
Proof. exact root_tree. Qed.
Print Assumptions C72_root.
Theorem C72_sum : forall ins, ordered_insert ins -> forall tr a b, bp_height a = bp_height b -> length (bp_path a) = length (bp_path b) ->
  Forall sorted (bp_path a) -> Forall sorted (bp_path b) -> small (bp_path a) -> small (bp_path b) -> aligned_levels (bp_path a) (bp_path b) ->
  levels_in tr 0 (bp_path a) -> levels_in tr 0 (bp_path b) -> complete a -> complete b ->
  exists s, bump_plus ins a b = Some s /\ bp_height s = bp_height a /\ length (bp_path s) = length (bp_path a) /\
    tidy s /\ complete s /\ levels_in tr 0 (bp_path s) /\ small (bp_path s) /\ Forall sorted (bp_path s) /\
    (forall t, single_top (bp_path a) t -> single_top (bp_path b) t -> single_top (bp_path s) t) /\
    (forall o d, client_node s 0 o d <-> client_node a 0 o d \/ client_node b 0 o d) /\
    (forall j o d, client_node s j o d -> client_node a j o d \/ client_node b j o d).
Proof. exact plus_exact. Qed.
Print Assumptions C72_sum.
Theorem C72_two_branches : forall H ins, ordered_insert ins -> forall tr, tree_digests H tr -> forall dup h b b',
  l_index (b_leaf b) < 4294967296 -> l_index (b_leaf b') < 4294967296 -> b_digests b <> [] ->
  length (b_digests b) = length (b_digests b') -> l_index (b_leaf b) / 2 ^ N.of_nat (length (b_digests b)) = l_index (b_leaf b') / 2 ^ N.of_nat (length (b_digests b)) ->
  l_digest (b_leaf b) = tr 0%nat (l_index (b_leaf b)) -> l_digest (b_leaf b') = tr 0%nat (l_index (b_leaf b')) ->
  branch_in tr 0 (l_index (b_leaf b)) (b_digests b) -> branch_in tr 0 (l_index (b_leaf b')) (b_digests b') ->
  let r := tr (length (b_digests b)) (l_index (b_leaf b) / 2 ^ N.of_nat (length (b_digests b))) in
  r <> zero_digest -> (l_digest (b_leaf b) = l_digest (b_leaf b') -> b_leaf b = b_leaf b') ->
  exists s m, bump_plus ins (bump_of_branch ins h b) (bump_of_branch ins h b') = Some s /\ bump_root H ins s = Ret r /\ bump_paths H ins dup s = Some m /\
    NoDup (map fst m) /\
    (forall k p, In (k, p) m -> derive_root H p k = r /\ length (p_digests p) = length (b_digests b) /\ (mkleaf k (p_index p) = b_leaf b \/ mkleaf k (p_index p) = b_leaf b')) /\
    (forall lf, lf = b_leaf b \/ lf = b_leaf b' -> exists ds, In (l_digest lf, mkpath (l_index lf) ds) m).
Proof. exact branch_plus_paths. Qed.
Print Assumptions C72_two_branches.
(* three paths: whatever the ordered sequence does with an offset it has already, one of the three is lost *)
Theorem C72_three_paths_keep_both_refuted : forall H h a b c d,
  exists s, bump_of_map keep_both h (three_paths H a b c d) = Some s /\ bump_root H keep_both s = Throw tt.
Proof. exact three_keep_both. Qed.
Print Assumptions C72_three_paths_keep_both_refuted.
Theorem C72_three_paths_keep_old_refuted : forall H h a b c d, bump_of_map keep_old h (three_paths H a b c d) =
  Some (mkbump h [[mknode 0 flag_intermediate (Some a); mknode 1 flag_client (Some b); mknode 2 flag_client (Some c); mknode 3 flag_intermediate (Some d)]; []]).
Proof. exact three_keep_old. Qed.
Print Assumptions C72_three_paths_keep_old_refuted.
Theorem C72_three_paths_keep_new_refuted : forall H h a b c d, bump_of_map keep_new h (three_paths H a b c d) =
  Some (mkbump h [[mknode 0 flag_client (Some a); mknode 1 flag_intermediate (Some b); mknode 2 flag_client (Some c); mknode 3 flag_intermediate (Some d)]; []]).
Proof. exact three_keep_new. Qed.
Print Assumptions C72_three_paths_keep_new_refuted.
Example C72_example : ordered_insert keep_both /\ ordered_insert keep_old /\ ordered_insert keep_new /\ tree_digests ex_hash32 ex_tr /\
  branch_in ex_tr 0 1 (b_digests (ex_branch 1)) /\ branch_in ex_tr 0 6 (b_digests (ex_branch 6)) /\
  bump_plus keep_both (bump_of_branch keep_both 700000 (ex_branch 1)) (bump_of_branch keep_both 700000 (ex_branch 6)) = Some ex_bump /\
  Forall sorted (bp_path ex_bump_extra) /\ small (bp_path ex_bump_extra) /\ complete ex_bump_extra /\ complete ex_bump /\ levels_in ex_tr 0 (bp_path ex_bump) /\
  single_top (bp_path ex_bump) 0 /\ aligned_levels (bp_path ex_bump) (bp_path (bump_of_branch keep_both 700000 (ex_branch 6))) /\
  remove_unnecessary_nodes keep_both ex_bump_extra = Some ex_bump.
Proof. exact ex_sum_facts. Qed.

(* C73: from a single branch *)
Theorem C73_root : forall H ins, ordered_insert ins -> forall h b, l_index (b_leaf b) < 4294967296 -> b_digests b <> [] ->
  (implicit_right (l_index (b_leaf b)) (b_digests b) -> bump_root H ins (bump_of_branch ins h b) = Ret (branch_root H b)) /\
  (~ implicit_right (l_index (b_leaf b)) (b_digests b) -> bump_root H ins (bump_of_branch ins h b) = Undef).
Proof. exact root_of_branch. Qed.
Print Assumptions C73_root.
Theorem C73_path : forall H ins, ordered_insert ins -> forall dup h b, l_index (b_leaf b) < 4294967296 -> b_digests b <> [] ->
  implicit_right (l_index (b_leaf b)) (b_digests b) ->
  bump_paths H ins dup (bump_of_branch ins h b) =
  Some [(l_digest (b_leaf b), mkpath (l_index (b_leaf b)) (written_out H (b_leaf b) (b_digests b)))].
Proof. exact paths_of_branch. Qed.
Print Assumptions C73_path.
Theorem C73_explicit : forall H ds lf, Forall (fun m => m <> None) ds -> written_out H lf ds = ds.
Proof. exact written_out_explicit. Qed.
Print Assumptions C73_explicit.
Theorem C73_wide_index_refuted : forall H ins, ordered_insert ins -> forall h b, 4294967296 <= l_index (b_leaf b) -> b_digests b <> [] ->
  bump_root H ins (bump_of_branch ins h b) = Throw tt.
Proof. exact root_of_branch_far. Qed.
Print Assumptions C73_wide_index_refuted.
Theorem C73_no_siblings_refuted : forall ins h lf, bump_of_branch ins h (mkbranch lf []) = mkbump h [].
Proof. exact root_of_branch_nil. Qed.
Print Assumptions C73_no_siblings_refuted.
Example C73_example :
  implicit_right 2 [None; Some (ex_digest 9)] /\ ~ implicit_right 3 [None; Some (ex_digest 9)] /\
  bump_root ex_hash32 keep_both (bump_of_branch keep_both 5 (mkbranch (mkleaf (ex_digest 3) 2) [None; Some (ex_digest 9)])) =
  Ret (branch_root ex_hash32 (mkbranch (mkleaf (ex_digest 3) 2) [None; Some (ex_digest 9)])).
Proof. split; [split; [reflexivity|split; [discriminate|exact I]]|]. split; [intros [X _]; specialize (X eq_refl); discriminate|vm_compute; reflexivity]. Qed.
