(* BUMP: consequences and counterexamples. *)
From Verif Require Import Base BaseProofs WireModel WireSpec MerkleModel MerkleSpec MerkleProofs MerkleTreeProofs DualProofs BumpModel BumpSpec BumpProofs BumpPathProofs BumpBranchProofs BumpSumProofs.
From Coq Require Import Sorting.Permutation.
From Coq Require Import ZifyBool ZifyNat ZifyN.
Ltac Zify.zify_post_hook ::= Z.div_mod_to_equations.
Local Open Scope N_scope.

Lemma asc4 : forall a b c d, a < b -> b < c -> c < d -> ascending [a; b; c; d].
Proof.
  intros a b c d A B C. split; [intros y [<-|[<-|[<-|[]]]]; lia|]. split; [intros y [<-|[<-|[]]]; lia|].
  split; [intros y [<-|[]]; lia|]. split; [intros y []|exact I].
Qed.

Lemma redundant_root : forall H ins, ordered_insert ins -> forall h a b c d e,
  bump_root H ins (redundant_bump h a b c d e) = Ret (H (H (a ++ b) ++ e)).
Proof.
  intros H ins Ins h a b c d e. unfold bump_root, redundant_bump. cbn [bp_path root_from].
  rewrite (combine_nil ins Ins) by (apply asc4; reflexivity).
  assert (St : step H ins [mknode 0 flag_intermediate (Some a); mknode 1 flag_intermediate (Some b); mknode 2 flag_client (Some c); mknode 3 flag_intermediate (Some d)] =
    Ret [mknode 0 flag_intermediate (Some (H (a ++ b))); mknode 1 flag_intermediate (Some (H (c ++ d)))]).
  { unfold step. cbn [length Nat.odd Nat.even negb rev app step_loop n_offset n_digest]. unfold is_duplicate. cbn [n_flag].
    change ((3 / 2 =? 2 / 2) && (w64 (2 + 1) =? 3)) with true. change ((1 / 2 =? 0 / 2) && (w64 (0 + 1) =? 1)) with true. cbv iota.
    change (byte_eqb flag_intermediate flag_duplicate) with false. cbv iota. change (3 / 2) with 1. change (1 / 2) with 0.
    rewrite (insert_nil ins Ins). unfold insert. rewrite (ins_front ins Ins) by (intros y [<-|[]]; reflexivity). reflexivity. }
  rewrite St.
  assert (C : combine ins [mknode 0 flag_intermediate (Some (H (a ++ b))); mknode 1 flag_intermediate (Some (H (c ++ d)))] [mknode 1 flag_client (Some e)] =
    [mknode 0 flag_intermediate (Some (H (a ++ b))); mknode 1 flag_client (Some e)]).
  { unfold combine, insert_all. apply (fold_ins_is ins Ins); [apply two_ascending; reflexivity|]. apply perm_swap. }
  rewrite C. unfold step. cbn [length Nat.odd Nat.even negb rev app step_loop n_offset n_digest].
  change ((1 / 2 =? 0 / 2) && (w64 (0 + 1) =? 1)) with true. cbv iota. unfold is_duplicate. cbn [n_flag].
  change (byte_eqb flag_client flag_duplicate) with false. cbv iota. rewrite (insert_nil ins Ins). reflexivity.
Qed.

Lemma redundant_validates : forall H ins, ordered_insert ins -> forall h a b c d e,
  bump_validate H ins (redundant_bump h a b c d e) (H (H (a ++ b) ++ e)) = Some true.
Proof.
  intros H ins Ins h a b c d e. unfold bump_validate. rewrite redundant_root by exact Ins. f_equal. apply MerkleTreeProofs.bytes_eqb_refl.
Qed.

Lemma redundant_paths : forall H ins, ordered_insert ins -> forall dup h a b c d e,
  bump_paths H ins dup (redundant_bump h a b c d e) = Some [(c, mkpath 2 [Some d; Some (H (a ++ b))])].
Proof.
  intros H ins Ins dup h a b c d e. unfold bump_paths, redundant_bump. cbn [bp_path smash_all].
  set (l0 := [mknode 0 flag_intermediate (Some a); mknode 1 flag_intermediate (Some b); mknode 2 flag_client (Some c); mknode 3 flag_intermediate (Some d)]).
  unfold path_next_layer at 1. rewrite (fold_ins_is ins Ins smash s_offset _ (map Given l0));
    [|rewrite map_map; apply asc4; reflexivity|cbn [rev merge]; rewrite map_rev; symmetry; apply Permutation_rev].
  cbn [l0 map smash_pairs]. unfold smash_together at 1 2. cbn [s_node n_digest]. unfold is_duplicate. cbn [n_flag].
  change (byte_eqb flag_intermediate flag_duplicate) with false. cbv iota.
  unfold s_offset at 2 3. cbn [s_node n_offset]. change (0 / 2) with 0. change (2 / 2) with 1.
  rewrite (ins_front ins Ins smash s_offset _ []) by (intros ? []). rewrite (ins_back ins Ins) by (intros y [<-|[]]; reflexivity). cbn [app].
  unfold path_next_layer. set (z0 := Made _ (Given (mknode 0 _ _)) _). set (z1 := Made _ (Given (mknode 2 _ _)) _).
  rewrite (fold_ins_is ins Ins smash s_offset _ [z0; z1]); [|apply two_ascending; reflexivity|apply perm_swap].
  cbn [smash_pairs]. unfold smash_together. cbn [s_node z0 z1 n_digest]. unfold is_duplicate. cbn [n_flag].
  change (byte_eqb flag_intermediate flag_duplicate) with false. cbv iota. rewrite (ins_front ins Ins smash s_offset _ []) by (intros ? []).
  reflexivity.
Qed.

Lemma deep_lost : forall ins d, length d = 32%nat ->
  Forall sorted (bp_path (deep_bump d)) /\ Forall level_wf (bp_path (deep_bump d)) /\ bump_valid (deep_bump d) = true /\
  bump_of_bytes ins (bump_write (deep_bump d)) = mkbump 0 [].
Proof.
  intros ins d L. unfold deep_bump. cbn [bp_path].
  assert (Fr : forall A (P : A -> Prop) x n, P x -> Forall P (repeat x n)) by (intros; apply Forall_forall; intros y Y; apply repeat_spec in Y; subst; assumption).
  split; [apply Fr; split; [intros ? []|exact I]|]. split; [apply Fr; split; [vm_compute; reflexivity|]; constructor; [|constructor]; split; [vm_compute; reflexivity|]; split; [exact L|discriminate]|].
  split.
  - reflexivity.
  - unfold bump_of_bytes, bump_read, bump_write, bump_depth, rd_bind. cbn [bp_height bp_path]. rewrite (c_rt _ _ _ WireProofs.codec_var_int) by (vm_compute; reflexivity).
    cbn [rd_byte]. rewrite repeat_length. reflexivity.
Qed.

(* three paths *)
Lemma sum_three : forall ins H h a b c d, bump_of_map ins h (three_paths H a b c d) =
  match bump_of_map ins 0 (three_paths H a b c d) with Some s => Some (mkbump h (bp_path s)) | None => None end.
Proof.
  assert (Q : forall ins h p q, bump_plus ins (mkbump h p) (mkbump h q) = option_map (fun s => mkbump h (bp_path s)) (bump_plus ins (mkbump 0 p) (mkbump 0 q))).
  { intros ins h p q. unfold bump_plus. cbn [bp_height bp_path]. rewrite N.eqb_refl. change (negb (0 =? 0)) with false. cbn [negb]. destruct (combine_paths ins p q); [|reflexivity].
    unfold remove_unnecessary_nodes. cbn [bp_height bp_path]. destruct (remove_levels ins l []); reflexivity. }
  assert (P : forall ins h m p, plus_all ins (mkbump h p) m = option_map (fun s => mkbump h (bp_path s)) (plus_all ins (mkbump 0 p) m)).
  { intros ins h. induction m as [|e m IH]; intros p; [reflexivity|]. cbn [plus_all bp_height]. unfold bump_of_branch. rewrite Q.
    assert (Z : forall q, match bump_plus ins (mkbump 0 p) (mkbump 0 q) with Some s => s = mkbump 0 (bp_path s) | None => True end).
    { intros q. pose proof (Q ins 0 p q) as E. destruct (bump_plus ins (mkbump 0 p) (mkbump 0 q)) as [s|]; [|exact I]. cbn [option_map] in E. congruence. }
    specialize (Z (to_path ins (path_branch e))). destruct (bump_plus ins (mkbump 0 p) (mkbump 0 (to_path ins (path_branch e)))) as [s|]; [|reflexivity].
    cbn [option_map]. rewrite Z at 2. apply IH. }
  intros. unfold bump_of_map, three_paths. rewrite P. destruct (plus_all ins _ _); reflexivity.
Qed.

Lemma three_keep_both : forall H h a b c d, exists s, bump_of_map keep_both h (three_paths H a b c d) = Some s /\ bump_root H keep_both s = Throw tt.
Proof. intros. rewrite sum_three. eexists. split; [vm_compute; reflexivity|vm_compute; reflexivity]. Qed.
Lemma three_keep_old : forall H h a b c d, bump_of_map keep_old h (three_paths H a b c d) =
  Some (mkbump h [[mknode 0 flag_intermediate (Some a); mknode 1 flag_client (Some b); mknode 2 flag_client (Some c); mknode 3 flag_intermediate (Some d)]; []]).
Proof. intros. rewrite sum_three. vm_compute. reflexivity. Qed.
Lemma three_keep_new : forall H h a b c d, bump_of_map keep_new h (three_paths H a b c d) =
  Some (mkbump h [[mknode 0 flag_client (Some a); mknode 1 flag_intermediate (Some b); mknode 2 flag_client (Some c); mknode 3 flag_intermediate (Some d)]; []]).
Proof. intros. rewrite sum_three. vm_compute. reflexivity. Qed.

Lemma keep_both_ordered : ordered_insert keep_both.
Proof. intros A off x l N. reflexivity. Qed.
Lemma fresh_existsb : forall A (off : A -> N) x l, ~ In (off x) (map off l) -> existsb (fun y => off y =? off x) l = false.
Proof.
  intros A off x l N. destruct (existsb _ l) eqn:E; [|reflexivity]. apply existsb_exists in E. destruct E as (y & Y & E). apply N.eqb_eq in E.
  exfalso. apply N. rewrite <- E. apply in_map, Y.
Qed.
Lemma keep_old_ordered : ordered_insert keep_old.
Proof. intros A off x l N. unfold keep_old. rewrite fresh_existsb by exact N. reflexivity. Qed.
Lemma keep_new_ordered : ordered_insert keep_new.
Proof. intros A off x l N. unfold keep_new. rewrite fresh_existsb by exact N. reflexivity. Qed.

(* the sum of two branches and what is read from it *)
Lemma branch_plus_paths : forall H ins, ordered_insert ins -> forall tr, tree_digests H tr -> forall dup h b b', l_index (b_leaf b) < 4294967296 -> l_index (b_leaf b') < 4294967296 -> b_digests b <> [] ->
  length (b_digests b) = length (b_digests b') -> l_index (b_leaf b) / 2 ^ N.of_nat (length (b_digests b)) = l_index (b_leaf b') / 2 ^ N.of_nat (length (b_digests b)) ->
  l_digest (b_leaf b) = tr 0%nat (l_index (b_leaf b)) -> l_digest (b_leaf b') = tr 0%nat (l_index (b_leaf b')) ->
  branch_in tr 0 (l_index (b_leaf b)) (b_digests b) -> branch_in tr 0 (l_index (b_leaf b')) (b_digests b') ->
  let r := tr (length (b_digests b)) (l_index (b_leaf b) / 2 ^ N.of_nat (length (b_digests b))) in
  r <> zero_digest -> (l_digest (b_leaf b) = l_digest (b_leaf b') -> b_leaf b = b_leaf b') ->
  exists s m, bump_plus ins (bump_of_branch ins h b) (bump_of_branch ins h b') = Some s /\ bump_root H ins s = Ret r /\ bump_paths H ins dup s = Some m /\
    NoDup (map fst m) /\
    (forall k p, In (k, p) m -> derive_root H p k = r /\ length (p_digests p) = length (b_digests b) /\ (mkleaf k (p_index p) = b_leaf b \/ mkleaf k (p_index p) = b_leaf b')) /\
    (forall lf, lf = b_leaf b \/ lf = b_leaf b' -> exists ds, In (l_digest lf, mkpath (l_index lf) ds) m).
Proof.
  intros H ins Ins tr Tr dup h b b' L L' Ne Ll T E E' B B' r Nz Inj.
  destruct (branch_plus H ins Ins tr Tr h b b' L L' Ne Ll T E E' B B') as (s & S1 & S2 & S3 & S4 & S5). fold r in S4.
  destruct (paths_exact H ins Ins dup s r S2 S4 Nz) as (m & M1 & M2 & M3 & Mb & M4).
  { intros j o j' o' k X Y. apply S5 in X, Y. destruct X as [-> X], Y as [-> Y]. split; [reflexivity|].
    assert (Q : mkleaf k o = mkleaf k o'); [|congruence].
    destruct X as [X|X], Y as [Y|Y]; [congruence| | |congruence].
    - rewrite X, Y. apply Inj. rewrite <- X, <- Y. reflexivity.
    - rewrite X, Y. symmetry. apply Inj. rewrite <- X, <- Y. reflexivity. }
  exists s, m. split; [exact S1|]. split; [exact S4|]. split; [exact M1|]. split; [exact M2|]. split.
  - intros k p X. split; [apply (M3 k p X)|].
    specialize (Mb k p X). destruct p as [o ds]. cbn [p_digests p_index] in *.
    assert (Cn : client_node s (length (bp_path s) - length ds) o k) by (apply M4; exists ds; split; [exact X|lia]).
    apply S5 in Cn. destruct Cn as [J Q]. split; [lia|exact Q].
  - intros lf X. assert (Cn : client_node s 0 (l_index lf) (l_digest lf)) by (apply S5; split; [reflexivity|destruct lf; exact X]).
    apply M4 in Cn. destruct Cn as (ds & D & _). exists ds. exact D.
Qed.

Lemma bytes_all : forall ins, ordered_insert ins -> forall b, bump_wf b -> bp_path b <> [] -> Forall sorted (bp_path b) ->
  bump_bytes b = Some (bump_write b) /\ len (bump_write b) = bump_size b /\ bump_of_bytes ins (bump_write b) = b.
Proof. intros ins Ins b W Ne S. split; [apply bump_bytes_exact; assumption|]. split; [apply bump_size_exact; assumption|apply bump_of_bytes_rt; assumption]. Qed.

Lemma redundant_all : forall H ins, ordered_insert ins -> forall dup h a b c d e,
  bump_validate H ins (redundant_bump h a b c d e) (H (H (a ++ b) ++ e)) = Some true /\
  client_node (redundant_bump h a b c d e) 0 2 c /\
  bump_paths H ins dup (redundant_bump h a b c d e) = Some [(c, mkpath 2 [Some d; Some (H (a ++ b))])] /\
  derive_root H (mkpath 2 [Some d; Some (H (a ++ b))]) c = H (H (a ++ b) ++ H (c ++ d)).
Proof.
  intros. split; [apply redundant_validates; assumption|]. split; [eexists; split; [reflexivity|cbn [In]; auto]|]. split; [apply redundant_paths; assumption|reflexivity].
Qed.

Lemma validate_exact : forall H ins b x,
  (bump_validate H ins b x = Some true <-> bump_root H ins b = Ret x) /\
  (bump_validate H ins b x = Some false <-> bump_root H ins b = Throw tt \/ exists r, bump_root H ins b = Ret r /\ r <> x).
Proof.
  intros H ins b x. unfold bump_validate. destruct (bump_root H ins b) as [r|[]|]; split; split; intros E; try discriminate.
  - assert (B : bytes_eqb x r = true) by congruence. apply bytes_eqb_eq in B. congruence.
  - assert (r = x) by congruence. subst. f_equal. apply MerkleTreeProofs.bytes_eqb_refl.
  - right. exists r. split; [reflexivity|]. intros ->. rewrite MerkleTreeProofs.bytes_eqb_refl in E. discriminate.
  - destruct E as [E|(r' & E & Ne)]; [discriminate|]. f_equal. assert (r = r') by congruence. subst r'.
    destruct (bytes_eqb x r) eqn:B; [|reflexivity]. apply bytes_eqb_eq in B. congruence.
  - left. reflexivity.
  - reflexivity.
  - destruct E as [E|(r' & E & _)]; discriminate.
Qed.
