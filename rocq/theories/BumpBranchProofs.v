(* BUMP: from a single branch. *)
From Verif Require Import Base BaseProofs WireModel WireSpec MerkleModel MerkleSpec MerkleProofs MerkleTreeProofs DualProofs BumpModel BumpSpec BumpProofs BumpPathProofs.
From Coq Require Import Sorting.Permutation.
From Coq Require Import ZifyBool ZifyNat ZifyN.
Ltac Zify.zify_post_hook ::= Z.div_mod_to_equations.
Local Open Scope N_scope.

(* flipping the last bit *)
Notation flip := twin.

Lemma odd_form : forall o, o = 2 * (o / 2) + (if N.odd o then 1 else 0).
Proof. intros o. pose proof (MerkleProofs.mod2_odd o) as M. destruct (N.odd o); lia. Qed.

Lemma lxor1_flip : forall o, N.lxor o 1 = flip o.
Proof. intros [|[p|p|]]; try reflexivity; destruct p; reflexivity. Qed.

Lemma flip_bound : forall o, o < 4294967296 -> flip o < 4294967296.
Proof. intros o L. unfold twin. pose proof (odd_form o). destruct (N.odd o); lia. Qed.

Lemma next_offset_flip : forall o, o < 4294967296 -> next_offset (flip o) = flip (o / 2).
Proof.
  intros o L. unfold next_offset, w32. rewrite N.mod_small by (apply flip_bound, L). rewrite <- !lxor1_flip.
  rewrite N.shiftr_lxor, N.shiftr_lxor, !N.shiftr_div_pow2. change (2 ^ 1) with 2. change (1 / 2) with 0. change (2 / 2) with 1.
  rewrite N.lxor_0_r. reflexivity.
Qed.

Section Branch.
Variable H : bytes -> bytes.
Variable ins : forall A, (A -> N) -> A -> list A -> list A.
Hypothesis Ins : ordered_insert ins.

Lemma two_ascending : forall A (off : A -> N) x y, off x < off y -> ascending (map off [x; y]).
Proof. intros A off x y L. split; [|split; [intros ? []|exact I]]. intros z [<-|[]]. exact L. Qed.

Lemma merge_two : forall A (off : A -> N) pick x y, off x <> off y -> Permutation (merge off pick [x] [y]) [x; y].
Proof. intros A off pick x y Ne. apply (merge_disjoint A off pick [x] [y]). intros a b [<-|[]] [<-|[]]. exact Ne. Qed.

(* the level with a node and its sibling *)
Definition ordered (c s : node) : level := if n_offset c <? n_offset s then [c; s] else [s; c].
Lemma ordered_sorted : forall c s, n_offset c <> n_offset s -> sorted (ordered c s).
Proof. intros c s Ne. unfold ordered, sorted, offsets. destruct (N.ltb_spec (n_offset c) (n_offset s)); apply two_ascending; lia. Qed.
Lemma ordered_perm : forall c s, Permutation [c; s] (ordered c s).
Proof. intros c s. unfold ordered. destruct (_ <? _); [reflexivity|apply perm_swap]. Qed.

Lemma combine_single : forall c s, n_offset c <> n_offset s -> combine ins [c] [s] = ordered c s.
Proof.
  intros c s Ne. unfold combine, insert_all. apply (fold_ins_is ins Ins); [apply ordered_sorted, Ne|].
  cbn [rev app]. rewrite merge_two by exact Ne. apply ordered_perm.
Qed.
Lemma insert_single : forall c s, n_offset c <> n_offset s -> insert ins s [c] = ordered c s.
Proof.
  intros c s Ne. unfold insert, ordered. destruct (N.ltb_spec (n_offset c) (n_offset s)).
  - rewrite ins_back; [reflexivity|exact Ins|]. intros y [<-|[]]. lia.
  - rewrite ins_front; [reflexivity|exact Ins|]. intros y [<-|[]]. lia.
Qed.
Lemma combine_nil : forall l, sorted l -> combine ins [] l = l.
Proof.
  intros l S. unfold combine, insert_all. cbn [rev merge]. apply (fold_ins_is ins Ins); [exact S|]. symmetry. apply Permutation_rev.
Qed.
Lemma insert_nil : forall n, insert ins n [] = [n].
Proof. intros n. unfold insert. rewrite ins_front; [reflexivity|exact Ins|intros ? []]. Qed.

Definition sibling_node (o : N) (m : option bytes) : node :=
  match m with Some d => mknode o flag_intermediate (Some d) | None => dup_node o end.
Lemma sibling_node_offset : forall o m, n_offset (sibling_node o m) = o.
Proof. intros o [d|]; reflexivity. Qed.

Lemma flip_ne : forall o, o <> flip o.
Proof. intros o. unfold twin. pose proof (odd_form o). destruct (N.odd o); lia. Qed.

Lemma step_sibling : forall o f d m, o < 4294967296 -> byte_eqb f flag_duplicate = false ->
  step H ins (ordered (mknode o f (Some d)) (sibling_node (flip o) m)) =
  match m with
  | None => if N.odd o then Undef else Ret [mknode (o / 2) flag_intermediate (Some (H (d ++ d)))]
  | Some e => Ret [mknode (o / 2) flag_intermediate (Some (if N.odd o then H (e ++ d) else H (d ++ e)))]
  end.
Proof.
  intros o f d m L F. pose proof (odd_form o) as O. unfold ordered. rewrite sibling_node_offset. cbn [n_offset]. unfold twin in *.
  destruct (N.odd o) eqn:Od.
  - replace (o <? o - 1) with false by lia. unfold step. cbn [length Nat.odd Nat.even negb rev app step_loop n_offset]. rewrite sibling_node_offset.
    replace (o / 2 =? (o - 1) / 2) with true by lia. unfold w64. replace ((o - 1 + 1) mod 18446744073709551616 =? o) with true by lia. cbn [andb].
    unfold is_duplicate. cbn [n_flag n_digest]. rewrite F. destruct m as [e|]; [|reflexivity]. cbn [sibling_node n_digest]. rewrite insert_nil. reflexivity.
  - replace (o <? o + 1) with true by lia. unfold step. cbn [length Nat.odd Nat.even negb rev app step_loop n_offset]. rewrite sibling_node_offset.
    replace ((o + 1) / 2 =? o / 2) with true by lia. unfold w64. replace ((o + 1) mod 18446744073709551616 =? o + 1) with true by lia. cbn [andb n_digest].
    destruct m as [e|]; unfold is_duplicate; cbn [sibling_node n_digest n_flag dup_node].
    + change (byte_eqb flag_intermediate flag_duplicate) with false. cbv iota. rewrite insert_nil. replace ((o + 1) / 2) with (o / 2) by lia. reflexivity.
    + change (byte_eqb flag_duplicate flag_duplicate) with true. cbv iota. rewrite insert_nil. replace ((o + 1) / 2) with (o / 2) by lia. reflexivity.
Qed.

Lemma loop_cons : forall o m r lvl, to_path_loop ins o lvl (m :: r) = insert ins (sibling_node o m) lvl :: to_path_loop ins (next_offset o) [] r.
Proof. intros o [d|] r lvl; reflexivity. Qed.

Lemma root_branch_loop : forall ds o f d, o < 4294967296 -> byte_eqb f flag_duplicate = false ->
  (implicit_right o ds -> root_from H ins [mknode o f (Some d)] (to_path_loop ins (flip o) [] ds) = Ret (l_digest (climb H (mkleaf d o) ds))) /\
  (~ implicit_right o ds -> root_from H ins [mknode o f (Some d)] (to_path_loop ins (flip o) [] ds) = Undef).
Proof.
  induction ds as [|m ds IH]; intros o f d L F; [split; [reflexivity|]; intros X; exfalso; apply X; exact I|].
  assert (L2 : o / 2 < 4294967296) by lia.
  rewrite loop_cons. cbn [root_from]. rewrite insert_nil. rewrite combine_single by (rewrite sibling_node_offset; apply flip_ne).
  rewrite step_sibling by assumption. rewrite next_offset_flip by exact L. cbn [implicit_right climb].
  unfold leaf_next, hcat. cbn [l_index l_digest]. destruct m as [e|]; cbn [sibling l_digest].
  - destruct (IH (o / 2) flag_intermediate (if N.odd o then H (e ++ d) else H (d ++ e)) L2 eq_refl) as [I1 I2].
    split; [intros [_ X]; apply I1, X|]. intros X. apply I2. intros Y. apply X. split; [discriminate|exact Y].
  - destruct (N.odd o) eqn:O.
    + split; [intros [X _]; specialize (X eq_refl); discriminate|reflexivity].
    + destruct (IH (o / 2) flag_intermediate (H (d ++ d)) L2 eq_refl) as [I1 I2].
      split; [intros [_ X]; apply I1, X|]. intros X. apply I2. intros Y. apply X. split; [reflexivity|exact Y].
Qed.

Lemma root_of_branch : forall h b, l_index (b_leaf b) < 4294967296 -> b_digests b <> [] ->
  (implicit_right (l_index (b_leaf b)) (b_digests b) -> bump_root H ins (bump_of_branch ins h b) = Ret (branch_root H b)) /\
  (~ implicit_right (l_index (b_leaf b)) (b_digests b) -> bump_root H ins (bump_of_branch ins h b) = Undef).
Proof.
  intros h [[d o] ds] L Ne. cbn [b_leaf l_index b_digests] in *. destruct ds as [|m ds]; [congruence|].
  unfold bump_root, bump_of_branch, to_path, branch_root, root_leaf. cbn [b_leaf l_index l_digest b_digests bp_path]. rewrite lxor1_flip.
  unfold w32. rewrite N.mod_small by (apply flip_bound, L).
  assert (Q : forall p, root_from H ins [] (insert ins (sibling_node (flip o) m) [mknode o flag_client (Some d)] :: p) =
              root_from H ins [mknode o flag_client (Some d)] (insert ins (sibling_node (flip o) m) [] :: p)).
  { intros p. assert (Ne' : n_offset (mknode o flag_client (Some d)) <> n_offset (sibling_node (flip o) m)) by (rewrite sibling_node_offset; apply flip_ne).
    cbn [root_from]. rewrite insert_nil, combine_single, insert_single, combine_nil by (auto using ordered_sorted). reflexivity. }
  rewrite loop_cons, Q, <- loop_cons. apply root_branch_loop; [exact L|reflexivity].
Qed.

(* an index that does not fit in 32 bits *)
Lemma root_of_branch_far : forall h b, 4294967296 <= l_index (b_leaf b) -> b_digests b <> [] ->
  bump_root H ins (bump_of_branch ins h b) = Throw tt.
Proof.
  intros h [[d o] ds] L Ne. cbn [b_leaf l_index b_digests] in *. destruct ds as [|m ds]; [congruence|].
  unfold bump_root, bump_of_branch, to_path. cbn [b_leaf l_index l_digest b_digests bp_path]. rewrite loop_cons. cbn [root_from].
  set (w := w32 (N.lxor o 1)). assert (W : w < 4294967296) by (unfold w, w32; lia).
  assert (Ne' : n_offset (mknode o flag_client (Some d)) <> n_offset (sibling_node w m)) by (rewrite sibling_node_offset; cbn [n_offset]; lia).
  rewrite insert_single, combine_nil by auto using ordered_sorted. unfold ordered. rewrite sibling_node_offset. cbn [n_offset].
  replace (o <? w) with false by lia. unfold step. cbn [length Nat.odd Nat.even negb rev app step_loop n_offset]. rewrite sibling_node_offset.
  replace (o / 2 =? w / 2) with false by lia. reflexivity.
Qed.

(* without siblings *)
Lemma root_of_branch_nil : forall h lf, bump_of_branch ins h (mkbranch lf []) = mkbump h [].
Proof. reflexivity. Qed.

(* ---- its paths ---- *)

Lemma layer_single : forall z o f d m, s_node z = mknode o f (Some d) -> o < 4294967296 -> byte_eqb f flag_duplicate = false ->
  (m = None -> N.odd o = false) ->
  exists z', path_next_layer H ins [z] [sibling_node (flip o) m] = Some [z'] /\
    s_node z' = mknode (o / 2) flag_intermediate (Some (l_digest (leaf_next H (mkleaf d o) (sibling m (mkleaf d o))))) /\
    (good H z -> good H z') /\ entries z' = map (add_step (Some (sibling m (mkleaf d o)))) (entries z).
Proof.
  intros z o f d m Z L F M.
  assert (So : s_offset z = o) by (unfold s_offset; rewrite Z; reflexivity).
  assert (St : step H ins (combine ins (map s_node [z]) [sibling_node (flip o) m]) =
    Ret [mknode (o / 2) flag_intermediate (Some (l_digest (leaf_next H (mkleaf d o) (sibling m (mkleaf d o)))))]).
  { cbn [map]. rewrite Z, combine_single, step_sibling by (try assumption; rewrite sibling_node_offset; apply flip_ne).
    unfold leaf_next, hcat. cbn [l_index l_digest]. destruct m as [e|]; [reflexivity|]. rewrite (M eq_refl). reflexivity. }
  assert (A1 : ascending (map s_offset [z])) by (split; [intros ? []|exact I]).
  assert (A2 : sorted [sibling_node (flip o) m]) by (split; [intros ? []|exact I]).
  assert (A3 : forall x, In x (offsets [sibling_node (flip o) m]) -> ~ In x (map s_offset [z])).
  { intros x [<-|[]] [X|[]]. rewrite sibling_node_offset, So in X. exact (flip_ne o X). }
  destruct (layer H ins Ins _ _ _ A1 A2 A3 St) as (u & ms & E & P & Mn & Sm & Pm).
  - destruct ms as [|z' [|? ?]]; try discriminate. cbn [map] in Mn. exists z'. split; [exact E|]. split; [congruence|].
    inversion P as [|a b m' u' ms' T Oa Ob P']; subst. inversion P'; subst.
    assert (Zo : s_offset z' = s_offset z / 2) by (unfold s_offset at 1; replace (s_node z') with (mknode (s_offset z / 2) flag_intermediate (Some (l_digest (leaf_next H (mkleaf d (s_offset z)) (sibling m (mkleaf d (s_offset z))))))) by congruence; reflexivity).
    pose proof (odd_form (s_offset z)) as Of.
    assert (AB : (a = z /\ b = Given (sibling_node (flip (s_offset z)) m) /\ N.odd (s_offset z) = false) \/
                 (b = z /\ a = Given (sibling_node (flip (s_offset z)) m) /\ N.odd (s_offset z) = true)).
    { cbn [app map] in Pm. apply Permutation_sym, Permutation_length_2_inv in Pm. destruct Pm as [Pm|Pm].
      - left. assert (a = z) by congruence. assert (b = Given (sibling_node (flip (s_offset z)) m)) by congruence. subst a b.
        split; [reflexivity|]. split; [reflexivity|]. destruct (N.odd (s_offset z)); [lia|reflexivity].
      - right. assert (b = z) by congruence. assert (a = Given (sibling_node (flip (s_offset z)) m)) by congruence. subst a b.
        split; [reflexivity|]. split; [reflexivity|]. destruct (N.odd (s_offset z)); [reflexivity|lia]. }
    destruct (together_inv H _ _ _ T) as (da & db & Da & Db & Ez).
    assert (Ns : entries (Given (sibling_node (flip (s_offset z)) m)) = []) by (destruct m; reflexivity).
    split.
    + intros G. rewrite Ez. cbn [good]. rewrite <- Ez. rewrite Ez in Oa, Ob. rewrite made_offset in Oa, Ob. cbn [n_offset].
      split; [exact T|]. split; [exact Oa|]. split; [exact Ob|]. destruct AB as [(-> & -> & _)|(-> & -> & _)]; split; (exact G || exact I).
    + rewrite Ez. cbn [entries]. destruct AB as [(-> & -> & Od)|(-> & -> & Od)]; rewrite Ns; cbn [map app].
      * rewrite app_nil_r. f_equal. f_equal. rewrite Z in Da. unfold right_digest in *. cbn [s_node] in *. rewrite Z in *. destruct m as [e|]; reflexivity.
      * f_equal. f_equal. cbn [s_node] in *. destruct m as [e|]; [reflexivity|]. specialize (M eq_refl). congruence.
Qed.

Lemma paths_loop : forall ds z o f d, s_node z = mknode o f (Some d) -> o < 4294967296 -> byte_eqb f flag_duplicate = false -> good H z -> implicit_right o ds ->
  exists z', smash_all H ins [z] (to_path_loop ins (flip o) [] ds) = Some [z'] /\ good H z' /\ n_digest (s_node z') <> None /\
    entries z' = map (append_to (written_out H (mkleaf d o) ds)) (entries z).
Proof.
  induction ds as [|m ds IH]; intros z o f d Z L F G Im.
  - exists z. split; [reflexivity|]. split; [exact G|]. split; [rewrite Z; discriminate|]. cbn [written_out]. rewrite append_nil. reflexivity.
  - destruct Im as [I1 I2]. rewrite loop_cons. cbn [smash_all]. rewrite insert_nil.
    destruct (layer_single z o f d m Z L F I1) as (z1 & E1 & N1 & G1 & En). rewrite E1, next_offset_flip by exact L.
    destruct (IH z1 (o / 2) flag_intermediate (l_digest (leaf_next H (mkleaf d o) (sibling m (mkleaf d o))))) as (z' & E' & G' & N' & En'); auto; [lia|].
    exists z'. split; [exact E'|]. split; [exact G'|]. split; [exact N'|]. rewrite En', En, append_add. reflexivity.
Qed.

Lemma layer_first : forall o d m, o < 4294967296 -> (m = None -> N.odd o = false) ->
  path_next_layer H ins [] (insert ins (sibling_node (flip o) m) [mknode o flag_client (Some d)]) =
  path_next_layer H ins [Given (mknode o flag_client (Some d))] [sibling_node (flip o) m].
Proof.
  intros o d m L M. set (c := mknode o flag_client (Some d)). set (s := sibling_node (flip o) m).
  assert (Ne : n_offset c <> n_offset s) by (unfold s; rewrite sibling_node_offset; apply flip_ne).
  rewrite insert_single by exact Ne. unfold path_next_layer. f_equal.
  assert (As : ascending (map s_offset (map Given (ordered c s)))) by (rewrite map_map; exact (ordered_sorted c s Ne)).
  rewrite (fold_ins_is ins Ins smash s_offset _ (map Given (ordered c s)) As); [|cbn [rev merge]; rewrite map_rev; symmetry; apply Permutation_rev].
  symmetry. apply (fold_ins_is ins Ins smash s_offset); [exact As|]. cbn [rev app map]. rewrite merge_two by exact Ne.
  change [Given c; Given s] with (map Given [c; s]). apply Permutation_map, ordered_perm.
Qed.

Lemma paths_of_branch : forall dup h b, l_index (b_leaf b) < 4294967296 -> b_digests b <> [] -> implicit_right (l_index (b_leaf b)) (b_digests b) ->
  bump_paths H ins dup (bump_of_branch ins h b) = Some [(l_digest (b_leaf b), mkpath (l_index (b_leaf b)) (written_out H (b_leaf b) (b_digests b)))].
Proof.
  intros dup h [[d o] ds] L Ne Im. cbn [b_leaf l_index l_digest b_digests] in *. destruct ds as [|m ds]; [congruence|].
  unfold bump_paths, bump_of_branch, to_path. cbn [b_leaf l_index l_digest b_digests bp_path]. rewrite lxor1_flip.
  unfold w32. rewrite N.mod_small by (apply flip_bound, L). rewrite loop_cons. cbn [smash_all].
  rewrite layer_first by (try exact L; exact (proj1 Im)).
  destruct (paths_loop (m :: ds) (Given (mknode o flag_client (Some d))) o flag_client d eq_refl L eq_refl I Im) as (z' & E & G & N & En).
  rewrite loop_cons in E. cbn [smash_all] in E. rewrite insert_nil in E. rewrite E, (read_down_entries H) by (auto). rewrite append_nil, En. reflexivity.
Qed.

Lemma written_out_root : forall ds lf, climb H lf (written_out H lf ds) = climb H lf ds.
Proof. induction ds as [|m ds IH]; intros lf; [reflexivity|]. cbn [written_out climb sibling]. apply IH. Qed.
Lemma written_out_explicit : forall ds lf, Forall (fun m => m <> None) ds -> written_out H lf ds = ds.
Proof.
  induction ds as [|m ds IH]; intros lf F; [reflexivity|]. inversion F; subst. cbn [written_out]. destruct m as [e|]; [|congruence]. cbn [sibling]. rewrite IH by assumption. reflexivity.
Qed.

End Branch.
