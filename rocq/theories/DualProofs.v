(* dual::valid and dual::operator +. *)
From Verif Require Import Base BaseProofs MerkleModel MerkleSpec MerkleProofs MerkleTreeProofs MerkleServerProofs.
From Coq Require Import Sorting.Permutation.
From Coq Require Import ZifyBool ZifyNat ZifyN.
Ltac Zify.zify_post_hook ::= Z.div_mod_to_equations.
Local Open Scope N_scope.

Lemma maybe_eqb_eq : forall a b, maybe_eqb a b = true <-> a = b.
Proof.
  intros [a|] [b|]; cbn [maybe_eqb]; split; intros E; try discriminate; try reflexivity.
  - apply bytes_eqb_eq in E. congruence.
  - injection E as ->. apply bytes_eqb_refl.
Qed.

Lemma digests_eqb_eq : forall a b, digests_eqb a b = true <-> a = b.
Proof.
  induction a as [|x a IH]; intros [|y b]; cbn [digests_eqb]; split; intros E; try discriminate; try reflexivity.
  - apply andb_true_iff in E. destruct E as [E F]. apply maybe_eqb_eq in E. apply IH in F. congruence.
  - injection E as -> ->. apply andb_true_iff. split; [apply maybe_eqb_eq|apply IH]; reflexivity.
Qed.

Lemma branch_eqb_eq : forall a b, branch_eqb a b = true <-> a = b.
Proof.
  intros [[da ia] sa] [[db ib] sb]. unfold branch_eqb, leaf_eqb. cbn [b_leaf b_digests l_digest l_index].
  rewrite !andb_true_iff, bytes_eqb_eq, digests_eqb_eq, N.eqb_eq. split; [intros [[-> ->] ->]; reflexivity|].
  intros E. injection E as -> -> ->. auto.
Qed.

Section Dual.
Variable H : bytes -> bytes.

(* ---- valid ---- *)
Section Valid.
Variable ins : branch -> list branch -> list branch.
Hypothesis Ins : inserts ins.

Definition final (b : branch) : leaf := climb H (b_leaf b) (b_digests b).

Lemma final_rest : forall b, final (branch_rest H b) = final b.
Proof. intros [lf [|m r]]; reflexivity. Qed.

Lemma ins_In : forall x y l, In y (ins x l) <-> y = x \/ In y l.
Proof.
  intros x y l. split; intros E.
  - apply (Permutation_in _ (Ins x l)) in E. destruct E as [->|E]; auto.
  - apply (Permutation_in _ (Permutation_sym (Ins x l))). destruct E as [->|E]; [left|right]; auto.
Qed.

Lemma rest_one_In : forall c b x, In x (rest_one H ins c b) <-> In x c \/ x = branch_rest H b.
Proof.
  intros c b x. unfold rest_one. destruct c as [|f c].
  - rewrite ins_In. cbn [In]. tauto.
  - destruct (branch_eqb f (branch_rest H b)) eqn:E; [|rewrite ins_In; tauto].
    apply branch_eqb_eq in E. subst f. cbn [In]. split; [tauto|]. intros [A|A]; [exact A|left; auto].
Qed.

Lemma fold_rest_In : forall xs c x, In x (fold_left (rest_one H ins) xs c) <-> In x c \/ exists b, In b xs /\ x = branch_rest H b.
Proof.
  induction xs as [|b xs IH]; intros c x; cbn [fold_left].
  - split; [tauto|]. intros [A|(b & [] & _)]; exact A.
  - rewrite IH, rest_one_In. cbn [In]. split.
    + intros [[A|A]|(b' & B & E)]; [tauto|right; exists b; auto|right; exists b'; auto].
    + intros [A|(b' & [<-|B] & E)]; [tauto|tauto|right; exists b'; auto].
Qed.

Lemma rest_all_In : forall c x, In x (rest_all H ins c) <-> exists b, In b c /\ x = branch_rest H b.
Proof.
  intros c x. unfold rest_all. rewrite fold_rest_In. cbn [In]. split.
  - intros [[]|(b & B & E)]. exists b. split; [apply in_rev; exact B|exact E].
  - intros (b & B & E). right. exists b. split; [apply -> in_rev; exact B|exact E].
Qed.

Lemma rest_all_nonempty : forall c, c <> [] -> rest_all H ins c <> [].
Proof.
  intros [|b c] E; [congruence|]. intros X.
  assert (In (branch_rest H b) (rest_all H ins (b :: c))) by (apply rest_all_In; exists b; split; [left|]; reflexivity).
  rewrite X in H0. destruct H0.
Qed.

Lemma dual_loop_done : forall fuel c r, dual_loop H ins fuel c = Done r ->
  exists F, l_digest F = r /\ forall b, In b c -> final b = F.
Proof.
  induction fuel; intros c r E.
  - destruct c as [|b [|b' c]]; cbn [dual_loop] in E; try discriminate.
    destruct (b_digests b) eqn:D; [|discriminate]. injection E as <-. exists (b_leaf b). split; [reflexivity|].
    intros x [<-|[]]. unfold final. rewrite D. reflexivity.
  - assert (S1 : dual_loop H ins fuel (rest_all H ins c) = Done r -> exists F, l_digest F = r /\ forall b, In b c -> final b = F).
    { intros X. apply IHfuel in X. destruct X as (F & A & B). exists F. split; [exact A|]. intros b Ib.
      rewrite <- final_rest. apply B, rest_all_In. exists b. auto. }
    destruct c as [|b [|b' c]]; cbn [dual_loop] in E; auto.
    destruct (b_digests b) eqn:D; [|auto]. injection E as <-. exists (b_leaf b). split; [reflexivity|].
    intros x [<-|[]]. unfold final. rewrite D. reflexivity.
Qed.

Lemma rest_all_single : forall c F, c <> [] -> (forall b, In b c -> branch_rest H b = F) -> rest_all H ins c = [F].
Proof.
  intros c F Ne A. unfold rest_all.
  assert (A' : forall b, In b (rev c) -> branch_rest H b = F) by (intros b B; apply A, in_rev, B).
  destruct (rev c) as [|b xs] eqn:R; [exfalso; apply Ne; rewrite <- (rev_involutive c), R; reflexivity|].
  cbn [fold_left]. unfold rest_one at 2. rewrite (A' b (or_introl eq_refl)).
  assert (ins F [] = [F]) as ->.
  { pose proof (Ins F []) as P. apply Permutation_sym, Permutation_length_1_inv in P. exact P. }
  clear Ne A R. assert (G : forall b, In b xs -> branch_rest H b = F) by (intros; apply A'; right; assumption). clear A'.
  induction xs as [|x xs IH]; [reflexivity|]. cbn [fold_left]. unfold rest_one at 2. rewrite (G x (or_introl eq_refl)).
  rewrite (proj2 (branch_eqb_eq F F) eq_refl). apply IH. intros; apply G; right; assumption.
Qed.

(* [m] bounds the digests still to be used *)
Lemma dual_loop_terminates : forall F m c fuel, c <> [] -> (forall b, In b c -> final b = F /\ (length (b_digests b) <= m)%nat) ->
  (S m <= fuel)%nat -> dual_loop H ins fuel c = Done (l_digest F).
Proof.
  induction m; intros c fuel Ne A L.
  - destruct fuel as [|fuel]; [lia|].
    assert (R : rest_all H ins c = [mkbranch F []]).
    { apply rest_all_single; [exact Ne|]. intros b B. destruct (A b B) as [E D].
      destruct b as [lf [|? ?]]; cbn [b_digests length] in D; [|lia]. unfold final in E. cbn [b_leaf b_digests climb] in E. subst lf. reflexivity. }
    assert (D1 : dual_loop H ins fuel (rest_all H ins c) = Done (l_digest F)) by (rewrite R; destruct fuel; reflexivity).
    destruct c as [|b [|b' c]]; cbn [dual_loop]; auto.
    destruct (A b (or_introl eq_refl)) as [E D]. destruct (b_digests b) eqn:Bd; cbn [length] in D; [|lia].
    unfold final in E. rewrite Bd in E. cbn [climb] in E. rewrite E. reflexivity.
  - destruct fuel as [|fuel]; [lia|].
    assert (D1 : dual_loop H ins fuel (rest_all H ins c) = Done (l_digest F)).
    { apply IHm; [apply rest_all_nonempty, Ne| |lia]. intros x X. apply rest_all_In in X. destruct X as (b & B & ->).
      destruct (A b B) as [E D]. rewrite final_rest. split; [exact E|]. destruct b as [lf [|? ?]]; cbn [branch_rest b_digests length] in *; lia. }
    destruct c as [|b [|b' c]]; cbn [dual_loop]; auto.
    destruct (b_digests b) eqn:Bd; [|auto]. destruct (A b (or_introl eq_refl)) as [E _]. unfold final in E. rewrite Bd in E. cbn [climb] in E. rewrite E. reflexivity.
Qed.

Lemma dual_loop_not_bad : forall fuel c, dual_loop H ins fuel c <> Bad.
Proof.
  induction fuel; intros [|b [|b' c]]; cbn [dual_loop]; try discriminate; auto; destruct (b_digests b); try discriminate; auto.
Qed.

Lemma start_In : forall m acc b, In b (fold_left (fun c e => ins (path_branch e) c) m acc) <-> In b acc \/ exists e, In e m /\ b = path_branch e.
Proof.
  induction m as [|e m IH]; intros acc b; cbn [fold_left].
  - split; [tauto|]. intros [A|(e & [] & _)]; exact A.
  - rewrite IH, ins_In. cbn [In]. split.
    + intros [[->|A]|(f & B & E)]; [right; exists e; auto|tauto|right; exists f; auto].
    + intros [A|(f & [<-|B] & E)]; [tauto|left; left; exact E|right; exists f; auto].
Qed.

Lemma final_entry : forall e, final (path_branch e) = mkleaf (derive_root H (snd e) (fst e)) (p_index (snd e) / 2 ^ count (p_digests (snd e))).
Proof.
  intros e. unfold final, derive_root, root_leaf, path_branch. cbn [b_leaf b_digests].
  rewrite (surjective_pairing e) at 1. destruct e as [k p]. cbn [fst snd].
  pose proof (climb_index H (p_digests p) (mkleaf k (p_index p))) as I. cbn [l_index] in I. unfold count.
  destruct (climb H (mkleaf k (p_index p)) (p_digests p)) as [dd ii]. cbn [l_index l_digest] in *. rewrite <- I. reflexivity.
Qed.

Lemma well_formed_test : forall d, dual_well_formed d ->
  negb (digest_valid (d_root d)) || negb (paths_valid (d_paths d)) || match d_paths d with [] => true | _ => false end = false.
Proof.
  intros d (A & B & C). rewrite A, B. destruct (d_paths d); [congruence|reflexivity].
Qed.

Lemma dual_valid_ill_formed : forall d fuel, ~ dual_well_formed d -> dual_valid H ins fuel d = Done false.
Proof.
  intros d fuel N. unfold dual_valid. unfold dual_well_formed in N.
  destruct (digest_valid (d_root d)) eqn:A; [|reflexivity]. destruct (paths_valid (d_paths d)) eqn:B; [|reflexivity].
  destruct (d_paths d) eqn:C; [reflexivity|]. exfalso. apply N. repeat split; auto; discriminate.
Qed.

Lemma longest_In : forall m e, In e m -> (length (p_digests (snd e)) <= longest m)%nat.
Proof. induction m as [|f m IH]; intros e E; [destruct E|]. destruct E as [<-|E]; cbn [longest]; [lia|]. specialize (IH e E). lia. Qed.

Lemma dual_valid_agrees : forall d r t, dual_well_formed d -> dual_agrees H d r t ->
  forall fuel, (S (longest (d_paths d)) <= fuel)%nat -> dual_valid H ins fuel d = Done (bytes_eqb (d_root d) r).
Proof.
  intros d r t W A fuel L. unfold dual_valid. rewrite (well_formed_test d W).
  rewrite (dual_loop_terminates (mkleaf r t) (longest (d_paths d))); [reflexivity| | |exact L].
  - destruct W as (_ & _ & W). destruct (d_paths d) as [|e m] eqn:P; [congruence|]. intros X.
    assert (In (path_branch e) (fold_left (fun c e => ins (path_branch e) c) (e :: m) [])) by (apply start_In; right; exists e; split; [left|]; reflexivity).
    rewrite X in H0. destruct H0.
  - intros b B. apply start_In in B. destruct B as [[]|(e & E & ->)]. rewrite final_entry.
    destruct (A e E) as [-> ->]. split; [reflexivity|]. apply longest_In. exact E.
Qed.

Lemma dual_valid_done : forall d fuel b, dual_well_formed d -> dual_valid H ins fuel d = Done b ->
  exists r t, dual_agrees H d r t /\ b = bytes_eqb (d_root d) r.
Proof.
  intros d fuel b W E. unfold dual_valid in E. rewrite (well_formed_test d W) in E.
  destruct (dual_loop H ins fuel _) as [r| |] eqn:L; try discriminate. injection E as <-.
  apply dual_loop_done in L. destruct L as ([r' t] & R & A). cbn [l_digest] in R. subst r'. exists r, t. split; [|reflexivity].
  intros e I. assert (X := A (path_branch e)). rewrite final_entry in X. rewrite start_In in X.
  specialize (X (or_intror (ex_intro _ e (conj I eq_refl)))). injection X as X1 X2. split; assumption.
Qed.

Lemma dual_valid_for_ever : forall d, dual_well_formed d -> ~ (exists r t, dual_agrees H d r t) ->
  forall fuel, dual_valid H ins fuel d = More.
Proof.
  intros d W N fuel. destruct (dual_valid H ins fuel d) as [b| |] eqn:E; [| |reflexivity].
  - exfalso. apply N. destruct (dual_valid_done d fuel b W E) as (r & t & A & _). eauto.
  - exfalso. unfold dual_valid in E. rewrite (well_formed_test d W) in E.
    destruct (dual_loop H ins fuel _) eqn:L; try discriminate. exact (dual_loop_not_bad _ _ L).
Qed.

Lemma dual_valid_true : forall d fuel, dual_valid H ins fuel d = Done true ->
  dual_well_formed d /\ exists t, dual_agrees H d (d_root d) t.
Proof.
  intros d fuel E.
  assert (W : dual_well_formed d).
  { unfold dual_valid in E. unfold dual_well_formed. destruct (digest_valid (d_root d)) eqn:A; [|discriminate].
    destruct (paths_valid (d_paths d)) eqn:B; [|discriminate]. destruct (d_paths d) eqn:C; [discriminate|]. repeat split; discriminate. }
  split; [exact W|]. destruct (dual_valid_done d fuel true W E) as (r & t & A & B). symmetry in B. apply bytes_eqb_eq in B. subst r. eauto.
Qed.

End Valid.

(* ---- dual of a tree ---- *)

Lemma path_insert_fresh : forall dup m k v, ~ In k (map fst m) -> path_insert dup m k v = Some (m ++ [(k, v)]).
Proof.
  intros dup. induction m as [|[k0 v0] m IH]; intros k v N; cbn [path_insert app]; [reflexivity|].
  destruct (bytes_eqb k k0) eqn:E; [apply bytes_eqb_eq in E; subst; exfalso; apply N; left; reflexivity|].
  rewrite IH; [reflexivity|]. intros X. apply N. right. exact X.
Qed.

Lemma path_insert_all_fresh : forall dup l m, NoDup (map fst (m ++ l)) -> path_insert_all dup m l = Some (m ++ l).
Proof.
  intros dup. induction l as [|[k v] l IH]; intros m ND; cbn [path_insert_all]; [rewrite app_nil_r; reflexivity|].
  rewrite path_insert_fresh.
  - rewrite IH, <- app_assoc; [reflexivity|]. rewrite <- app_assoc. exact ND.
  - rewrite map_app in ND. cbn [map fst] in ND. apply NoDup_remove_2 in ND. intros X. apply ND, in_or_app. left. exact X.
Qed.

Definition entry_of (l : list bytes) (i : N) : bytes * path := branch_entry (pr_branch (proof_of H l i)).

Lemma entries_keys : forall l, map fst (map (entry_of l) (upto (count l))) = l.
Proof.
  intros l. rewrite map_map. etransitivity; [|apply list_upto]. apply map_ext. intros i. reflexivity.
Qed.

Lemma dual_of_tree_exact : forall dup l, l <> [] -> NoDup l -> count l < 4294967296 ->
  dual_of_tree dup (tree_of H l) = Some (mkdual (map (entry_of l) (upto (count l))) (merkle_root H l)).
Proof.
  intros dup l Ne ND Hn. assert (Z := nonempty_count l Ne). unfold dual_of_tree.
  rewrite tree_proofs_exact by assumption. unfold tree_of. cbn [t_width t_tree].
  replace (count l =? 0) with false by lia. rewrite subtree_root. rewrite map_map.
  change (fun x => branch_entry (pr_branch (proof_of H l x))) with (entry_of l).
  rewrite path_insert_all_fresh by (cbn [app]; rewrite entries_keys; exact ND). reflexivity.
Qed.

Lemma path_get_In : forall m k p, NoDup (map fst m) -> (path_get m k = Some p <-> In (k, p) m).
Proof.
  induction m as [|[k0 p0] m IH]; intros k p ND; cbn [path_get In]; [split; [discriminate|tauto]|].
  inversion ND as [|? ? N1 N2]; subst. cbn [fst] in N1. destruct (bytes_eqb k k0) eqn:E.
  - apply bytes_eqb_eq in E. subst k0. split; [intros X; injection X as <-; left; reflexivity|].
    intros [X|X]; [injection X as <-; reflexivity|]. exfalso. apply N1. apply (in_map fst) in X. exact X.
  - rewrite IH by exact N2. split; [tauto|]. intros [X|X]; [|exact X]. injection X as <- <-. rewrite bytes_eqb_refl in E. discriminate.
Qed.

Lemma path_get_none : forall m k, path_get m k = None <-> ~ In k (map fst m).
Proof.
  induction m as [|[k0 p0] m IH]; intros k; cbn [path_get map fst In]; [tauto|].
  destruct (bytes_eqb k k0) eqn:E.
  - apply bytes_eqb_eq in E. subst. split; [discriminate|]. intros X. exfalso. apply X. left. reflexivity.
  - rewrite IH. split; [|tauto]. intros X [->|Y]; [rewrite bytes_eqb_refl in E; discriminate|contradiction].
Qed.

Lemma dual_of_tree_at : forall l i, NoDup l -> i < count l ->
  dual_at (mkdual (map (entry_of l) (upto (count l))) (merkle_root H l)) (nthd l i) = proof_of H l i.
Proof.
  intros l i ND E. unfold dual_at. cbn [d_paths d_root].
  rewrite (proj2 (path_get_In _ (nthd l i) (snd (entry_of l i)) ltac:(rewrite entries_keys; exact ND))).
  - reflexivity.
  - change (nthd l i, snd (entry_of l i)) with (entry_of l i). apply in_map, upto_In, E.
Qed.

Lemma dual_of_tree_agrees : forall l, l <> [] -> dual_agrees H (mkdual (map (entry_of l) (upto (count l))) (merkle_root H l)) (merkle_root H l) 0.
Proof.
  intros l Ne e E. cbn [d_paths] in E. apply in_map_iff in E. destruct E as (i & <- & I). apply upto_In in I.
  split.
  - exact (proof_of_derives H l i I).
  - cbn [entry_of branch_entry proof_of pr_branch b_leaf b_digests snd p_index l_index p_digests]. unfold count at 1. rewrite sibling_digests_length.
    apply N.div_small. assert (Z := nonempty_count l Ne). pose proof (width_depth _ Z) as W. apply (width_top_one _ _ Z) in W. lia.
Qed.

(* ---- operator + ---- *)

Lemma branches_get_set_same : forall m k v, branches_get (branches_set m k v) k = Some v.
Proof.
  induction m as [|[k0 v0] m IH]; intros k v; cbn [branches_set branches_get]; [rewrite N.eqb_refl; reflexivity|].
  destruct (N.ltb_spec k k0); [cbn [branches_get]; rewrite N.eqb_refl; reflexivity|].
  destruct (N.eqb_spec k k0); cbn [branches_get]; [rewrite N.eqb_refl; reflexivity|].
  destruct (N.eqb_spec k k0); [contradiction|]. apply IH.
Qed.

Lemma branches_set_In : forall m k v e, In e (branches_set m k v) -> e = (k, v) \/ In e m.
Proof.
  induction m as [|[k0 v0] m IH]; intros k v e E; cbn [branches_set] in E; [destruct E as [<-|[]]; auto|].
  destruct (N.ltb_spec k k0); [destruct E as [<-|E]; auto|].
  destruct (N.eqb_spec k k0); [destruct E as [<-|E]; [auto|right; right; exact E]|].
  destruct E as [<-|E]; [right; left; reflexivity|]. apply IH in E. destruct E; [auto|right; right; assumption].
Qed.

Definition sorted_below (x : N) (m : index_branches) : Prop := forall k v, In (k, v) m -> x < k.
Fixpoint key_sorted (m : index_branches) : Prop :=
  match m with [] => True | (k, _) :: r => sorted_below k r /\ key_sorted r end.

Lemma branches_set_sorted : forall m k v, key_sorted m -> key_sorted (branches_set m k v).
Proof.
  induction m as [|[k0 v0] m IH]; intros k v S; cbn [branches_set]; [split; [intros ? ? []|exact I]|].
  destruct S as [S1 S2]. destruct (N.ltb_spec k k0).
  - split; [|split; assumption]. intros k' v' [E|E]; [injection E as <- <-; assumption|]. specialize (S1 _ _ E). lia.
  - destruct (N.eqb_spec k k0); [subst; split; assumption|]. split; [|apply IH, S2].
    intros k' v' E. apply branches_set_In in E. destruct E as [E|E]; [injection E as -> ->; lia|]. exact (S1 _ _ E).
Qed.

Lemma branches_set_In_iff : forall m k v k' v', key_sorted m -> (In (k', v') (branches_set m k v) <-> (k' = k /\ v' = v) \/ (k' <> k /\ In (k', v') m)).
Proof.
  induction m as [|[k0 v0] m IH]; intros k v k' v' S; cbn [branches_set].
  - cbn [In]. split; [intros [E|[]]; injection E as <- <-; auto|]. intros [[-> ->]|[_ []]]; auto.
  - destruct S as [S1 S2]. destruct (N.ltb_spec k k0) as [L|L].
    + cbn [In]. split.
      * intros [E|[E|E]]; [injection E as <- <-; auto|injection E as <- <-; right; split; [lia|auto]|].
        right. split; [specialize (S1 _ _ E); lia|auto].
      * intros [[-> ->]|[N E]]; [auto|right; exact E].
    + destruct (N.eqb_spec k k0) as [->|NE].
      * cbn [In]. split; [intros [E|E]; [injection E as <- <-; auto|right; split; [specialize (S1 _ _ E); lia|auto]]|].
        intros [[-> ->]|[N [E|E]]]; [auto|injection E as <- <-; congruence|auto].
      * cbn [In]. rewrite IH by exact S2. split.
        -- intros [E|[E|[N E]]]; [injection E as <- <-; right; split; [congruence|auto]|auto|right; auto].
        -- intros [E|[N [E|E]]]; [auto|left; exact E|right; right; auto].
Qed.

Lemma branches_get_In : forall m k v, key_sorted m -> (branches_get m k = Some v <-> In (k, v) m).
Proof.
  induction m as [|[k0 v0] m IH]; intros k v S; cbn [branches_get In]; [split; [discriminate|tauto]|].
  destruct S as [S1 S2]. destruct (N.eqb_spec k k0) as [->|NE].
  - split; [intros E; injection E as <-; auto|]. intros [E|E]; [congruence|]. specialize (S1 _ _ E). lia.
  - rewrite IH by exact S2. split; [auto|]. intros [E|E]; [congruence|exact E].
Qed.

Lemma branches_get_none : forall m k, branches_get m k = None <-> ~ In k (map fst m).
Proof.
  induction m as [|[k0 v0] m IH]; intros k; cbn [branches_get map fst In]; [tauto|].
  destruct (N.eqb_spec k k0) as [->|NE]; [split; [discriminate|intros X; exfalso; auto]|]. rewrite IH. intuition congruence.
Qed.

(* the meeting height of two different positions *)
Lemma meet_height_spec : forall k a b, a / 2 ^ N.of_nat (S k) = b / 2 ^ N.of_nat (S k) ->
  meet_height k a b <= N.of_nat (S k) /\ a / 2 ^ meet_height k a b = b / 2 ^ meet_height k a b.
Proof.
  induction k; intros a b E; cbn [meet_height].
  - split; [lia|]. exact E.
  - destruct (N.eqb_spec (a / 2 ^ N.of_nat (S k)) (b / 2 ^ N.of_nat (S k))) as [Q|Q].
    + destruct (IHk a b Q) as [A B]. split; [lia|exact B].
    + replace (N.of_nat (S k) + 1) with (N.of_nat (S (S k))) by lia. split; [lia|exact E].
Qed.

Lemma meet_height_top : forall L a b, (0 < L)%nat -> a < 2 ^ N.of_nat L -> b < 2 ^ N.of_nat L ->
  meet_height L a b <= N.of_nat L /\ a / 2 ^ meet_height L a b = b / 2 ^ meet_height L a b.
Proof.
  intros [|L] a b Z A B; [lia|]. cbn [meet_height].
  rewrite (N.div_small a), (N.div_small b), N.eqb_refl by assumption.
  apply meet_height_spec. rewrite (N.div_small a), (N.div_small b) by assumption. reflexivity.
Qed.

Lemma bisect_defined : forall fuel leaves index mn mx, (mn <= mx)%nat -> (mx < length leaves)%nat -> (mx - mn <= fuel)%nat ->
  exists a b, bisect fuel leaves index mn mx = Some (a, b) /\ (a < length leaves)%nat /\ (b < length leaves)%nat.
Proof.
  induction fuel; intros leaves index mn mx O R F; cbn [bisect].
  - replace (1 <? mx - mn)%nat with false by lia. exists mn, mx. repeat split; lia.
  - destruct (Nat.ltb_spec 1 (mx - mn)) as [L|L]; [|exists mn, mx; repeat split; lia].
    set (mid := ((mx - mn) / 2 + mn)%nat).
    assert (M : (mn < mid < mx)%nat) by (unfold mid; lia).
    destruct (nth_error leaves mid) as [x|] eqn:X; [|apply nth_error_None in X; lia].
    destruct (x <? index); apply IHfuel; lia.
Qed.

Section Plus.
Hypothesis H32 : forall m, length (H m) = 32%nat.
Variable U : list (bytes * path).
Variable L : nat.
Variable R : bytes.
Hypothesis HL : (L <= 31)%nat.
Hypothesis HU : forall e, In e U -> full_path L e /\ derive_root H (snd e) (fst e) = R.
Hypothesis HC : collision_free H U.

Definition stored (e : bytes * path) : digests := Some (fst e) :: p_digests (snd e).
Definition from_U (m : index_branches) : Prop :=
  forall k v, In (k, v) m -> exists e, In e U /\ p_index (snd e) = k /\ v = stored e.

Lemma full_sized : forall ds, Forall (fun m => exists d, m = Some d /\ sized d) ds -> Forall sized_opt ds.
Proof. intros ds F. eapply Forall_impl; [|exact F]. intros m (d & -> & S). exact S. Qed.

Lemma filled_full : forall ds lf, Forall (fun m => exists d, m = Some d /\ sized d) ds ->
  map Some (filled_siblings H lf ds) = ds.
Proof.
  induction ds as [|m ds IH]; intros lf F; [reflexivity|]. inversion F as [|? ? (d & -> & S) F']; subst.
  cbn [filled_siblings map sibling]. rewrite IH by exact F'. reflexivity.
Qed.

Lemma preimages_app : forall a b lf, branch_preimages H lf (a ++ b) = branch_preimages H lf a ++ branch_preimages H (climb H lf a) b.
Proof.
  induction a as [|m a IH]; intros b lf; [reflexivity|]. cbn [app]. rewrite !branch_preimages_cons, IH. reflexivity.
Qed.

Lemma climb_sized : forall ds lf, sized (l_digest lf) -> sized (l_digest (climb H lf ds)).
Proof. induction ds as [|m ds IH]; intros lf S; [exact S|]. cbn [climb]. apply IH. apply leaf_next_sized, H32. Qed.

(* above a common ancestor the digests of two members agree *)
Lemma shared_top : forall e f h, In e U -> In f U -> (h <= L)%nat ->
  p_index (snd e) / 2 ^ N.of_nat h = p_index (snd f) / 2 ^ N.of_nat h ->
  skipn h (p_digests (snd e)) = skipn h (p_digests (snd f)) /\
  l_digest (climb H (mkleaf (fst e) (p_index (snd e))) (firstn h (p_digests (snd e)))) =
  l_digest (climb H (mkleaf (fst f) (p_index (snd f))) (firstn h (p_digests (snd f)))).
Proof.
  intros e f h Ie If Hh E.
  destruct (HU e Ie) as [(Se & Le & _ & Fe) Re]. destruct (HU f If) as [(Sf & Lf & _ & Ff) Rf].
  set (ee := mkleaf (fst e) (p_index (snd e))) in *. set (ff := mkleaf (fst f) (p_index (snd f))) in *.
  pose proof (branch_sound_siblings H H32 (skipn h (p_digests (snd e))) (skipn h (p_digests (snd f)))
     (climb H ee (firstn h (p_digests (snd e)))) (climb H ff (firstn h (p_digests (snd f))))) as B.
  assert (Fes : Forall (fun m => exists d, m = Some d /\ sized d) (skipn h (p_digests (snd e)))).
  { rewrite <- (firstn_skipn h (p_digests (snd e))) in Fe. apply Forall_app in Fe. tauto. }
  assert (Ffs : Forall (fun m => exists d, m = Some d /\ sized d) (skipn h (p_digests (snd f)))).
  { rewrite <- (firstn_skipn h (p_digests (snd f))) in Ff. apply Forall_app in Ff. tauto. }
  destruct B as [[B1 B2]|C].
  - rewrite !climb_index. unfold ee, ff. cbn [l_index]. rewrite !firstn_length, Le, Lf, Nat.min_l by lia. exact E.
  - rewrite !skipn_length. lia.
  - apply climb_sized. exact Se.
  - apply climb_sized. exact Sf.
  - apply full_sized, Fes.
  - apply full_sized, Ffs.
  - unfold root_leaf. rewrite <- !climb_app, !firstn_skipn. unfold derive_root, root_leaf in Re, Rf. fold ee in Re. fold ff in Rf. congruence.
  - split; [|exact B1]. rewrite <- (filled_full _ (climb H ee (firstn h (p_digests (snd e)))) Fes).
    rewrite <- (filled_full _ (climb H ff (firstn h (p_digests (snd f)))) Ffs). rewrite B2. reflexivity.
  - exfalso. apply (HC e f Ie If). destruct C as (x & y & X & Y & C). exists x, y. unfold entry_preimages. fold ee ff.
    rewrite <- (firstn_skipn h (p_digests (snd e))), <- (firstn_skipn h (p_digests (snd f))), !preimages_app.
    split; [apply in_or_app; right; exact X|]. split; [apply in_or_app; right; exact Y|]. exact C.
Qed.

Lemma same_index_same : forall e f, In e U -> In f U -> p_index (snd e) = p_index (snd f) -> stored e = stored f.
Proof.
  intros e f Ie If E. destruct (shared_top e f 0 Ie If ltac:(lia)) as [A B]; [rewrite E; reflexivity|].
  cbn [skipn firstn climb l_digest] in A, B. unfold stored. congruence.
Qed.

Lemma add_nearest_exact : forall m e n x, key_sorted m -> from_U m -> In e U -> In (n, x) m -> n <> p_index (snd e) ->
  add_nearest m (p_index (snd e)) (stored e) n = Some (branches_set m (p_index (snd e)) (stored e)).
Proof.
  intros m e n x Sm F Ie In' NE. destruct (F n x In') as (f & If & Ef & ->). subst n.
  destruct (HU e Ie) as [(Se & Le & Be & Fe) Re]. destruct (HU f If) as [(Sf & Lf & Bf & Ff) Rf].
  assert (Te : length (stored e) = S L) by (unfold stored; cbn [length]; rewrite Le; reflexivity).
  assert (Tf : length (stored f) = S L) by (unfold stored; cbn [length]; rewrite Lf; reflexivity).
  unfold add_nearest. rewrite Te. replace (S L - 1)%nat with L by lia.
  replace (32 <=? N.of_nat L) with false by lia.
  assert (ZL : (0 < L)%nat).
  { destruct L; [|lia]. change (2 ^ N.of_nat 0) with 1 in *. lia. }
  destruct (meet_height_top L (p_index (snd e)) (p_index (snd f)) ZL Be Bf) as [M1 M2].
  set (h := meet_height L (p_index (snd e)) (p_index (snd f))) in *.
  rewrite (proj2 (branches_get_In m _ _ Sm) In'). rewrite Tf.
  replace ((S L <? S (N.to_nat h))%nat || (S L <? S (N.to_nat h))%nat) with false by lia.
  unfold stored. cbn [firstn skipn app]. do 3 f_equal.
  destruct (shared_top e f (N.to_nat h) Ie If ltac:(lia)) as [A _]; [rewrite N2Nat.id; exact M2|].
  rewrite <- A. apply firstn_skipn.
Qed.

Lemma add_exact : forall m e, m <> [] -> key_sorted m -> from_U m -> In e U ->
  add m (path_branch e) = Some (Some (branches_set m (p_index (snd e)) (stored e))) \/
  (add m (path_branch e) = Some (Some m) /\ In (p_index (snd e), stored e) m).
Proof.
  intros m e Ne S F Ie. destruct (HU e Ie) as [(Se & Le & Be & Fe) Re].
  assert (P32 : p_index (snd e) < 4294967296).
  { apply N.lt_le_trans with (2 ^ N.of_nat L); [exact Be|]. change 4294967296 with (2 ^ 32). apply N.pow_le_mono_r; lia. }
  unfold add, path_branch. cbn [b_leaf b_digests l_index l_digest].
  assert (w32 (p_index (snd e)) = p_index (snd e)) as -> by (unfold w32; apply N.mod_small; exact P32).
  change (Some (fst e) :: p_digests (snd e)) with (stored e).
  destruct (branches_get m (p_index (snd e))) as [d'|] eqn:G.
  - right. apply (branches_get_In m _ _ S) in G. destruct (F _ _ G) as (f & If & Ef & ->).
    rewrite (same_index_same f e If Ie Ef) in *. rewrite (proj2 (digests_eqb_eq _ _) eq_refl). auto.
  - left. assert (NI := proj1 (branches_get_none m _) G).
    assert (Near : forall n, In n (map fst m) -> add_nearest m (p_index (snd e)) (stored e) n = Some (branches_set m (p_index (snd e)) (stored e))).
    { intros n I. assert (n <> p_index (snd e)) by (intros ->; contradiction).
      apply in_map_iff in I. destruct I as ((n' & x) & Q & I). cbn [fst] in Q. subst n'. apply (add_nearest_exact m e n x); assumption. }
    assert (ZL : (0 < L)%nat).
    { destruct L; [|lia]. destruct m as [|(k & v) m']; [congruence|]. exfalso. apply NI.
      destruct (F k v (or_introl eq_refl)) as (f & If & Ef & _). destruct (HU f If) as [(_ & _ & Bf & _) _].
      change (2 ^ N.of_nat 0) with 1 in *. left. cbn [fst]. lia. }
    assert (Half : w32 (N.of_nat (length (stored e)) + 4294967294) = N.of_nat L - 1).
    { unfold stored. cbn [length]. rewrite Le. unfold w32.
      replace (N.of_nat (Datatypes.S L) + 4294967294) with (N.of_nat L - 1 + 1 * 4294967296) by lia. rewrite N.mod_add by lia. apply N.mod_small. lia. }
    rewrite Half.
    assert (SH : forall a b, exists q, same_half a b (N.of_nat L - 1) = Some q).
    { intros a b. unfold same_half, shr32. replace (32 <=? N.of_nat L - 1) with false by lia. eauto. }
    assert (Hlen : (0 < length (map fst m))%nat) by (rewrite map_length; destruct m; [congruence|cbn [length]; lia]).
    destruct (nth_error (map fst m) 0) as [lo|] eqn:Lo; [|apply nth_error_None in Lo; lia].
    destruct (nth_error (map fst m) (length (map fst m) - 1)) as [hi|] eqn:Hi; [|apply nth_error_None in Hi; lia].
    apply nth_error_In in Lo, Hi.
    destruct (p_index (snd e) <? lo).
    { destruct (SH lo (p_index (snd e))) as [q ->]. destruct q; [rewrite (Near lo Lo)|]; reflexivity. }
    destruct (hi <? p_index (snd e)).
    { destruct (SH hi (p_index (snd e))) as [q ->]. destruct q; [rewrite (Near hi Hi)|]; reflexivity. }
    destruct (bisect_defined (length (map fst m)) (map fst m) (p_index (snd e)) 0 (length (map fst m) - 1)) as (a & b & -> & A & B); try lia.
    destruct (nth_error (map fst m) a) as [ka|] eqn:Na; [|apply nth_error_None in Na; lia].
    destruct (nth_error (map fst m) b) as [kb|] eqn:Nb; [|apply nth_error_None in Nb; lia].
    apply nth_error_In in Na, Nb.
    destruct (SH ka (p_index (snd e))) as [q ->]. destruct q; rewrite Near by assumption; reflexivity.
Qed.

(* membership after adding: everything comes from U, and every added entry is there *)
Definition holds (m : index_branches) (e : bytes * path) : Prop := In (p_index (snd e), stored e) m.

Lemma set_from_U : forall m e, key_sorted m -> from_U m -> In e U -> from_U (branches_set m (p_index (snd e)) (stored e)).
Proof.
  intros m e S F Ie k v X. apply (branches_set_In_iff m _ _ _ _ S) in X. destruct X as [[-> ->]|[_ X]]; [exists e; auto|apply F, X].
Qed.

Lemma set_holds : forall m e f, key_sorted m -> from_U m -> In e U -> holds m f -> In f U -> holds (branches_set m (p_index (snd e)) (stored e)) f.
Proof.
  intros m e f S F Ie Hf If. unfold holds in *. apply (branches_set_In_iff m _ _ _ _ S).
  destruct (N.eq_dec (p_index (snd f)) (p_index (snd e))) as [E|E]; [left; split; [exact E|apply same_index_same; assumption]|right; auto].
Qed.

Lemma add_all_exact : forall es m, m <> [] -> key_sorted m -> from_U m -> (forall e, In e es -> In e U) ->
  exists m', add_all m (map path_branch es) = Some (Some m') /\ m' <> [] /\ key_sorted m' /\ from_U m' /\
    (forall e, In e es -> holds m' e) /\ (forall e, In e U -> holds m e -> holds m' e) /\
    (forall k v, In (k, v) m' -> In (k, v) m \/ exists e, In e es /\ k = p_index (snd e) /\ v = stored e).
Proof.
  induction es as [|e es IH]; intros m Ne S F Sub; cbn [map add_all].
  - exists m. split; [reflexivity|]. split; [exact Ne|]. split; [exact S|]. split; [exact F|]. split; [intros e []|]. split; [auto|]. intros k v X. left. exact X.
  - assert (Ie : In e U) by (apply Sub; left; reflexivity).
    destruct (add_exact m e Ne S F Ie) as [A|[A Hd]]; rewrite A.
    + set (m1 := branches_set m (p_index (snd e)) (stored e)).
      assert (N1 : m1 <> []).
      { intros X. assert (G := branches_get_set_same m (p_index (snd e)) (stored e)). fold m1 in G. rewrite X in G. discriminate G. }
      assert (S1 : key_sorted m1) by (apply branches_set_sorted, S).
      assert (F1 : from_U m1) by (apply set_from_U; assumption).
      destruct (IH m1 N1 S1 F1 ltac:(intros; apply Sub; right; assumption)) as (m' & A' & N' & S' & F' & H1 & H2 & H3).
      exists m'. split; [exact A'|]. split; [exact N'|]. split; [exact S'|]. split; [exact F'|].
      assert (He : holds m1 e) by (unfold holds, m1; apply (branches_set_In_iff m _ _ _ _ S); auto).
      split; [|split].
      * intros f [<-|If]; [apply H2; assumption|apply H1, If].
      * intros f If Hf. apply H2; [exact If|]. apply set_holds; assumption.
      * intros k v X. apply H3 in X. destruct X as [X|(f & If & Q)]; [|right; exists f; split; [right; exact If|exact Q]].
        apply (branches_set_In_iff m _ _ _ _ S) in X. destruct X as [[-> ->]|[_ X]]; [right; exists e; split; [left; reflexivity|auto]|left; exact X].
    + destruct (IH m Ne S F ltac:(intros; apply Sub; right; assumption)) as (m' & A' & N' & S' & F' & H1 & H2 & H3).
      exists m'. split; [exact A'|]. split; [exact N'|]. split; [exact S'|]. split; [exact F'|]. split; [|split].
      * intros f [<-|If]; [apply H2; assumption|apply H1, If].
      * exact H2.
      * intros k v X. apply H3 in X. destruct X as [X|(f & If & Q)]; [left; exact X|right; exists f; split; [right; exact If|exact Q]].
Qed.

Lemma by_index_exact : forall es acc, key_sorted acc -> from_U acc -> (forall e, In e es -> In e U) ->
  let m := fold_left (fun acc e => branches_set acc (w32 (p_index (snd e))) (Some (fst e) :: p_digests (snd e))) es acc in
  key_sorted m /\ from_U m /\ (forall e, In e es -> holds m e) /\ (forall e, In e U -> holds acc e -> holds m e) /\
  (forall k v, In (k, v) m -> In (k, v) acc \/ exists e, In e es /\ k = p_index (snd e) /\ v = stored e).
Proof.
  induction es as [|e es IH]; intros acc S F Sub; cbn [fold_left].
  - split; [exact S|]. split; [exact F|]. split; [intros e []|]. split; [auto|]. intros k v X. left. exact X.
  - assert (Ie : In e U) by (apply Sub; left; reflexivity).
    destruct (HU e Ie) as [(_ & _ & Be & _) _].
    assert (w32 (p_index (snd e)) = p_index (snd e)) as ->.
    { unfold w32. apply N.mod_small. apply N.lt_le_trans with (2 ^ N.of_nat L); [exact Be|]. change 4294967296 with (2 ^ 32). apply N.pow_le_mono_r; lia. }
    change (Some (fst e) :: p_digests (snd e)) with (stored e).
    set (m1 := branches_set acc (p_index (snd e)) (stored e)).
    assert (S1 : key_sorted m1) by (apply branches_set_sorted, S).
    assert (F1 : from_U m1) by (apply set_from_U; assumption).
    destruct (IH m1 S1 F1 ltac:(intros; apply Sub; right; assumption)) as (S' & F' & H1 & H2 & H3).
    assert (He : holds m1 e) by (unfold holds, m1; apply (branches_set_In_iff acc _ _ _ _ S); auto).
    split; [exact S'|]. split; [exact F'|]. split; [|split].
    + intros f [<-|If]; [apply H2; assumption|apply H1, If].
    + intros f If Hf. apply H2; [exact If|]. apply set_holds; assumption.
    + intros k v X. apply H3 in X. destruct X as [X|(f & If & Q)]; [|right; exists f; split; [right; exact If|exact Q]].
      apply (branches_set_In_iff acc _ _ _ _ S) in X. destruct X as [[-> ->]|[_ X]]; [right; exists e; split; [left; reflexivity|auto]|left; exact X].
Qed.

(* back to a map by digest *)
Hypothesis HP : same_positions U.

Lemma from_index_exact : forall dup m acc, key_sorted m -> from_U m ->
  (forall k v, In (k, v) m -> forall e, In e acc -> In e U /\ p_index (snd e) <> k) ->
  exists ps, from_index dup acc m = Some (acc ++ ps) /\ (forall k p, In (k, p) ps <-> In (p_index p, Some k :: p_digests p) m) /\
    NoDup (map fst ps).
Proof.
  intros dup. induction m as [|(k & v) m IH]; intros acc S F D.
  - exists []. rewrite app_nil_r. split; [reflexivity|]. split; [intros; tauto|constructor].
  - destruct (F k v (or_introl eq_refl)) as (e & Ie & <- & ->). unfold stored. cbn [from_index].
    destruct S as [S1 S2].
    assert (F2 : from_U m) by (intros k' v' X; apply F; right; exact X).
    rewrite path_insert_fresh.
    2:{ intros X. apply in_map_iff in X. destruct X as (f & Q & If). destruct (D _ _ (or_introl eq_refl) f If) as [Uf Nf].
        apply Nf. apply HP; assumption. }
    assert (Ee : (fst e, mkpath (p_index (snd e)) (p_digests (snd e))) = e) by (destruct e as [? [? ?]]; reflexivity).
    destruct (IH (acc ++ [(fst e, mkpath (p_index (snd e)) (p_digests (snd e)))])) as (ps & A & B & C).
    + exact S2.
    + exact F2.
    + intros k' v' X f If. apply in_app_or in If. destruct If as [If|[<-|[]]]; [apply (D k' v'); [right; exact X|exact If]|].
      rewrite Ee. split; [exact Ie|]. specialize (S1 _ _ X). lia.
    + rewrite A. exists ((fst e, mkpath (p_index (snd e)) (p_digests (snd e))) :: ps). rewrite <- app_assoc. split; [reflexivity|]. split.
      * intros k' p. cbn [In]. rewrite B. split.
        -- intros [X|X]; [|right; exact X]. injection X as <- <-. left. reflexivity.
        -- intros [X|X]; [|right; exact X]. left. injection X as X1 X2 X3. rewrite X1, X2, X3. destruct p; reflexivity.
      * cbn [map fst]. constructor; [|exact C]. intros X. apply in_map_iff in X. destruct X as ((k' & p) & Q & I'). cbn [fst] in Q. subst k'.
        apply B in I'. destruct (F2 _ _ I') as (f & If & Pf & Q). unfold stored in Q. injection Q as Q1 Q2.
        specialize (S1 _ _ I'). assert (p_index (snd f) = p_index (snd e)) by (apply HP; auto). lia.
Qed.

End Plus.

Lemma dual_plus_exact : forall ins ord dup a d L fuel, (forall m, length (H m) = 32%nat) -> inserts ins -> (forall l, Permutation (ord l) l) ->
  (L <= 31)%nat -> dual_well_formed a -> d_root a = d_root d ->
  (forall e, In e (d_paths a ++ d_paths d) -> full_path L e /\ derive_root H (snd e) (fst e) = d_root a) ->
  same_positions (d_paths a ++ d_paths d) -> collision_free H (d_paths a ++ d_paths d) -> (S L <= fuel)%nat ->
  exists r, dual_plus H ins ord dup fuel a d = Done r /\ d_root r = d_root a /\ NoDup (map fst (d_paths r)) /\
    forall e, In e (d_paths r) <-> In e (d_paths a) \/ In e (d_paths d).
Proof.
  intros ins ord dup a d L fuel H32 Ins Ord HL W Er HU HP HC Fu.
  set (U := d_paths a ++ d_paths d) in *.
  assert (V : dual_valid H ins fuel a = Done true).
  { rewrite (dual_valid_agrees ins Ins a (d_root a) 0 W); [rewrite bytes_eqb_refl; reflexivity| |].
    - intros e E. destruct (HU e) as [(_ & Le & Be & _) Re]; [apply in_or_app; left; exact E|].
      split; [exact Re|]. unfold count. rewrite Le. apply N.div_small, Be.
    - assert (G : (longest (d_paths a) <= L)%nat); [|lia].
      assert (A : forall e, In e (d_paths a) -> length (p_digests (snd e)) = L).
      { intros e E. destruct (HU e) as [(_ & Le & _) _]; [apply in_or_app; left; exact E|exact Le]. }
      clear -A. induction (d_paths a) as [|e m IH]; cbn [longest]; [lia|]. rewrite (A e (or_introl eq_refl)).
      specialize (IH ltac:(intros; apply A; right; assumption)). lia. }
  unfold dual_plus. rewrite V, Er, bytes_eqb_refl. cbn [negb].
  destruct (by_index_exact H32 U L (d_root a) HL HU HC (d_paths a) []) as (S0 & F0 & A0 & _ & B0);
    [exact I|intros ? ? []|intros e E; apply in_or_app; left; exact E|]. fold (by_index (d_paths a)) in *.
  assert (N0 : by_index (d_paths a) <> []).
  { destruct W as (_ & _ & W). destruct (d_paths a) as [|e m] eqn:Q; [congruence|]. rewrite <- Q in *. intros X.
    specialize (A0 e). rewrite X in A0. apply A0. rewrite Q. left. reflexivity. }
  assert (Op : exists es, ord (map path_branch (d_paths d)) = map path_branch es /\ Permutation es (d_paths d)).
  { pose proof (Ord (map path_branch (d_paths d))) as P. apply Permutation_map_inv in P. destruct P as (es & Q & P). exists es. split; [exact Q|apply Permutation_sym; exact P]. }
  destruct Op as (es & -> & Pes).
  destruct (add_all_exact H32 U L (d_root a) HL HU HC es (by_index (d_paths a)) N0 S0 F0) as (m' & -> & N' & S' & F' & H1 & H2 & H3).
  { intros e E. apply in_or_app. right. apply (Permutation_in _ Pes), E. }
  destruct (from_index_exact H32 U L (d_root a) HL HU HP dup m' [] S' F') as (ps & -> & B & ND); [intros ? ? ? ? []|].
  cbn [app]. exists (mkdual ps (d_root d)). cbn [d_root d_paths]. split; [reflexivity|]. split; [exact Er || (symmetry; exact Er) || reflexivity|]. split; [exact ND|].
  intros (k & p). rewrite B. split.
  - intros X. apply H3 in X. destruct X as [X|((k' & p') & E & Q1 & Q2)].
    + apply B0 in X. destruct X as [[]|((k' & p') & E & Q1 & Q2)]. left. unfold stored in Q2. cbn [fst snd] in *. injection Q2 as -> Q2.
      assert (p = p') by (destruct p, p'; cbn in *; congruence). subst. exact E.
    + right. unfold stored in Q2. cbn [fst snd] in *. injection Q2 as -> Q2.
      assert (p = p') by (destruct p, p'; cbn in *; congruence). subst. apply (Permutation_in _ Pes), E.
  - intros [E|E].
    + change (holds m' (k, p)). apply H2; [apply in_or_app; left; exact E|]. apply A0, E.
    + change (holds m' (k, p)). apply H1. apply (Permutation_in _ (Permutation_sym Pes)), E.
Qed.

End Dual.
