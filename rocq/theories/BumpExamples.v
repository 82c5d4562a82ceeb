(* Sample data for the BUMP examples. *)
From Verif Require Import Base BaseProofs WireModel WireSpec MerkleModel MerkleSpec MerkleExamples BumpModel BumpSpec.
Local Open Scope N_scope.

Fixpoint ex_tr (k : nat) (j : N) : bytes :=
  match k with
  | O => ex_digest (j + 1)
  | S k' => ex_hash32 (ex_tr k' (2 * j) ++ ex_tr k' (2 * j + 1))
  end.
Lemma ex_tr_tree : tree_digests ex_hash32 ex_tr.
Proof. intros k j. reflexivity. Qed.

(* the branches of leaves 1 and 6 in a tree with eight leaves *)
Definition ex_branch (i : N) : branch :=
  mkbranch (mkleaf (ex_tr 0 i) i) [Some (ex_tr 0 (twin i)); Some (ex_tr 1 (twin (i / 2))); Some (ex_tr 2 (twin (i / 4)))].
Definition ex_bump : bump :=
  mkbump 700000 [[mknode 0 flag_intermediate (Some (ex_tr 0 0)); mknode 1 flag_client (Some (ex_tr 0 1));
                  mknode 6 flag_client (Some (ex_tr 0 6)); mknode 7 flag_intermediate (Some (ex_tr 0 7))];
                 [mknode 1 flag_intermediate (Some (ex_tr 1 1)); mknode 2 flag_intermediate (Some (ex_tr 1 2))]; []].
(* the same with a node that can be computed *)
Definition ex_bump_extra : bump :=
  mkbump 700000 [[mknode 0 flag_intermediate (Some (ex_tr 0 0)); mknode 1 flag_client (Some (ex_tr 0 1));
                  mknode 6 flag_client (Some (ex_tr 0 6)); mknode 7 flag_intermediate (Some (ex_tr 0 7))];
                 [mknode 1 flag_intermediate (Some (ex_tr 1 1)); mknode 2 flag_intermediate (Some (ex_tr 1 2)); mknode 3 flag_intermediate (Some (ex_tr 1 3))];
                 [mknode 0 flag_intermediate (Some (ex_tr 2 0))]].

From Verif Require Import BumpFacts.
Ltac asc := repeat (split; [cbn [In map n_offset offsets]; intros ?y ?Y; repeat (destruct Y as [<-|Y]; [reflexivity|]); destruct Y|]); exact I.
Ltac in_list := repeat match goal with X : _ \/ _ |- _ => destruct X as [<-|X] | X : False |- _ => destruct X end.

Lemma ex_client : forall j o k, client_node ex_bump j o k -> (j = 0%nat /\ o = 1 /\ k = ex_digest 2) \/ (j = 0%nat /\ o = 6 /\ k = ex_digest 7).
Proof.
  intros j o k (l & E & X). destruct j as [|[|[|[|j]]]]; cbn [ex_bump bp_path nth_error] in E; try discriminate.
  - assert (l = [mknode 0 flag_intermediate (Some (ex_tr 0 0)); mknode 1 flag_client (Some (ex_tr 0 1)); mknode 6 flag_client (Some (ex_tr 0 6)); mknode 7 flag_intermediate (Some (ex_tr 0 7))]) by congruence.
    subst l. destruct X as [X|[X|[X|[X|[]]]]]; try discriminate X; [left|right]; (split; [reflexivity|]).
    + assert (o = 1 /\ k = ex_tr 0 1) as [-> ->] by (split; congruence). split; reflexivity.
    + assert (o = 6 /\ k = ex_tr 0 6) as [-> ->] by (split; congruence). split; reflexivity.
  - exfalso. assert (l = [mknode 1 flag_intermediate (Some (ex_tr 1 1)); mknode 2 flag_intermediate (Some (ex_tr 1 2))]) by congruence. subst l. destruct X as [X|[X|[]]]; discriminate X.
  - exfalso. assert (l = []) by congruence. subst l. destruct X.
Qed.

Lemma ex_bump_facts : ordered_insert keep_both /\ bump_wf ex_bump /\ Forall sorted (bp_path ex_bump) /\ tidy ex_bump /\
  bump_root ex_hash32 keep_both ex_bump = Ret (ex_tr 3 0) /\ ex_tr 3 0 <> zero_digest /\
  (forall j o j' o' k, client_node ex_bump j o k -> client_node ex_bump j' o' k -> j = j' /\ o = o') /\
  (exists m, bump_paths ex_hash32 keep_both None ex_bump = Some m /\ map (fun e => p_index (snd e)) m = [1; 6]).
Proof.
  split; [exact keep_both_ordered|].
  assert (So : Forall sorted (bp_path ex_bump)).
  { constructor; [asc|]. constructor; [asc|]. constructor; [exact I|constructor]. }
  split.
  { split; [vm_compute; reflexivity|]. split; [reflexivity|].
    assert (W : forall o f d, u64 o -> f <> flag_duplicate -> length d = 32%nat -> node_wf (mknode o f (Some d))) by (intros; split; [assumption|split; assumption]).
    cbn [ex_bump bp_path]. constructor; [|constructor; [|constructor; [|constructor]]]; (split; [vm_compute; reflexivity|]); repeat constructor; try (vm_compute; reflexivity); try discriminate. }
  split; [exact So|]. split.
  { inversion So as [|? ? S1 S2]; subst. inversion S2 as [|? ? S3 S4]; subst. inversion S4 as [|? ? S5 S6]; subst. unfold tidy. cbn [ex_bump bp_path tidy_from]. split; [exact S1|]. split; [intros ? _ []|].
    split; [exact S3|]. split.
    - intros x [<-|[<-|[]]] X; vm_compute in X; repeat (destruct X as [X|X]; [discriminate X|]); destruct X.
    - split; [exact I|]. split; [intros ? []|exact I]. }
  split; [vm_compute; reflexivity|]. split; [vm_compute; discriminate|]. split.
  - intros j o j' o' k X Y. apply ex_client in X, Y. destruct X as [(-> & -> & ->)|(-> & -> & ->)], Y as [(-> & -> & E)|(-> & -> & E)]; auto; discriminate E.
  - eexists. split; [vm_compute; reflexivity|reflexivity].
Qed.

Lemma ex_sum_facts : ordered_insert keep_both /\ ordered_insert keep_old /\ ordered_insert keep_new /\ tree_digests ex_hash32 ex_tr /\
  branch_in ex_tr 0 1 (b_digests (ex_branch 1)) /\ branch_in ex_tr 0 6 (b_digests (ex_branch 6)) /\
  bump_plus keep_both (bump_of_branch keep_both 700000 (ex_branch 1)) (bump_of_branch keep_both 700000 (ex_branch 6)) = Some ex_bump /\
  Forall sorted (bp_path ex_bump_extra) /\ small (bp_path ex_bump_extra) /\ complete ex_bump_extra /\ complete ex_bump /\ levels_in ex_tr 0 (bp_path ex_bump) /\
  single_top (bp_path ex_bump) 0 /\ aligned_levels (bp_path ex_bump) (bp_path (bump_of_branch keep_both 700000 (ex_branch 6))) /\
  remove_unnecessary_nodes keep_both ex_bump_extra = Some ex_bump.
Proof.
  split; [exact keep_both_ordered|]. split; [exact keep_old_ordered|]. split; [exact keep_new_ordered|]. split; [exact ex_tr_tree|].
  split; [repeat split|]. split; [repeat split|]. split; [vm_compute; reflexivity|].
  assert (Cl : forall l : list N, (forallb (fun x => existsb (N.eqb (twin x)) l) l = true) -> forall x, In x l -> In (twin x) l).
  { intros l F x X. rewrite forallb_forall in F. specialize (F x X). apply existsb_exists in F. destruct F as (y & Y & E). apply N.eqb_eq in E. rewrite E. exact Y. }
  split; [constructor; [asc|]; constructor; [asc|]; constructor; [asc|constructor]|].
  split.
  { constructor; [|constructor; [|constructor; [|constructor]]]; intros n X; cbn [In map n_offset offsets] in X; repeat (destruct X as [<-|X]; [reflexivity|]); destruct X. }
  split; [split; [apply Cl; reflexivity|]; split; [apply Cl; reflexivity|]; split; [apply Cl; reflexivity|exact I]|].
  split; [split; [apply Cl; reflexivity|]; split; [apply Cl; reflexivity|]; split; [apply Cl; reflexivity|exact I]|].
  split.
  { cbn [ex_bump bp_path levels_in]. split; [|split; [|split; [exact (Forall_nil _)|exact I]]];
    repeat (apply Forall_cons; [left; split; [reflexivity|discriminate]|]); exact (Forall_nil _). }
  split.
  { intros x. vm_compute. split; [intros X; repeat (destruct X as [<-|X]; [reflexivity|]); destruct X|intros ->; left; reflexivity]. }
  split; [|vm_compute; reflexivity].
  vm_compute. split; [|split; [|split; [exact I|exact I]]].
  - left. split; [reflexivity|]. left. split; [reflexivity|exact I].
  - left. split; [reflexivity|exact I].
Qed.
