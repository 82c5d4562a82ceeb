(* BUMP: removing nodes that can be computed, and addition. *)
From Verif Require Import Base BaseProofs WireModel WireSpec MerkleModel MerkleSpec MerkleProofs MerkleTreeProofs DualProofs BumpModel BumpSpec BumpProofs BumpPathProofs BumpBranchProofs.
From Coq Require Import Sorting.Permutation.
From Coq Require Import ZifyBool ZifyNat ZifyN.
Ltac Zify.zify_post_hook ::= Z.div_mod_to_equations.
Local Open Scope N_scope.

Definition pairs (g : list N) : list N := flat_map (fun q => [2 * q; 2 * q + 1]) g.

Lemma pairs_app : forall a b, pairs (a ++ b) = pairs a ++ pairs b.
Proof. intros. apply flat_map_app. Qed.
Lemma pairs_In : forall g x, In x (pairs g) <-> In (x / 2) g.
Proof.
  intros g x. unfold pairs. rewrite in_flat_map. split.
  - intros (q & Q & [<-|[<-|[]]]); [replace (2 * q / 2) with q by lia|replace ((2 * q + 1) / 2) with q by lia]; exact Q.
  - intros Q. exists (x / 2). split; [exact Q|]. pose proof (odd_form x). cbn [In]. destruct (N.odd x); lia.
Qed.

Lemma twin_half : forall x, twin x / 2 = x / 2.
Proof. intros x. unfold twin. pose proof (odd_form x). destruct (N.odd x); lia. Qed.
Lemma twin_cases : forall x y, x / 2 = y / 2 -> x = y \/ x = twin y.
Proof. intros x y E. unfold twin. pose proof (odd_form x). pose proof (odd_form y). destruct (N.odd x), (N.odd y); lia. Qed.

Lemma ascending_app : forall a b, ascending (a ++ b) <-> ascending a /\ ascending b /\ (forall x y, In x a -> In y b -> x < y).
Proof.
  induction a as [|x a IH]; intros b; cbn [app ascending]; [split; [intros S; split; [exact I|split; [exact S|intros ? ? []]]|tauto]|].
  rewrite IH. split.
  - intros (S1 & S2 & S3 & S4). split; [split; [|exact S2]|split; [exact S3|]].
    + intros y Y. apply S1, in_or_app. left. exact Y.
    + intros u v [<-|U] V; [apply S1, in_or_app; right; exact V|apply S4; assumption].
  - intros ((S1 & S2) & S3 & S4). split; [|split; [exact S2|split; [exact S3|]]].
    + intros y Y. apply in_app_or in Y. destruct Y as [Y|Y]; [apply S1, Y|apply S4; [left; reflexivity|exact Y]].
    + intros u v U V. apply S4; [right; exact U|exact V].
Qed.

(* an ascending sequence closed under twins *)
Lemma pairs_form : forall l, ascending l -> (forall x, In x l -> In (twin x) l) -> exists g, l = pairs g /\ ascending g.
Proof.
  intros l. induction l as [|a|a b l IH] using pair_ind; intros S C.
  - exists []. split; [reflexivity|exact I].
  - exfalso. destruct (C a (or_introl eq_refl)) as [X|[]]. exact (flip_ne a X).
  - destruct S as (S1 & S2 & S3).
    assert (Ea : N.odd a = false).
    { destruct (N.odd a) eqn:O; [|reflexivity]. exfalso. pose proof (odd_form a) as F. rewrite O in F. pose proof (C a (or_introl eq_refl)) as X.
      unfold twin in X. rewrite O in X. destruct X as [X|X]; [lia|]. specialize (S1 _ X). lia. }
    assert (Eb : b = a + 1).
    { pose proof (C a (or_introl eq_refl)) as X. unfold twin in X. rewrite Ea in X. pose proof (S1 b (or_introl eq_refl)).
      destruct X as [X|[X|X]]; [lia|auto|]. specialize (S2 _ X). lia. }
    pose proof (odd_form a) as Fa. rewrite Ea in Fa.
    destruct IH as (g & -> & Sg).
    + exact S3.
    + intros x X. destruct (C x (or_intror (or_intror X))) as [Y|[Y|Y]]; [| |exact Y]; exfalso.
      * assert (x / 2 = a / 2) by (rewrite <- (twin_half x), <- Y; reflexivity). specialize (S2 _ X). lia.
      * assert (x / 2 = b / 2) by (rewrite <- (twin_half x), <- Y; reflexivity). specialize (S2 _ X). lia.
    + exists (a / 2 :: g). split.
      * unfold pairs. cbn [flat_map app]. fold (pairs g). f_equal; [lia|]. f_equal. lia.
      * split; [|exact Sg]. intros q Q. assert (X : In (2 * q) (pairs g)) by (apply pairs_In; replace (2 * q / 2) with q by lia; exact Q).
        specialize (S2 _ X). lia.
Qed.

Section Sum.
Variable H : bytes -> bytes.
Variable ins : forall A, (A -> N) -> A -> list A -> list A.
Hypothesis Ins : ordered_insert ins.

Lemma halves_pairs : forall g acc, ascending (acc ++ g) -> halves ins (pairs g) acc = Some (acc ++ g).
Proof.
  induction g as [|q g IH]; intros acc S; [cbn; rewrite app_nil_r; reflexivity|].
  unfold pairs. cbn [flat_map app halves]. fold (pairs g). replace (2 * q / 2) with q by lia.
  rewrite (ins_back ins Ins).
  - rewrite IH; rewrite <- app_assoc; [reflexivity|exact S].
  - intros y Y. rewrite map_id in Y. apply ascending_app in S. destruct S as (_ & _ & S). apply S; [exact Y|left; reflexivity].
Qed.

Lemma drop_pairs : forall n pre g, (forall p, In p pre -> p < n) -> (forall q, In q g -> n <= q) -> drop_below (2 * n) (pairs (pre ++ g)) = pairs g.
Proof.
  intros n. induction pre as [|p pre IH]; intros g A B.
  - destruct g as [|q g]; [reflexivity|]. cbn [app pairs flat_map drop_below]. specialize (B q (or_introl eq_refl)). replace (2 * q <? 2 * n) with false by lia. reflexivity.
  - cbn [app]. unfold pairs. cbn [flat_map app drop_below]. fold (pairs (pre ++ g)). specialize (A p (or_introl eq_refl)) as Ap.
    replace (2 * p <? 2 * n) with true by lia. replace (2 * p + 1 <? 2 * n) with true by lia. apply IH; [|exact B]. intros; apply A; right; assumption.
Qed.

Definition not_in (g : list N) (n : node) : bool := negb (existsb (N.eqb (n_offset n)) g).
Lemma not_in_false : forall g n, not_in g n = false <-> In (n_offset n) g.
Proof.
  intros g n. unfold not_in. rewrite negb_false_iff, existsb_exists. split.
  - intros (x & X & E). apply N.eqb_eq in E. rewrite E. exact X.
  - intros X. exists (n_offset n). split; [exact X|apply N.eqb_refl].
Qed.
Lemma not_in_true : forall g n, not_in g n = true <-> ~ In (n_offset n) g.
Proof. intros g n. rewrite <- not_in_false. destruct (not_in g n); split; congruence. Qed.

Lemma remove_loop_exact : forall fuel l gs pre av kept,
  (length l + length gs <= fuel)%nat -> sorted l -> ascending (pre ++ gs) -> (forall n, In n (offsets l) -> n < 9223372036854775808) ->
  (forall p n, In p pre -> In n (offsets l) -> p < n) ->
  ascending av -> (forall a x, In a av -> In x (offsets l) \/ In x gs -> a < x) ->
  (forall k x, In k (offsets kept) -> In x (offsets l) -> k < x) ->
  exists av', remove_loop ins fuel l gs (pairs (pre ++ gs)) av kept = Some (av', kept ++ filter (not_in gs) l) /\ ascending av' /\
    (forall x, In x av' <-> In x av \/ In x (offsets l) \/ In x gs).
Proof.
  induction fuel as [|fuel IH]; intros l gs pre av kept F Sl Sg Bd Pl Sa Al Kl.
  - destruct l as [|n l]; [|cbn [length] in F; lia]. destruct gs as [|g gs]; [|cbn [length] in F; lia].
    exists av. cbn [remove_loop filter]. rewrite app_nil_r. split; [reflexivity|]. split; [exact Sa|]. cbn [offsets map In]. tauto.
  - assert (NF : forall (x : N) l0, ascending (x :: l0) -> ascending l0) by (intros ? ? [_ X]; exact X).
    assert (BackN : forall x, (forall a, In a av -> a < x) -> ins N (fun n => n) x av = av ++ [x]).
    { intros x Ax. apply (ins_back ins Ins). intros y Y. rewrite map_id in Y. apply Ax, Y. }
    (* the next node of the level is taken *)
    assert (Take : forall n l', l = n :: l' -> (forall g, In g gs -> n_offset n <= g) ->
      exists av', (let a := drop_below (w64 (2 * n_offset n)) (pairs (pre ++ gs)) in
        let kept' := match a with
                     | x :: y :: _ => if (x =? w64 (2 * n_offset n)) && (y =? w64 (w64 (2 * n_offset n) + 1)) then kept else insert ins n kept
                     | _ => insert ins n kept
                     end in
        let generated' := match gs with
                          | g :: gr => if n_offset n =? g then gr else gs
                          | [] => []
                          end in
        remove_loop ins fuel l' generated' a (ins N (fun n => n) (n_offset n) av) kept') = Some (av', kept ++ filter (not_in gs) l) /\ ascending av' /\
        (forall x, In x av' <-> In x av \/ In x (offsets l) \/ In x gs)).
    { intros n l' -> Le. cbv zeta. assert (Bn : n_offset n < 9223372036854775808) by (apply Bd; left; reflexivity).
      assert (W : w64 (2 * n_offset n) = 2 * n_offset n) by (unfold w64; lia). rewrite W.
      replace (w64 (2 * n_offset n + 1)) with (2 * n_offset n + 1) by (unfold w64; lia).
      rewrite drop_pairs; [|intros p P; apply Pl; [exact P|left; reflexivity]|exact Le].
      rewrite BackN by (intros a A; apply Al; [exact A|left; left; reflexivity]).
      assert (Kb : insert ins n kept = kept ++ [n]).
      { apply (ins_back ins Ins). intros y Y. apply Kl; [exact Y|left; reflexivity]. }
      destruct Sl as [Sl1 Sl2]. apply ascending_app in Sg. destruct Sg as (_ & Sgs & _).
      assert (Common : forall gs' pre' kept', gs = pre' ++ gs' -> (forall p, In p pre' -> p = n_offset n) -> (forall x, In x gs -> x = n_offset n \/ In x gs') ->
        (forall x, In x gs' -> n_offset n < x) ->
        (forall k x, In k (offsets kept') -> In x (offsets l') -> k < x) -> kept' ++ filter (not_in gs') l' = kept ++ filter (not_in gs) (n :: l') ->
        exists av', remove_loop ins fuel l' gs' (pairs gs) (av ++ [n_offset n]) kept' = Some (av', kept ++ filter (not_in gs) (n :: l')) /\ ascending av' /\
        (forall x, In x av' <-> In x av \/ In x (offsets (n :: l')) \/ In x gs)).
      { intros gs' pre' kept' Eg Ep Ei El Ek Ef. rewrite <- Ef. rewrite Eg. rewrite Eg in Sgs.
        destruct (IH l' gs' pre' (av ++ [n_offset n]) kept') as (av' & R & R1 & R2); auto.
        - rewrite Eg in F. rewrite app_length in F. cbn [length] in F. lia.
        - intros x X. apply Bd. right. exact X.
        - intros p x P X. rewrite (Ep p P). apply Sl1, X.
        - apply ascending_app. split; [exact Sa|]. split; [split; [intros ? []|exact I]|]. intros a x A [<-|[]]. apply Al; [exact A|left; left; reflexivity].
        - intros a x A X. apply in_app_or in A. destruct A as [A|[<-|[]]].
          + apply Al; [exact A|]. destruct X as [X|X]; [left; right; exact X|right; rewrite Eg; apply in_or_app; right; exact X].
          + destruct X as [X|X]; [apply Sl1, X|apply El, X].
        - exists av'. split; [exact R|]. split; [exact R1|]. intros x. rewrite R2. rewrite <- Eg. rewrite in_app_iff. cbn [offsets map In]. fold (offsets l').
          split; [|intros [X|[[X|X]|X]]; auto; destruct (Ei x X) as [-> |Y]; auto]. intros [[X|[X|[]]]|[X|X]]; auto. right. right. rewrite Eg. apply in_or_app. right. exact X. }
      destruct gs as [|g gs].
      - cbn [pairs flat_map]. rewrite Kb. apply (Common [] [] (kept ++ [n])); auto.
        + intros p [].
        + intros p [].
        + intros k x K X. unfold offsets in K. rewrite map_app in K. apply in_app_or in K. destruct K as [K|[<-|[]]]; [apply Kl; [exact K|right; exact X]|apply Sl1, X].
        + rewrite <- app_assoc. reflexivity.
      - change (pairs (g :: gs)) with (2 * g :: 2 * g + 1 :: pairs gs). cbv iota. specialize (Le g (or_introl eq_refl)) as Lg. destruct Sgs as [Sg1 Sg2]. destruct (N.eqb_spec (n_offset n) g) as [Eg|Ng].
        + replace ((2 * g =? 2 * n_offset n) && (2 * g + 1 =? 2 * n_offset n + 1)) with true by lia.
          apply (Common gs [g] kept); auto.
          * intros p [<-|[]]; auto.
          * intros x [<-|X]; auto.
          * intros x X. rewrite Eg. apply Sg1, X.
          * intros k x K X. apply Kl; [exact K|right; exact X].
          * cbn [filter]. replace (not_in (g :: gs) n) with false by (symmetry; apply not_in_false; left; auto). f_equal.
            apply filter_ext_in. intros x X. unfold not_in. cbn [existsb]. assert (n_offset n < n_offset x) by (apply Sl1, in_map, X).
            replace (n_offset x =? g) with false by lia. reflexivity.
        + replace ((2 * g =? 2 * n_offset n) && (2 * g + 1 =? 2 * n_offset n + 1)) with false by lia. rewrite Kb.
          apply (Common (g :: gs) [] (kept ++ [n])); auto.
          * intros p [].
          * intros x [<-|X]; [lia|]. specialize (Sg1 x X). lia.
          * intros k x K X. unfold offsets in K. rewrite map_app in K. apply in_app_or in K. destruct K as [K|[<-|[]]]; [apply Kl; [exact K|right; exact X]|apply Sl1, X].
          * cbn [filter]. replace (not_in (g :: gs) n) with true; [rewrite <- app_assoc; reflexivity|]. symmetry. apply not_in_true.
            intros [X|X]; [lia|]. specialize (Sg1 _ X). lia. }
    (* the next computed offset is passed *)
    assert (Pass : forall g gs', gs = g :: gs' -> (forall x, In x (offsets l) -> g < x) ->
      exists av', remove_loop ins fuel l gs' (pairs (pre ++ gs)) (ins N (fun n => n) g av) kept = Some (av', kept ++ filter (not_in gs) l) /\ ascending av' /\
        (forall x, In x av' <-> In x av \/ In x (offsets l) \/ In x gs)).
    { intros g gs' -> Lt. rewrite BackN by (intros a A; apply Al; [exact A|right; left; reflexivity]).
      replace (pre ++ g :: gs') with ((pre ++ [g]) ++ gs') by (rewrite <- app_assoc; reflexivity).
      assert (Sg' : ascending ((pre ++ [g]) ++ gs')) by (rewrite <- app_assoc; exact Sg).
      apply ascending_app in Sg. destruct Sg as (_ & [Sg1 Sg2] & _).
      destruct (IH l gs' (pre ++ [g]) (av ++ [g]) kept) as (av' & R & R1 & R2); auto.
      - cbn [length] in F. lia.
      - intros p x P X. apply in_app_or in P. destruct P as [P|[<-|[]]]; [apply Pl; assumption|apply Lt, X].
      - apply ascending_app. split; [exact Sa|]. split; [split; [intros ? []|exact I]|]. intros a x A [<-|[]]. apply Al; [exact A|right; left; reflexivity].
      - intros a x A X. apply in_app_or in A. destruct A as [A|[<-|[]]].
        + apply Al; [exact A|]. destruct X as [X|X]; [left; exact X|right; right; exact X].
        + destruct X as [X|X]; [apply Lt, X|apply Sg1, X].
      - exists av'. split; [|split; [exact R1|]].
        + rewrite R. do 2 f_equal. f_equal. apply filter_ext_in. intros x X. unfold not_in. cbn [existsb].
          assert (g < n_offset x) by (apply Lt, in_map, X). replace (n_offset x =? g) with false by lia. reflexivity.
        + intros x. rewrite R2. rewrite in_app_iff. cbn [In]. tauto. }
    destruct l as [|n l]; destruct gs as [|g gs]; cbn [remove_loop].
    + exists av. cbn [filter]. rewrite app_nil_r. split; [reflexivity|]. split; [exact Sa|]. cbn [offsets map In]. tauto.
    + apply (Pass g gs eq_refl). intros ? [].
    + apply (Take n l eq_refl). intros ? [].
    + destruct (N.leb_spec (n_offset n) g) as [L|L].
      * apply (Take n l eq_refl). apply ascending_app in Sg. destruct Sg as (_ & [Sg1 _] & _). intros x [<-|X]; [exact L|]. specialize (Sg1 x X). lia.
      * apply (Pass g gs eq_refl). intros x [<-|X]; [exact L|]. destruct Sl as [Sl1 _]. specialize (Sl1 x X). lia.
Qed.

(* ---- only membership of the computed offsets matters ---- *)

Definition same (a b : list N) : Prop := forall x, In x a <-> In x b.
Lemma same_next : forall g g' l l', same (g ++ l) (g' ++ l') -> same (map (fun x => x / 2) (g ++ l)) (map (fun x => x / 2) (g' ++ l')).
Proof. intros g g' l l' S x. rewrite !in_map_iff. split; intros (y & E & Y); exists y; (split; [exact E|apply S, Y]). Qed.
Lemma same_app : forall g g' l, same g g' -> same (g ++ l) (g' ++ l).
Proof. intros g g' l S x. rewrite !in_app_iff, (S x). tauto. Qed.

Lemma tops_same : forall path g g', same g g' -> same (tops_from g path) (tops_from g' path).
Proof. induction path as [|l path IH]; intros g g' S; [exact S|]. cbn [tops_from]. apply IH, same_next, same_app, S. Qed.
Lemma complete_same : forall path g g', same g g' -> complete_from g path -> complete_from g' path.
Proof.
  induction path as [|l path IH]; intros g g' S C; [exact I|]. destruct C as [C1 C2]. pose proof (same_app g g' (offsets l) S) as SA. split.
  - intros x X. apply SA, C1, SA, X.
  - apply (IH (map (fun x => x / 2) (g ++ offsets l))); [apply same_next, SA|exact C2].
Qed.
Lemma not_in_same : forall g g' n, same g g' -> not_in g n = not_in g' n.
Proof. intros g g' n S. destruct (not_in g' n) eqn:E; [apply not_in_true|apply not_in_false]; [apply not_in_true in E|apply not_in_false in E]; rewrite (S (n_offset n)); exact E. Qed.
Lemma trim_same : forall path g g', same g g' -> trim_from g path = trim_from g' path.
Proof.
  induction path as [|l path IH]; intros g g' S; [reflexivity|]. cbn [trim_from]. f_equal.
  - apply filter_ext. intros n. apply (not_in_same g g' n S).
  - apply IH, same_next, same_app, S.
Qed.

(* trimming *)
Lemma trim_level_same : forall g l, same (g ++ offsets (filter (not_in g) l)) (g ++ offsets l).
Proof.
  intros g l x. rewrite !in_app_iff. unfold offsets. rewrite !in_map_iff. split.
  - intros [X|(n & E & X)]; [auto|]. apply filter_In in X. right. exists n. tauto.
  - intros [X|(n & E & X)]; [auto|]. destruct (not_in g n) eqn:C; [right; exists n; rewrite filter_In; auto|]. apply not_in_false in C. left. congruence.
Qed.

Lemma sorted_filter : forall f l, sorted l -> sorted (filter f l).
Proof.
  intros f. induction l as [|n l IH]; intros S; [exact I|]. destruct S as [S1 S2]. cbn [filter]. destruct (f n); [|apply IH, S2].
  split; [|apply IH, S2]. intros y Y. apply S1. apply in_map_iff in Y. destruct Y as (m & <- & M). apply filter_In in M. apply in_map, M.
Qed.

Lemma trim_facts : forall tr path g k, Forall sorted path -> complete_from g path -> levels_in tr k path ->
  tidy_from g (trim_from g path) /\ complete_from g (trim_from g path) /\ levels_in tr k (trim_from g path) /\
  Forall sorted (trim_from g path) /\ same (tops_from g (trim_from g path)) (tops_from g path) /\ length (trim_from g path) = length path.
Proof.
  intros tr. induction path as [|l path IH]; intros g k F C T; [repeat split; auto|].
  inversion F as [|? ? F1 F2]; subst. destruct C as [C1 C2]. destruct T as [T1 T2].
  cbn [trim_from]. fold (not_in g). pose proof (trim_level_same g l) as Sm. pose proof (same_next _ _ _ _ Sm) as Sn.
  destruct (IH (map (fun x => x / 2) (g ++ offsets l)) (S k) F2 C2 T2) as (I1 & I2 & I3 & I4 & I5 & I6).
  split; [|split; [|split; [|split; [|split]]]].
  - cbn [tidy_from]. split; [apply sorted_filter, F1|]. split.
    + intros x X G. apply in_map_iff in X. destruct X as (n & <- & X). apply filter_In in X. destruct X as [_ X]. apply not_in_true in X. contradiction.
    + apply (tidy_from_incl _ (map (fun x => x / 2) (g ++ offsets l))); [intros x; apply Sn|exact I1].
  - cbn [complete_from]. split; [intros x X; apply Sm, C1, Sm, X|]. apply (complete_same _ (map (fun x => x / 2) (g ++ offsets l))); [|exact I2].
    intros x. symmetry. apply Sn.
  - cbn [levels_in]. split; [|exact I3]. rewrite Forall_forall in *. intros n N. apply filter_In in N. apply T1, N.
  - constructor; [apply sorted_filter, F1|exact I4].
  - cbn [tops_from]. intros x. rewrite <- (I5 x). apply tops_same, Sn.
  - cbn [length]. f_equal. exact I6.
Qed.

(* ---- remove_unnecessary_nodes ---- *)


Lemma remove_levels_exact : forall path gs gen, ascending gs -> same gs gen -> Forall sorted path -> small path -> complete_from gen path ->
  remove_levels ins path (pairs gs) = Some (trim_from gen path).
Proof.
  induction path as [|l path IH]; intros gs gen Sg Sm F B C; [reflexivity|].
  inversion F as [|? ? F1 F2]; subst. inversion B as [|? ? B1 B2]; subst. destruct C as [C1 C2]. cbn [remove_levels].
  rewrite halves_pairs by exact Sg. cbn [app].
  destruct (remove_loop_exact (length l + length gs) l gs [] [] []) as (av & R & R1 & R2); auto; try (intros ? ? []).
  { exact I. }
  cbn [app] in R. rewrite R.
  assert (Sv : same av (gen ++ offsets l)).
  { intros x. rewrite R2, in_app_iff, <- (Sm x). cbn [In]. tauto. }
  destruct (pairs_form av R1) as (g' & -> & Sg').
  { intros x X. apply Sv, C1, Sv, X. }
  rewrite (IH g' (map (fun x => x / 2) (gen ++ offsets l))); auto.
  - cbn [option_map trim_from]. do 2 f_equal. apply filter_ext. intros n. apply (not_in_same gs gen n Sm).
  - intros x. rewrite in_map_iff. split.
    + intros X. exists (2 * x). split; [lia|]. apply Sv, pairs_In. replace (2 * x / 2) with x by lia. exact X.
    + intros (y & <- & Y). apply pairs_In, Sv, Y.
Qed.

Lemma remove_exact : forall b, Forall sorted (bp_path b) -> small (bp_path b) -> complete b ->
  remove_unnecessary_nodes ins b = Some (mkbump (bp_height b) (trim_from [] (bp_path b))).
Proof.
  intros b F B C. unfold remove_unnecessary_nodes. change (@nil N) with (pairs []) at 1. rewrite (remove_levels_exact (bp_path b) [] []); auto; [exact I|]. intros x; reflexivity.
Qed.

(* ---- the root of a BUMP whose digests are those of a tree ---- *)

Variable tr : nat -> N -> bytes.
Hypothesis Tr : tree_digests H tr.

Definition tr_node (k : nat) (q : N) : node := mknode q flag_intermediate (Some (tr k q)).

Lemma step_tree : forall k g u, ascending g -> offsets u = pairs g -> Forall (node_in tr k) u -> (forall x, In x (offsets u) -> x < 18446744073709551616) ->
  step H ins u = Ret (map (tr_node (S k)) g).
Proof.
  intros k g u Sg Eu Fu Bu. unfold step.
  assert (Ev : forall g u, offsets u = pairs g -> Nat.odd (length u) = false).
  { clear. induction g as [|q g IH]; intros u E; [destruct u; [reflexivity|discriminate]|]. destruct u as [|x [|y u]]; try discriminate. apply (IH u). change (pairs (q :: g)) with (2 * q :: 2 * q + 1 :: pairs g) in E. unfold offsets in *. cbn [map] in E. congruence. }
  rewrite (Ev g u Eu). revert u Sg Eu Fu Bu. induction g as [|q g IH]; intros u Sg Eu Fu Bu.
  - destruct u; [reflexivity|discriminate].
  - destruct u as [|x [|y u]]; try discriminate. change (pairs (q :: g)) with (2 * q :: 2 * q + 1 :: pairs g) in Eu. cbn [offsets map] in Eu.
    assert (Ox : n_offset x = 2 * q) by congruence. assert (Oy : n_offset y = 2 * q + 1) by congruence. assert (Eu' : offsets u = pairs g) by (unfold offsets; congruence).
    inversion Fu as [|? ? Fx Fu']; subst. inversion Fu' as [|? ? Fy Fu'']; subst. destruct Sg as [Sg1 Sg2].
    cbn [rev]. rewrite <- app_assoc. rewrite (step_loop_app H ins) by (rewrite rev_length; apply (Ev g u Eu')).
    rewrite (IH u Sg2 Eu' Fu'') by (intros z Z; apply Bu; right; right; exact Z).
    cbn [app step_loop]. rewrite Ox, Oy.
    assert (By : 2 * q + 1 < 18446744073709551616) by (apply Bu; right; left; exact Oy).
    unfold w64. replace ((2 * q + 1) / 2 =? 2 * q / 2) with true by lia. replace ((2 * q + 1) mod 18446744073709551616 =? 2 * q + 1) with true by lia. cbn [andb].
    assert (Dx : n_digest x = Some (tr k (2 * q))).
    { destruct Fx as [[D _]|(_ & O & _)]; [rewrite <- Ox; exact D|]. rewrite Ox in O. rewrite N.odd_mul in O. discriminate. }
    assert (Dy : (if is_duplicate y then n_digest x else n_digest y) = Some (tr k (2 * q + 1))).
    { unfold is_duplicate. destruct Fy as [[D Nd]|(E & _ & Eq)].
      - destruct (byte_eqb (n_flag y) flag_duplicate) eqn:Fl; [apply byte_eqb_eq in Fl; contradiction|]. rewrite <- Oy. exact D.
      - rewrite E. cbn [dup_node n_flag]. rewrite byte_eqb_refl, Dx. rewrite Oy in Eq. replace (2 * q + 1 - 1) with (2 * q) in Eq by lia. congruence. }
    rewrite Dy, Dx. unfold insert. rewrite (ins_front ins Ins).
    + cbn [map]. unfold tr_node at 2. rewrite (Tr k q). replace ((2 * q + 1) / 2) with q by lia. reflexivity.
    + intros z Z. rewrite map_map in Z. cbn [tr_node n_offset] in *. apply in_map_iff in Z. destruct Z as (z' & <- & Z). specialize (Sg1 z' Z). lia.
Qed.

Lemma root_tree_from : forall path k gs gen t, ascending gs -> same gs gen -> tidy_from gen path -> complete_from gen path -> levels_in tr k path ->
  small path -> (forall x, In x gs -> x < 9223372036854775808) -> (forall x, In x (tops_from gen path) <-> x = t) ->
  root_from H ins (map (tr_node k) gs) path = Ret (tr (k + length path) t).
Proof.
  induction path as [|l path IH]; intros k gs gen t Sg Sm T C In' B Bg Tp.
  - cbn [tops_from] in Tp. cbn [root_from length]. rewrite Nat.add_0_r.
    assert (gs = [t]).
    { assert (X : forall x, In x gs <-> x = t) by (intros x; rewrite (Sm x); apply Tp). destruct gs as [|a [|b gs]].
      - exfalso. destruct (proj2 (X t) eq_refl).
      - f_equal. apply X. left. reflexivity.
      - exfalso. destruct Sg as [Sg _]. specialize (Sg b (or_introl eq_refl)). rewrite (proj1 (X a) (or_introl eq_refl)), (proj1 (X b) (or_intror (or_introl eq_refl))) in Sg. lia. }
    subst gs. reflexivity.
  - destruct T as (T1 & T2 & T3). destruct C as [C1 C2]. destruct In' as [In1 In2]. inversion B as [|? ? B1 B2]; subst. cbn [root_from].
    assert (Off : forall k0 gs0, map n_offset (map (tr_node k0) gs0) = gs0) by (intros; rewrite map_map; cbn [tr_node n_offset]; apply map_id).
    assert (Dj : forall x y, In x (rev (map (tr_node k) gs)) -> In y (rev l) -> n_offset x <> n_offset y).
    { intros x y X Y E. apply in_rev in X, Y. apply (in_map n_offset) in X, Y. rewrite Off in X. apply (T2 (n_offset y) Y). apply Sm. rewrite <- E. exact X. }
    destruct (fold_ins ins Ins node n_offset (merge n_offset combine_pick (rev (map (tr_node k) gs)) (rev l)) []) as [U1 U2].
    { rewrite app_nil_r. apply (Permutation_NoDup (l := map n_offset (map (tr_node k) gs ++ l))).
      - apply Permutation_map. rewrite merge_disjoint by exact Dj. apply Permutation_app; apply Permutation_rev.
      - rewrite map_app, Off. apply NoDup_app_intro; [apply ascending_NoDup, Sg|apply ascending_NoDup, T1|]. intros x X Y. apply (T2 x Y), Sm, X. }
    { exact I. }
    fold (insert ins) in U1, U2. change (fold_left (fun r n => insert ins n r) (merge n_offset combine_pick (rev (map (tr_node k) gs)) (rev l)) []) with (combine ins (map (tr_node k) gs) l) in U1, U2.
    set (u := combine ins (map (tr_node k) gs) l) in *. rewrite app_nil_r in U2. rewrite merge_disjoint in U2 by exact Dj. rewrite <- !Permutation_rev in U2.
    assert (Su : same (offsets u) (gen ++ offsets l)).
    { intros x. transitivity (In x (map n_offset (map (tr_node k) gs ++ l))).
      - unfold offsets. split; apply Permutation_in; [|symmetry]; apply Permutation_map, U2.
      - rewrite map_app, Off, !in_app_iff, (Sm x). reflexivity. }
    destruct (pairs_form (offsets u) U1) as (g' & Eg & Sg').
    { intros x X. apply Su, C1, Su, X. }
    assert (Bu : forall x, In x (offsets u) -> x < 9223372036854775808).
    { intros x X. apply Su in X. apply in_app_or in X. destruct X as [X|X]; [apply Bg, Sm, X|apply B1, X]. }
    rewrite (step_tree k g' u Sg' Eg).
    + replace (k + length (l :: path))%nat with (S k + length path)%nat in * by (cbn [length]; lia). apply (IH (S k) g' (map (fun x => x / 2) (gen ++ offsets l))); auto.
      * intros x. rewrite in_map_iff. split.
        { intros X. exists (2 * x). split; [lia|]. apply Su. rewrite Eg. apply pairs_In. replace (2 * x / 2) with x by lia. exact X. }
        { intros (y & <- & Y). apply pairs_In. rewrite <- Eg. apply Su, Y. }
      * intros x X. assert (X2 : In (2 * x) (offsets u)) by (rewrite Eg; apply pairs_In; replace (2 * x / 2) with x by lia; exact X). specialize (Bu _ X2). lia.
    + apply (Permutation_Forall (Permutation_sym U2)). apply Forall_app. split; [|exact In1]. apply Forall_forall. intros n N. apply in_map_iff in N. destruct N as (q & <- & _).
      left. split; [reflexivity|discriminate].
    + intros x X. specialize (Bu x X). lia.
Qed.

Lemma root_tree : forall b t, tidy b -> complete b -> levels_in tr 0 (bp_path b) -> small (bp_path b) -> single_top (bp_path b) t ->
  bump_root H ins b = Ret (tr (length (bp_path b)) t).
Proof.
  intros b t T C L B S. unfold bump_root. apply (root_tree_from (bp_path b) 0 [] [] t); auto; [exact I|intros x; reflexivity|intros ? []].
Qed.

(* ---- combine ---- *)

Lemma pick_offset : forall x y, n_offset x = n_offset y -> n_offset (combine_pick x y) = n_offset x.
Proof. intros x y E. unfold combine_pick. destruct (is_client x), (is_client y), (is_duplicate x), (is_duplicate y); congruence. Qed.

Fixpoint descending (l : list N) : Prop := match l with [] => True | x :: r => (forall y, In y r -> y < x) /\ descending r end.
Lemma descending_rev : forall l, ascending l -> descending (rev l).
Proof.
  intros l S. assert (Q : forall l acc, ascending l -> descending acc -> (forall x y, In x l -> In y acc -> y < x) -> descending (rev l ++ acc)).
  { induction l0 as [|x l0 IH]; intros acc A D M; [exact D|]. destruct A as [A1 A2]. cbn [rev]. rewrite <- app_assoc. apply IH; [exact A2| |].
    - split; [intros y Y; apply M; [left; reflexivity|exact Y]|exact D].
    - intros u v U [<-|V]; [apply A1, U|apply M; [right; exact U|exact V]]. }
  rewrite <- (app_nil_r (rev l)). apply Q; [exact S|exact I|intros ? ? ? []].
Qed.

Lemma merge_aligned : forall a b, descending (map n_offset a) -> descending (map n_offset b) -> aligned (map n_offset a) (map n_offset b) ->
  NoDup (map n_offset (merge n_offset combine_pick a b)) /\
  (forall e, In e (merge n_offset combine_pick a b) <->
     (In e a /\ ~ In (n_offset e) (map n_offset b)) \/ (In e b /\ ~ In (n_offset e) (map n_offset a)) \/
     exists x y, In x a /\ In y b /\ n_offset x = n_offset y /\ e = combine_pick x y).
Proof.
  assert (ND : forall l, descending l -> NoDup l).
  { induction l as [|x l IH]; intros D; [constructor|]. destruct D as [D1 D2]. constructor; [|auto]. intros X. specialize (D1 x X). lia. }
  assert (Dis : forall a b, descending (map n_offset a) -> descending (map n_offset b) -> (forall z, In z (map n_offset a) -> ~ In z (map n_offset b)) ->
    NoDup (map n_offset (merge n_offset combine_pick a b)) /\
    (forall e, In e (merge n_offset combine_pick a b) <->
     (In e a /\ ~ In (n_offset e) (map n_offset b)) \/ (In e b /\ ~ In (n_offset e) (map n_offset a)) \/
     exists x y, In x a /\ In y b /\ n_offset x = n_offset y /\ e = combine_pick x y)).
  { intros a b Da Db D. assert (P : Permutation (merge n_offset combine_pick a b) (a ++ b)).
    { apply merge_disjoint. intros x y X Y E. apply (D (n_offset x)); [apply in_map, X|rewrite E; apply in_map, Y]. }
    split.
    - apply (Permutation_NoDup (Permutation_map n_offset (Permutation_sym P))). rewrite map_app. apply NoDup_app_intro; auto.
    - intros e. transitivity (In e (a ++ b)); [split; apply Permutation_in; [|symmetry]; exact P|]. rewrite in_app_iff. split.
      + intros [X|X]; [left|right; left]; (split; [exact X|]); [apply D, in_map, X|intros Y; apply (D (n_offset e) Y), in_map, X].
      + intros [[X _]|[[X _]|(x & y & X & Y & E & _)]]; auto. exfalso. apply (D (n_offset x)); [apply in_map, X|rewrite E; apply in_map, Y]. }
  induction a as [|x a IH]; intros b Da Db Al; [apply Dis; auto; intros ? []|]. destruct b as [|y b]; [apply Dis; auto|].
  cbn [map aligned] in Al. destruct Al as [[E Al]|D]; [|apply Dis; auto].
  cbn [map] in Da, Db. destruct Da as [Da1 Da2]. destruct Db as [Db1 Db2]. destruct (IH b Da2 Db2 Al) as [I1 I2].
  cbn [merge]. replace (n_offset x <? n_offset y) with false by lia. replace (n_offset y <? n_offset x) with false by lia.
  pose proof (pick_offset x y E) as Po.
  assert (Lt : forall e, In e (merge n_offset combine_pick a b) -> n_offset e < n_offset x).
  { intros e X. apply I2 in X. destruct X as [[X _]|[[X _]|(u & v & U & V & Eu & ->)]].
    - apply Da1, in_map, X.
    - rewrite E. apply Db1, in_map, X.
    - rewrite pick_offset by exact Eu. apply Da1, in_map, U. }
  split.
  - cbn [map]. constructor; [|exact I1]. rewrite Po. intros X. apply in_map_iff in X. destruct X as (e & Ee & X). specialize (Lt e X). lia.
  - intros e. cbn [In map]. split.
    + intros [<-|X]; [right; right; exists x, y; auto|]. pose proof (Lt e X). apply I2 in X.
      destruct X as [[X Y]|[[X Y]|(u & v & U & V & Eu & ->)]].
      * left. split; [right; exact X|]. intros [Z|Z]; [lia|contradiction].
      * right. left. split; [right; exact X|]. intros [Z|Z]; [lia|contradiction].
      * right. right. exists u, v. auto 6.
    + intros [[X Y]|[[X Y]|(u & v & U & V & Eu & ->)]].
      * destruct X as [<-|X]; [exfalso; apply Y; left; auto|]. right. apply I2. left. split; [exact X|tauto].
      * destruct X as [<-|X]; [exfalso; apply Y; left; auto|]. right. apply I2. right. left. split; [exact X|tauto].
      * destruct U as [<-|U], V as [<-|V]; auto.
        { exfalso. apply (in_map n_offset) in V. specialize (Db1 _ V). lia. }
        { exfalso. apply (in_map n_offset) in U. specialize (Da1 _ U). lia. }
        { right. apply I2. right. right. exists u, v. auto. }
Qed.

Lemma combine_aligned : forall a b, sorted a -> sorted b -> aligned (rev (offsets a)) (rev (offsets b)) ->
  sorted (combine ins a b) /\
  (forall e, In e (combine ins a b) <->
     (In e a /\ ~ In (n_offset e) (offsets b)) \/ (In e b /\ ~ In (n_offset e) (offsets a)) \/
     exists x y, In x a /\ In y b /\ n_offset x = n_offset y /\ e = combine_pick x y).
Proof.
  intros a b Sa Sb Al. pose proof (descending_rev _ Sa) as Da. pose proof (descending_rev _ Sb) as Db. unfold offsets in Al, Da, Db. rewrite <- !map_rev in Al.
  rewrite <- map_rev in Da, Db. destruct (merge_aligned (rev a) (rev b) Da Db Al) as [ND M].
  destruct (fold_ins ins Ins node n_offset (merge n_offset combine_pick (rev a) (rev b)) []) as [U1 U2]; [rewrite app_nil_r; exact ND|exact I|].
  rewrite app_nil_r in U2. split; [exact U1|]. intros e. transitivity (In e (merge n_offset combine_pick (rev a) (rev b))); [split; apply Permutation_in; [|symmetry]; exact U2|].
  rewrite (M e). rewrite !map_rev, <- !in_rev. unfold offsets. split.
  - intros [X|[X|(x & y & X & Y & E)]]; auto. right. right. exists x, y. rewrite <- in_rev in X, Y. auto.
  - intros [X|[X|(x & y & X & Y & E)]]; auto. right. right. exists x, y. rewrite <- !in_rev. auto.
Qed.

Lemma combine_offsets : forall a b, sorted a -> sorted b -> aligned (rev (offsets a)) (rev (offsets b)) -> same (offsets (combine ins a b)) (offsets a ++ offsets b).
Proof.
  intros a b Sa Sb Al x. destruct (combine_aligned a b Sa Sb Al) as [_ M]. rewrite in_app_iff. unfold offsets at 1. rewrite in_map_iff. split.
  - intros (e & <- & X). apply M in X. destruct X as [[X _]|[[X _]|(u & v & U & V & E & ->)]]; [left; apply in_map, X|right; apply in_map, X|].
    left. rewrite pick_offset by exact E. apply in_map, U.
  - intros X. destruct (in_dec N.eq_dec x (offsets a)) as [A|A], (in_dec N.eq_dec x (offsets b)) as [B|B]; [| | |tauto].
    + unfold offsets in A, B. apply in_map_iff in A, B. destruct A as (u & Eu & U), B as (v & Ev & V). exists (combine_pick u v). assert (E : n_offset u = n_offset v) by congruence.
      split; [rewrite pick_offset by exact E; exact Eu|]. apply M. right. right. exists u, v. auto.
    + unfold offsets in A. apply in_map_iff in A. destruct A as (u & Eu & U). exists u. split; [exact Eu|]. apply M. left. split; [exact U|rewrite Eu; exact B].
    + unfold offsets in B. apply in_map_iff in B. destruct B as (u & Eu & U). exists u. split; [exact Eu|]. apply M. right. left. split; [exact U|rewrite Eu; exact A].
Qed.

Lemma pick_in : forall k x y, n_offset x = n_offset y -> node_in tr k x -> node_in tr k y -> node_in tr k (combine_pick x y).
Proof. intros k x y E X Y. unfold combine_pick. destruct (is_client x), (is_client y), (is_duplicate x), (is_duplicate y); assumption. Qed.

Lemma client_node_in : forall k n, node_in tr k n -> is_client n = true -> n = mknode (n_offset n) flag_client (Some (tr k (n_offset n))).
Proof.
  intros k [o f d] [[D _]|(E & _)] C; cbn [n_offset n_digest] in *.
  - unfold is_client in C. cbn [n_flag] in C. apply byte_eqb_eq in C. congruence.
  - rewrite E in C. discriminate.
Qed.

Lemma combine_clients : forall k a b, sorted a -> sorted b -> aligned (rev (offsets a)) (rev (offsets b)) -> Forall (node_in tr k) a -> Forall (node_in tr k) b ->
  Forall (node_in tr k) (combine ins a b) /\
  (forall o d, In (mknode o flag_client (Some d)) (combine ins a b) <-> In (mknode o flag_client (Some d)) a \/ In (mknode o flag_client (Some d)) b).
Proof.
  intros k a b Sa Sb Al Fa Fb. destruct (combine_aligned a b Sa Sb Al) as [_ M]. rewrite Forall_forall in Fa, Fb. split.
  - apply Forall_forall. intros e X. apply M in X. destruct X as [[X _]|[[X _]|(u & v & U & V & E & ->)]]; auto. apply pick_in; auto.
  - intros o d. set (c := mknode o flag_client (Some d)). assert (Cc : is_client c = true) by reflexivity. rewrite (M c). split.
    + intros [[X _]|[[X _]|(u & v & U & V & E & Ec)]]; auto. unfold combine_pick in Ec. destruct (is_client u) eqn:Cu; [left; congruence|].
      destruct (is_client v) eqn:Cv; [right; congruence|]. exfalso. destruct (is_duplicate u), (is_duplicate v); congruence.
    + assert (Eq : forall u v, node_in tr k u -> node_in tr k v -> is_client u = true -> is_client v = true -> n_offset u = n_offset v -> u = v).
      { intros u v U V Cu Cv E. rewrite (client_node_in k u U Cu), (client_node_in k v V Cv), E. reflexivity. }
      intros [X|X].
      * destruct (in_dec N.eq_dec (n_offset c) (offsets b)) as [B|B]; [|auto]. right. right. unfold offsets in B. apply in_map_iff in B. destruct B as (v & Ev & V).
        exists c, v. split; [exact X|]. split; [exact V|]. split; [auto|]. unfold combine_pick. rewrite Cc. reflexivity.
      * destruct (in_dec N.eq_dec (n_offset c) (offsets a)) as [A|A]; [|auto]. right. right. unfold offsets in A. apply in_map_iff in A. destruct A as (u & Eu & U).
        exists u, c. split; [exact U|]. split; [exact X|]. split; [exact Eu|]. unfold combine_pick. rewrite Cc. destruct (is_client u) eqn:Cu; [|reflexivity].
        symmetry. apply Eq; auto.
Qed.

(* ---- sums ---- *)

Lemma combine_paths_exact : forall a b k ga gb g, length a = length b -> Forall sorted a -> Forall sorted b -> small a -> small b -> aligned_levels a b ->
  levels_in tr k a -> levels_in tr k b -> complete_from ga a -> complete_from gb b -> same g (ga ++ gb) ->
  exists p, combine_paths ins a b = Some p /\ length p = length a /\ Forall sorted p /\ small p /\ levels_in tr k p /\ complete_from g p /\
    same (tops_from g p) (tops_from ga a ++ tops_from gb b) /\
    (forall j o d, (exists l, nth_error p j = Some l /\ In (mknode o flag_client (Some d)) l) <->
       (exists l, nth_error a j = Some l /\ In (mknode o flag_client (Some d)) l) \/ (exists l, nth_error b j = Some l /\ In (mknode o flag_client (Some d)) l)).
Proof.
  induction a as [|l a IH]; intros [|m b] k ga gb g L Fa Fb Ba Bb Al La Lb Ca Cb Sm; try discriminate.
  - exists []. cbn [combine_paths length tops_from levels_in complete_from]. split; [reflexivity|]. split; [reflexivity|]. split; [constructor|]. split; [constructor|].
    split; [exact I|]. split; [exact I|]. split; [exact Sm|]. intros j o d. split; [auto|]. intros [X|X]; exact X.
  - inversion Fa as [|? ? Fa1 Fa2]; subst. inversion Fb as [|? ? Fb1 Fb2]; subst. inversion Ba as [|? ? Ba1 Ba2]; subst. inversion Bb as [|? ? Bb1 Bb2]; subst.
    destruct Al as [Al1 Al2], La as [La1 La2], Lb as [Lb1 Lb2], Ca as [Ca1 Ca2], Cb as [Cb1 Cb2].
    pose proof (combine_offsets l m Fa1 Fb1 Al1) as Co. destruct (combine_clients k l m Fa1 Fb1 Al1 La1 Lb1) as [Ci Cc]. destruct (combine_aligned l m Fa1 Fb1 Al1) as [Cs _].
    assert (Sx : same (g ++ offsets (combine ins l m)) ((ga ++ offsets l) ++ (gb ++ offsets m))).
    { intros x. rewrite !in_app_iff, (Co x), (Sm x), !in_app_iff. tauto. }
    destruct (IH b (S k) (map (fun x => x / 2) (ga ++ offsets l)) (map (fun x => x / 2) (gb ++ offsets m)) (map (fun x => x / 2) (g ++ offsets (combine ins l m)))) as (p & P1 & P2 & P3 & P4 & P5 & P6 & P7 & P8); auto.
    + rewrite <- map_app. intros x. rewrite !in_map_iff. split; intros (y & E & Y); exists y; (split; [exact E|apply Sx, Y]).
    + exists (combine ins l m :: p). cbn [combine_paths]. rewrite P1. cbn [option_map length tops_from levels_in complete_from].
      split; [reflexivity|]. split; [congruence|]. split; [constructor; assumption|]. split.
      { constructor; [|exact P4]. intros n N. apply Co, in_app_or in N. destruct N as [N|N]; [apply Ba1, N|apply Bb1, N]. }
      split; [split; assumption|]. split; [split; [|exact P6]|split; [exact P7|]].
      * intros x X. apply Sx in X. apply Sx. apply in_or_app. apply in_app_or in X. destruct X as [X|X]; [left; apply Ca1, X|right; apply Cb1, X].
      * intros [|j] o d; [|exact (P8 j o d)]. cbn [nth_error]. split.
        { intros (q & E & X). assert (q = combine ins l m) by congruence. subst q. apply Cc in X. destruct X as [X|X]; [left; exists l; auto|right; exists m; auto]. }
        { intros [(q & E & X)|(q & E & X)]; exists (combine ins l m); (split; [reflexivity|]); apply Cc; [left|right]; congruence. }
Qed.

(* a branch of the tree *)
Lemma branch_levels : forall ds k o lvl gen, o < 4294967296 -> branch_in tr k o ds -> lvl = [] \/ (exists c, lvl = [c] /\ n_offset c = o /\ node_in tr k c) ->
  (lvl = [] -> same gen [o]) -> (lvl <> [] -> gen = []) -> ds <> [] \/ lvl = [] ->
  Forall sorted (to_path_loop ins (twin o) lvl ds) /\ small (to_path_loop ins (twin o) lvl ds) /\ levels_in tr k (to_path_loop ins (twin o) lvl ds) /\
  complete_from gen (to_path_loop ins (twin o) lvl ds) /\ length (to_path_loop ins (twin o) lvl ds) = length ds /\
  (forall x, In x (tops_from gen (to_path_loop ins (twin o) lvl ds)) <-> x = o / 2 ^ N.of_nat (length ds)).
Proof.
  induction ds as [|m ds IH]; intros k o lvl gen L Bi Lv G1 G2 Nn.
  - destruct Nn as [Nn|Nn]; [congruence|]. cbn [to_path_loop]. split; [constructor|]. split; [constructor|]. split; [exact I|]. split; [exact I|]. split; [reflexivity|].
    intros x. cbn [tops_from length]. rewrite (G1 Nn x). cbn [In]. change (2 ^ N.of_nat 0) with 1. rewrite N.div_1_r. split; [intros [->|[]]; reflexivity|auto].
  - destruct Bi as [Bm Bi]. rewrite (loop_cons ins). set (s := sibling_node (twin o) m).
    assert (Os : n_offset s = twin o) by apply sibling_node_offset.
    assert (Ns : node_in tr k s).
    { unfold s. destruct m as [d|]; cbn [sibling_node].
      - left. cbn [n_digest n_offset n_flag]. split; [congruence|discriminate].
      - right. cbn [dup_node n_offset]. destruct Bm as [Bo Be]. unfold twin. rewrite Bo. split; [reflexivity|]. pose proof (odd_form o) as Fo. rewrite Bo in Fo.
        split; [rewrite Fo; replace (2 * (o / 2) + 0 + 1) with (2 * (o / 2) + 1) by lia; rewrite N.odd_add, N.odd_mul; reflexivity|]. replace (o + 1 - 1) with o by lia. unfold twin in Be. rewrite Bo in Be. exact Be. }
    assert (Bt : twin o < 9223372036854775808) by (pose proof (flip_bound o L); lia).
    (* the level *)
    set (lv := insert ins s lvl).
    assert (Q : sorted lv /\ (forall n, In n (offsets lv) -> n < 9223372036854775808) /\ Forall (node_in tr k) lv /\ same (gen ++ offsets lv) [o; twin o]).
    { destruct Lv as [-> |(c & -> & Oc & Nc)].
      - unfold lv. rewrite (insert_nil ins Ins). split; [split; [intros ? []|exact I]|]. split; [intros n [<-|[]]; rewrite Os; exact Bt|]. split; [constructor; [exact Ns|constructor]|].
        intros x. rewrite in_app_iff, (G1 eq_refl x). cbn [offsets map In]. rewrite Os. tauto.
      - assert (Ne : n_offset c <> n_offset s) by (rewrite Oc, Os; apply flip_ne). unfold lv. rewrite (insert_single ins Ins) by exact Ne. split; [apply ordered_sorted, Ne|].
        assert (Sx : forall e, In e (ordered c s) <-> e = c \/ e = s) by (intros e; unfold ordered; destruct (_ <? _); cbn [In]; intuition).
        assert (So : forall x, In x (offsets (ordered c s)) <-> x = o \/ x = twin o).
        { intros x. unfold offsets. rewrite in_map_iff. split; [intros (e & <- & E); apply Sx in E; destruct E as [-> | ->]; rewrite ?Oc, ?Os; auto|].
          intros [-> | ->]; [exists c|exists s]; (split; [assumption|apply Sx; auto]). }
        split; [intros n N; apply So in N; destruct N as [-> | ->]; [lia|exact Bt]|]. split; [apply Forall_forall; intros e E; apply Sx in E; destruct E as [-> | ->]; assumption|].
        rewrite (G2 ltac:(discriminate)). cbn [app]. intros x. rewrite So. cbn [In]. intuition. }
    destruct Q as (Q1 & Q2 & Q3 & Q4).
    assert (L2 : o / 2 < 4294967296) by lia.
    destruct (IH (S k) (o / 2) [] (map (fun x => x / 2) (gen ++ offsets lv)) L2 Bi (or_introl eq_refl)) as (I1 & I2 & I3 & I4 & I5 & I6); auto.
    { intros _ x. rewrite in_map_iff. split.
      - intros (y & <- & Y). apply Q4 in Y. destruct Y as [<-|[<-|[]]]; [left; reflexivity|left; symmetry; apply twin_half].
      - intros [<-|[]]. exists o. split; [reflexivity|]. apply Q4. left. reflexivity. }
    { congruence. }
    rewrite next_offset_flip by exact L. split; [constructor; assumption|]. split; [constructor; assumption|]. split; [split; assumption|]. split; [split; [|exact I4]|].
    + intros x X. apply Q4 in X. apply Q4. destruct X as [<-|[<-|[]]]; [right; left; reflexivity|left].
      unfold twin. pose proof (odd_form o) as Fo. destruct (N.odd o) eqn:Oo.
      * replace (N.odd (o - 1)) with false; [lia|]. replace (o - 1) with (2 * (o / 2)) by lia. rewrite N.odd_mul. reflexivity.
      * replace (N.odd (o + 1)) with true; [lia|]. rewrite Fo. rewrite N.add_0_r, N.odd_add, N.odd_mul. reflexivity.
    + split; [cbn [length]; congruence|]. intros x. cbn [tops_from length]. rewrite (I6 x). rewrite N.div_div by (try apply N.pow_nonzero; discriminate).
      replace (2 * 2 ^ N.of_nat (length ds)) with (2 ^ N.of_nat (S (length ds))); [reflexivity|]. rewrite Nat2N.inj_succ, N.pow_succ_r'. reflexivity.
Qed.

Lemma branch_facts : forall h b, l_index (b_leaf b) < 4294967296 -> b_digests b <> [] -> l_digest (b_leaf b) = tr 0 (l_index (b_leaf b)) ->
  branch_in tr 0 (l_index (b_leaf b)) (b_digests b) ->
  let p := bp_path (bump_of_branch ins h b) in
  Forall sorted p /\ small p /\ levels_in tr 0 p /\ complete (bump_of_branch ins h b) /\ length p = length (b_digests b) /\
  single_top p (l_index (b_leaf b) / 2 ^ N.of_nat (length (b_digests b))) /\
  (forall o d, client_node (bump_of_branch ins h b) 0 o d <-> o = l_index (b_leaf b) /\ d = l_digest (b_leaf b)) /\
  (forall j o d, client_node (bump_of_branch ins h b) j o d -> j = 0%nat).
Proof.
  intros h [[d o] ds] L Ne E Bi p. cbn [b_leaf l_index l_digest b_digests] in *. unfold p. cbn [bump_of_branch bp_path]. unfold complete, single_top, client_node. cbn [bump_of_branch bp_path].
  unfold to_path. cbn [b_leaf l_index l_digest b_digests]. rewrite lxor1_flip. unfold w32. rewrite N.mod_small by (apply flip_bound, L).
  set (c := mknode o flag_client (Some d)).
  destruct (branch_levels ds 0 o [c] [] L Bi) as (I1 & I2 & I3 & I4 & I5 & I6); auto.
  { right. exists c. split; [reflexivity|]. split; [reflexivity|]. left. cbn [c n_digest n_offset n_flag]. split; [congruence|discriminate]. }
  { discriminate. }
  split; [exact I1|]. split; [exact I2|]. split; [exact I3|]. split; [exact I4|]. split; [exact I5|]. split; [exact I6|].
  destruct ds as [|m ds]; [congruence|]. rewrite (loop_cons ins). set (s := sibling_node (twin o) m).
  assert (Nc : n_offset c <> n_offset s) by (unfold s; rewrite sibling_node_offset; apply flip_ne).
  assert (Cs : is_client s = false) by (destruct m; reflexivity).
  split.
  - intros o0 d0. cbn [nth_error]. rewrite (insert_single ins Ins) by exact Nc. split.
    + intros (l & El & X). assert (l = ordered c s) by congruence. subst l.
      assert (Y : mknode o0 flag_client (Some d0) = c \/ mknode o0 flag_client (Some d0) = s) by (unfold ordered in X; destruct (_ <? _); cbn [In] in X; intuition).
      destruct Y as [Y|Y]; [unfold c in Y; split; congruence|]. rewrite <- Y in Cs. discriminate.
    + intros [-> ->]. exists (ordered c s). split; [reflexivity|]. unfold ordered. destruct (_ <? _); cbn [In]; auto.
  - intros [|j] o0 d0 (l & El & X); [reflexivity|]. exfalso. cbn [nth_error] in El. clear -Ins El X. revert El. generalize (next_offset (twin o)) as q. revert j.
    induction ds as [|m ds IH]; intros [|j] q El; try discriminate; rewrite (loop_cons ins) in El; cbn [nth_error] in El.
    + rewrite (insert_nil ins Ins) in El. assert (l = [sibling_node q m]) by congruence. subst l. destruct X as [X|[]]. destruct m; discriminate.
    + exact (IH j _ El).
Qed.

Lemma branch_aligned_loop : forall ds es o o', aligned_levels (to_path_loop ins o [] ds) (to_path_loop ins o' [] es).
Proof.
  induction ds as [|m ds IH]; intros [|m' es] o o'; try exact I; rewrite !(loop_cons ins). cbn [aligned_levels]. split; [|apply IH].
  rewrite !(insert_nil ins Ins). cbn [offsets map rev app aligned]. rewrite !sibling_node_offset. destruct (N.eq_dec o o') as [-> |Ne]; [left; auto|right].
  intros z [<-|[]] [X|[]]. congruence.
Qed.

Lemma branch_aligned : forall h b b', l_index (b_leaf b) < 4294967296 -> l_index (b_leaf b') < 4294967296 ->
  aligned_levels (bp_path (bump_of_branch ins h b)) (bp_path (bump_of_branch ins h b')).
Proof.
  intros h [[d o] ds] [[d' o'] ds'] L L'. cbn [b_leaf l_index] in *. cbn [bump_of_branch bp_path]. unfold to_path. cbn [b_leaf l_index l_digest b_digests].
  rewrite !lxor1_flip. unfold w32. rewrite !N.mod_small by (apply flip_bound; assumption).
  destruct ds as [|m ds], ds' as [|m' ds']; try exact I; rewrite !(loop_cons ins). cbn [aligned_levels]. split; [|apply branch_aligned_loop].
  assert (Of : forall c s, n_offset c <> n_offset s -> n_offset s = twin (n_offset c) -> rev (offsets (insert ins s [c])) = [2 * (n_offset c / 2) + 1; 2 * (n_offset c / 2)]).
  { intros c s Ne Es. rewrite (insert_single ins Ins) by exact Ne. pose proof (odd_form (n_offset c)) as F. unfold ordered. rewrite Es in *. unfold twin in *. destruct (N.odd (n_offset c)).
    - replace (n_offset c <? n_offset c - 1) with false by lia. cbn [offsets map rev app]. rewrite Es. f_equal; [lia|]. f_equal. lia.
    - replace (n_offset c <? n_offset c + 1) with true by lia. cbn [offsets map rev app]. rewrite Es. f_equal; [lia|]. f_equal. lia. }
  rewrite !Of by (cbn [n_offset]; rewrite ?sibling_node_offset; auto using flip_ne). cbn [n_offset aligned].
  destruct (N.eq_dec (o / 2) (o' / 2)) as [-> |Ne]; [left; split; [reflexivity|]; left; split; [reflexivity|exact I]|right].
  intros z [<-|[<-|[]]] [X|[X|[]]]; lia.
Qed.

Lemma trim_clients : forall path g j o d, (exists l, nth_error (trim_from g path) j = Some l /\ In (mknode o flag_client (Some d)) l) ->
  exists l, nth_error path j = Some l /\ In (mknode o flag_client (Some d)) l.
Proof.
  induction path as [|l path IH]; intros g j o d (q & E & X); [destruct j; discriminate|]. destruct j as [|j]; cbn [trim_from nth_error] in *.
  - exists l. split; [reflexivity|]. assert (q = filter (fun n => negb (existsb (N.eqb (n_offset n)) g)) l) by congruence. subst q. apply filter_In in X. apply X.
  - apply (IH (map (fun x => x / 2) (g ++ offsets l)) j o d). exists q. split; [exact E|exact X].
Qed.

Theorem plus_exact : forall a b, bp_height a = bp_height b -> length (bp_path a) = length (bp_path b) ->
  Forall sorted (bp_path a) -> Forall sorted (bp_path b) -> small (bp_path a) -> small (bp_path b) -> aligned_levels (bp_path a) (bp_path b) ->
  levels_in tr 0 (bp_path a) -> levels_in tr 0 (bp_path b) -> complete a -> complete b ->
  exists s, bump_plus ins a b = Some s /\ bp_height s = bp_height a /\ length (bp_path s) = length (bp_path a) /\
    tidy s /\ complete s /\ levels_in tr 0 (bp_path s) /\ small (bp_path s) /\ Forall sorted (bp_path s) /\
    (forall t, single_top (bp_path a) t -> single_top (bp_path b) t -> single_top (bp_path s) t) /\
    (forall o d, client_node s 0 o d <-> client_node a 0 o d \/ client_node b 0 o d) /\
    (forall j o d, client_node s j o d -> client_node a j o d \/ client_node b j o d).
Proof.
  intros a b Hh L Fa Fb Ba Bb Al La Lb Ca Cb.
  destruct (combine_paths_exact (bp_path a) (bp_path b) 0 [] [] [] L Fa Fb Ba Bb Al La Lb Ca Cb) as (p & P1 & P2 & P3 & P4 & P5 & P6 & P7 & P8); [intros x; reflexivity|].
  destruct (trim_facts tr p [] 0 P3 P6 P5) as (T1 & T2 & T3 & T4 & T5 & T6).
  exists (mkbump (bp_height a) (trim_from [] p)). unfold bump_plus. rewrite Hh, N.eqb_refl. cbn [negb]. rewrite P1.
  split; [rewrite remove_exact; auto|]. cbn [bp_height bp_path]. split; [reflexivity|]. split; [congruence|]. split; [exact T1|]. split; [exact T2|]. split; [exact T3|].
  split.
  { clear -P4. generalize (@nil N) as g. induction p as [|l p IH]; intros g; [constructor|]. inversion P4; subst. cbn [trim_from]. constructor; [|apply IH; assumption].
    intros n N. apply H1. apply in_map_iff in N. destruct N as (x & <- & X). apply filter_In in X. apply in_map, X. }
  split; [exact T4|]. split; [|split].
  - intros t Sa Sb x. rewrite (T5 x), (P7 x), in_app_iff, (Sa x), (Sb x). tauto.
  - intros o d. unfold client_node. cbn [bp_path]. rewrite <- (P8 0%nat o d). split; [apply trim_clients|]. intros (q & E & X). destruct p as [|l p]; [discriminate|].
    cbn [nth_error trim_from] in *. exists (filter (fun n => negb (existsb (N.eqb (n_offset n)) [])) l). split; [reflexivity|]. apply filter_In. split; [congruence|reflexivity].
  - intros j o d X. apply (P8 j o d). apply trim_clients in X. exact X.
Qed.

Theorem branch_plus : forall h b b', l_index (b_leaf b) < 4294967296 -> l_index (b_leaf b') < 4294967296 -> b_digests b <> [] ->
  length (b_digests b) = length (b_digests b') -> l_index (b_leaf b) / 2 ^ N.of_nat (length (b_digests b)) = l_index (b_leaf b') / 2 ^ N.of_nat (length (b_digests b)) ->
  l_digest (b_leaf b) = tr 0 (l_index (b_leaf b)) -> l_digest (b_leaf b') = tr 0 (l_index (b_leaf b')) ->
  branch_in tr 0 (l_index (b_leaf b)) (b_digests b) -> branch_in tr 0 (l_index (b_leaf b')) (b_digests b') ->
  exists s, bump_plus ins (bump_of_branch ins h b) (bump_of_branch ins h b') = Some s /\ tidy s /\ length (bp_path s) = length (b_digests b) /\
    bump_root H ins s = Ret (tr (length (b_digests b)) (l_index (b_leaf b) / 2 ^ N.of_nat (length (b_digests b)))) /\
    (forall j o d, client_node s j o d <-> j = 0%nat /\ (mkleaf d o = b_leaf b \/ mkleaf d o = b_leaf b')).
Proof.
  intros h b b' L L' Ne Ll T E E' B B'. assert (Ne' : b_digests b' <> []) by (destruct (b_digests b); [congruence|]; destruct (b_digests b'); [discriminate|congruence]).
  destruct (branch_facts h b L Ne E B) as (A1 & A2 & A3 & A4 & A5 & A6 & A7 & A8). destruct (branch_facts h b' L' Ne' E' B') as (B1 & B2 & B3 & B4 & B5 & B6 & B7 & B8).
  destruct (plus_exact (bump_of_branch ins h b) (bump_of_branch ins h b')) as (s & S1 & S2 & S3 & S4 & S5 & S6 & S7 & S8 & S9 & S10 & S11); auto.
  { congruence. }
  { apply branch_aligned; assumption. }
  exists s. split; [exact S1|]. split; [exact S4|]. split; [congruence|]. split.
  - rewrite A5 in S3. rewrite <- S3. apply root_tree; auto. rewrite S3. apply S9; [exact A6|]. rewrite T, Ll. exact B6.
  - intros j o d. split.
    + intros X. destruct (S11 j o d X) as [Y|Y]; [pose proof (A8 _ _ _ Y)|pose proof (B8 _ _ _ Y)]; subst j; (split; [reflexivity|]).
      * left. apply A7 in Y. destruct Y as [-> ->]. destruct (b_leaf b); reflexivity.
      * right. apply B7 in Y. destruct Y as [-> ->]. destruct (b_leaf b'); reflexivity.
    + intros [-> X]. apply S10. destruct X as [X|X]; [left; apply A7|right; apply B7]; rewrite <- X; auto.
Qed.

End Sum.
