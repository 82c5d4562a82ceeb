(* BUMP: the root and the paths read from it. *)
From Verif Require Import Base BaseProofs WireModel WireSpec MerkleModel MerkleSpec MerkleProofs MerkleTreeProofs DualProofs BumpModel BumpSpec BumpProofs.
From Coq Require Import Sorting.Permutation.
From Coq Require Import ZifyBool ZifyNat ZifyN.
Ltac Zify.zify_post_hook ::= Z.div_mod_to_equations.
Local Open Scope N_scope.

Lemma pair_ind : forall A (P : list A -> Prop), P [] -> (forall a, P [a]) -> (forall a b l, P l -> P (a :: b :: l)) -> forall l, P l.
Proof. intros A P P0 P1 P2. fix IH 1. intros [|a [|b l]]; [exact P0|apply P1|apply P2, IH]. Qed.

Lemma merge_disjoint : forall A (off : A -> N) pick a b, (forall x y, In x a -> In y b -> off x <> off y) ->
  Permutation (merge off pick a b) (a ++ b).
Proof.
  induction a as [|x a IH]; intros b D; [reflexivity|].
  induction b as [|y b IHb]; cbn [merge].
  - cbn [app]. apply perm_skip, IH. intros ? ? ? [].
  - pose proof (D x y (or_introl eq_refl) (or_introl eq_refl)) as Ne.
    destruct (N.ltb_spec (off x) (off y)).
    + cbn [app]. apply perm_skip, IH. intros; apply D; [right; assumption|assumption].
    + replace (off y <? off x) with true by lia.
      change ((x :: a) ++ y :: b) with (x :: a ++ y :: b).
      etransitivity; [apply perm_skip; apply IHb; intros; apply D; [assumption|right; assumption]|].
      cbn [app]. rewrite perm_swap. apply perm_skip. apply Permutation_middle.
Qed.

Lemma tidy_from_incl : forall path g g', (forall x, In x g' -> In x g) -> tidy_from g path -> tidy_from g' path.
Proof.
  induction path as [|l path IH]; intros g g' Sub T; [exact I|]. destruct T as (T1 & T2 & T3). split; [exact T1|]. split.
  - intros x X Y. apply (T2 x X), Sub, Y.
  - apply (IH (map (fun x => x / 2) (g ++ offsets l))); [|exact T3]. intros x X. apply in_map_iff in X. destruct X as (y & E & Y).
    apply in_map_iff. exists y. split; [exact E|]. apply in_app_or in Y. apply in_or_app. destruct Y; auto.
Qed.

Lemma NoDup_map_by : forall A B C (f : A -> B) (g : A -> C) l, NoDup (map f l) ->
  (forall x y, In x l -> In y l -> g x = g y -> f x = f y) -> NoDup (map g l).
Proof.
  induction l as [|x l IH]; intros ND E; [constructor|]. cbn [map] in *. inversion ND as [|? ? N1 N2]; subst. constructor.
  - intros X. apply in_map_iff in X. destruct X as (y & G & Y). apply N1. apply in_map_iff. exists y.
    split; [|exact Y]. apply E; [right; exact Y|left; reflexivity|exact G].
  - apply IH; [exact N2|]. intros; apply E; auto; right; assumption.
Qed.

Lemma path_insert_all_app : forall dup a b m, path_insert_all dup m (a ++ b) =
  match path_insert_all dup m a with Some m' => path_insert_all dup m' b | None => None end.
Proof.
  intros dup. induction a as [|[k v] a IH]; intros b m; cbn [app path_insert_all]; [reflexivity|].
  destruct (path_insert dup m k v); [apply IH|reflexivity].
Qed.

Lemma path_insert_picks : forall dup, dup_picks dup -> forall m k v m', path_insert dup m k v = Some m' ->
  (forall e, In e m' -> e = (k, v) \/ In e m).
Proof.
  intros dup P. induction m as [|[k0 v0] m IH]; intros k v m' E e; cbn [path_insert] in E.
  - assert (m' = [(k, v)]) by congruence. subst m'. intros [<-|[]]. auto.
  - destruct (bytes_eqb k k0) eqn:K.
    + apply MerkleTreeProofs.bytes_eqb_eq in K. subst k0. destruct dup as [f|]; [|discriminate]. assert (m' = (k, f v0 v) :: m) by congruence. subst m'.
      intros [<-|X]; [|right; right; exact X]. destruct (P v0 v) as [-> | ->]; [right; left; reflexivity|left; reflexivity].
    + destruct (path_insert dup m k v) as [m1|] eqn:E1; [|discriminate]. cbn [option_map] in E. assert (m' = (k0, v0) :: m1) by congruence. subst m'.
      intros [<-|X]; [right; left; reflexivity|]. destruct (IH _ _ _ E1 e X); [left; assumption|right; right; assumption].
Qed.

Lemma path_insert_all_picks : forall dup, dup_picks dup -> forall l m m', path_insert_all dup m l = Some m' ->
  (forall e, In e m' -> In e l \/ In e m).
Proof.
  intros dup P. induction l as [|[k v] l IH]; intros m m' E e X; cbn [path_insert_all] in E; [right; congruence|].
  destruct (path_insert dup m k v) as [m1|] eqn:E1; [|discriminate]. destruct (IH _ _ E e X) as [Y|Y]; [left; right; exact Y|].
  destruct (path_insert_picks dup P _ _ _ _ E1 e Y) as [-> |Z]; [left; left; reflexivity|right; exact Z].
Qed.

Section Paths.
Variable H : bytes -> bytes.
Variable ins : forall A, (A -> N) -> A -> list A -> list A.
Hypothesis Ins : ordered_insert ins.

(* neighbours joined *)
Inductive paired : list smash -> list smash -> Prop :=
| paired_nil : paired [] []
| paired_cons : forall a b m u ms, smash_together H a b = Some m -> s_offset a = 2 * s_offset m -> s_offset b = 2 * s_offset m + 1 ->
    paired u ms -> paired (a :: b :: u) (m :: ms).

Lemma made_offset : forall o f d a b, s_offset (Made (mknode o f d) a b) = o.
Proof. reflexivity. Qed.

Lemma paired_In : forall u ms, paired u ms -> forall z, In z ms -> exists a b, In a u /\ In b u /\ smash_together H a b = Some z /\
  s_offset a = 2 * s_offset z /\ s_offset b = 2 * s_offset z + 1.
Proof.
  induction 1 as [|a b m u ms E A B P IH]; intros z X; [destruct X|]. destruct X as [<-|X].
  - exists a, b. cbn [In]. auto 6.
  - destruct (IH z X) as (a' & b' & I1 & I2 & R). exists a', b'. cbn [In]. auto 6.
Qed.

Lemma paired_In_inv : forall u ms, paired u ms -> forall x, In x u -> exists z a b, In z ms /\ smash_together H a b = Some z /\ (x = a \/ x = b).
Proof.
  induction 1 as [|a b m u ms E A B P IH]; intros x X; [destruct X|]. destruct X as [<-|[<-|X]].
  - exists m, a, b. cbn [In]. auto.
  - exists m, a, b. cbn [In]. auto.
  - destruct (IH x X) as (z & a' & b' & I1 & R). exists z, a', b'. cbn [In]. auto.
Qed.

Lemma paired_even : forall u ms, paired u ms -> Nat.odd (length u) = false.
Proof. induction 1; [reflexivity|]. exact IHpaired. Qed.

Lemma step_loop_app : forall a b acc, Nat.odd (length a) = false ->
  step_loop H ins (a ++ b) acc = match step_loop H ins a acc with Ret c => step_loop H ins b c | Throw e => Throw e | Undef => Undef end.
Proof.
  fix IH 1. intros [|x [|y a]] b acc O.
  - reflexivity.
  - discriminate.
  - cbn [app step_loop]. destruct (_ && _); [|reflexivity].
    destruct (n_digest y); [|reflexivity]. destruct (if is_duplicate x then _ else _); [|reflexivity]. apply IH. exact O.
Qed.

Lemma step_paired : forall u c, ascending (map s_offset u) -> Nat.odd (length u) = false ->
  step_loop H ins (rev (map s_node u)) [] = Ret c ->
  exists ms, paired u ms /\ map s_node ms = c /\ ascending (map s_offset ms).
Proof.
  intros u. induction u as [|a|a b u IH] using pair_ind; intros c S O E.
  - exists []. assert (c = []) by (cbn in E; congruence). subst c. split; [constructor|split; [reflexivity|exact I]].
  - discriminate.
  - cbn [map rev] in E. rewrite <- app_assoc in E. cbn [app] in E. rewrite step_loop_app in E
      by (rewrite rev_length, map_length; exact O).
    destruct (step_loop H ins (rev (map s_node u)) []) as [c0| |] eqn:E0; try discriminate.
    cbn [map] in S. destruct S as (S1 & S2 & S3). destruct (IH c0 S3 O eq_refl) as (ms & P & M & Sm). subst c0.
    cbn [step_loop] in E. destruct (_ && _) eqn:C; [|discriminate].
    destruct (n_digest (s_node a)) as [da|] eqn:Da; [|discriminate].
    destruct (if is_duplicate (s_node b) then Some da else n_digest (s_node b)) as [db|] eqn:Db; [|discriminate].
    apply andb_true_iff in C. destruct C as [C1 C2]. apply N.eqb_eq in C1, C2.
    pose proof (S1 (s_offset b) (or_introl eq_refl)) as Lt. unfold s_offset at 1 2 in Lt. unfold w64 in C2.
    assert (Ob : s_offset b = s_offset a + 1) by (unfold s_offset; lia). fold (s_offset b) in C1. fold (s_offset a) in C1.
    assert (Oa : s_offset a = 2 * (s_offset b / 2)) by lia.
    assert (F : forall y, In y (map s_offset ms) -> s_offset b / 2 < y).
    { intros y Y. apply in_map_iff in Y. destruct Y as (z & <- & Z). destruct (paired_In _ _ P z Z) as (a' & b' & I1 & I2 & J & J1 & J2).
      assert (I1' : In (s_offset a') (map s_offset u)) by (apply in_map, I1). specialize (S2 _ I1'). lia. }
    unfold insert in E. rewrite ins_front in E.
    + exists (Made (mknode (s_offset a / 2) flag_intermediate (Some (H (da ++ db)))) a b :: ms).
      assert (Half : s_offset b / 2 = s_offset a / 2) by lia.
      split; [|split].
      * constructor; [unfold smash_together; rewrite Da; rewrite Db; reflexivity| | |exact P]; rewrite made_offset; lia.
      * cbn [map s_node]. assert (E' : c = mknode (n_offset (s_node b) / 2) flag_intermediate (Some (H (da ++ db))) :: map s_node ms) by congruence.
        rewrite E'. fold (s_offset b). rewrite Half. reflexivity.
      * cbn [map]. split; [|exact Sm]. intros y Y. specialize (F y Y). unfold s_offset at 1. cbn [s_node n_offset]. lia.
    + exact Ins.
    + intros y Y. cbn [n_offset]. fold (s_offset b). apply F. rewrite map_map in Y. exact Y.
Qed.

Lemma smash_pairs_paired : forall u ms, paired u ms -> forall acc, ascending (map s_offset (acc ++ ms)) -> smash_pairs H ins u acc = Some (acc ++ ms).
Proof.
  induction 1 as [|a b m u ms E A B P IH]; intros acc S; cbn [smash_pairs]; [rewrite app_nil_r; reflexivity|].
  rewrite E. rewrite ins_back.
  - rewrite IH; rewrite <- app_assoc; [reflexivity|exact S].
  - exact Ins.
  - clear -S. induction acc as [|x acc IH]; [intros ? []|]. cbn [app map] in S. destruct S as [S1 S2]. intros y [<-|Y]; [|apply IH; assumption].
    apply S1. rewrite map_app. apply in_or_app. right. left. reflexivity.
Qed.

(* one level up *)
Lemma layer : forall s l c, ascending (map s_offset s) -> sorted l -> (forall x, In x (offsets l) -> ~ In x (map s_offset s)) ->
  step H ins (combine ins (map s_node s) l) = Ret c ->
  exists u ms, path_next_layer H ins s l = Some ms /\ paired u ms /\ map s_node ms = c /\ ascending (map s_offset ms) /\ Permutation u (s ++ map Given l).
Proof.
  intros s l c Ss Sl D E. unfold path_next_layer.
  set (u := fold_left _ _ _).
  assert (P0 : Permutation (merge s_offset (fun a _ => a) (rev s) (map Given (rev l))) (s ++ map Given l)).
  { rewrite merge_disjoint.
    - rewrite map_rev. apply Permutation_app; symmetry; apply Permutation_rev.
    - intros x y X Y. apply in_map_iff in Y. destruct Y as (n & <- & Y). apply in_rev in X, Y. intros Q.
      apply (D (n_offset n)); [apply in_map, Y|]. change (n_offset n) with (s_offset (Given n)). rewrite <- Q. apply in_map, X. }
  assert (ND : NoDup (map s_offset (s ++ map Given l))).
  { rewrite map_app, map_map. change (map (fun x => s_offset (Given x)) l) with (offsets l). clear -Ss Sl D. revert Ss D.
    induction s as [|x s IH]; intros Ss D; [apply ascending_NoDup, Sl|]. cbn [map app]. destruct Ss as [S1 S2]. constructor.
    - intros X. apply in_app_or in X. destruct X as [X|X]; [specialize (S1 _ X); lia|]. apply (D _ X). left. reflexivity.
    - apply IH; [exact S2|]. intros y Y Z. apply (D y Y). right. exact Z. }
  destruct (fold_ins ins Ins smash s_offset (merge s_offset (fun a _ => a) (rev s) (map Given (rev l))) []) as [U1 U2].
  { rewrite app_nil_r. apply (Permutation_NoDup (Permutation_map s_offset (Permutation_sym P0)) ND). }
  { exact I. }
  fold u in U1, U2. rewrite app_nil_r in U2.
  assert (C : combine ins (map s_node s) l = map s_node u).
  { unfold combine, insert_all. apply (fold_ins_is ins Ins).
    - rewrite map_map. exact U1.
    - rewrite merge_disjoint.
      + rewrite <- Permutation_rev, <- Permutation_rev. rewrite U2. rewrite P0. rewrite map_app, map_map. cbn [s_node]. rewrite map_id. reflexivity.
      + intros x y X Y. apply in_rev in X, Y. apply in_map_iff in X. destruct X as (z & <- & X). intros Q.
        apply (D (n_offset y)); [apply in_map, Y|]. rewrite <- Q. apply (in_map s_offset) in X. exact X. }
  rewrite C in E. unfold step in E. rewrite map_length in E. destruct (Nat.odd (length u)) eqn:O; [discriminate|].
  destruct (step_paired u c U1 O E) as (ms & Q1 & Q2 & Q3). exists u, ms. split; [|split; [exact Q1|split; [exact Q2|split; [exact Q3|]]]].
  - apply (smash_pairs_paired u ms Q1 []). exact Q3.
  - rewrite U2. exact P0.
Qed.

(* what is read from a joined node *)
Definition add_step (s : option bytes) (e : bytes * path) : bytes * path :=
  (fst e, mkpath (p_index (snd e)) (p_digests (snd e) ++ [s])).
Definition right_digest (l r : smash) : option bytes := if is_duplicate (s_node r) then n_digest (s_node l) else n_digest (s_node r).
Fixpoint entries (z : smash) : list (bytes * path) :=
  match z with
  | Given n => if is_client n then match n_digest n with Some k => [(k, mkpath (n_offset n) [])] | None => [] end else []
  | Made _ l r => map (add_step (right_digest l r)) (entries l) ++ map (add_step (n_digest (s_node l))) (entries r)
  end.
Fixpoint good (z : smash) : Prop :=
  match z with
  | Given _ => True
  | Made n l r => smash_together H l r = Some z /\ s_offset l = 2 * n_offset n /\ s_offset r = 2 * n_offset n + 1 /\ good l /\ good r
  end.

Lemma together_inv : forall a b z, smash_together H a b = Some z -> exists da db, n_digest (s_node a) = Some da /\ right_digest a b = Some db /\
  z = Made (mknode (s_offset a / 2) flag_intermediate (Some (H (da ++ db)))) a b.
Proof.
  intros a b z E. unfold smash_together in E. destruct (n_digest (s_node a)) as [da|] eqn:Da; [|discriminate].
  unfold right_digest. rewrite Da. destruct (if is_duplicate (s_node b) then Some da else n_digest (s_node b)) as [db|]; [|discriminate].
  exists da, db. split; [reflexivity|]. split; [reflexivity|]. congruence.
Qed.

Lemma client_not_dup : forall n, is_client n = true -> is_duplicate n = false.
Proof. intros n E. unfold is_client, is_duplicate in *. apply byte_eqb_eq in E. rewrite E. reflexivity. Qed.

Lemma together_clients : forall a b z, smash_together H a b = Some z ->
  (is_client (s_node a) = true -> n_digest (s_node a) <> None) /\ (is_client (s_node b) = true -> n_digest (s_node b) <> None).
Proof.
  intros a b z E. destruct (together_inv _ _ _ E) as (da & db & Da & Db & _). split; [congruence|].
  intros C. unfold right_digest in Db. rewrite (client_not_dup _ C) in Db. congruence.
Qed.

Definition append_to (d : digests) (e : bytes * path) : bytes * path := (fst e, mkpath (p_index (snd e)) (p_digests (snd e) ++ d)).

Lemma append_add : forall s d l, map (append_to d) (map (add_step s) l) = map (append_to (s :: d)) l.
Proof.
  intros s d l. rewrite map_map. apply map_ext. intros [k p]. unfold append_to, add_step. cbn [fst snd p_index p_digests].
  rewrite <- app_assoc. reflexivity.
Qed.

Lemma read_down_entries : forall dup z m d, good z -> (is_client (s_node z) = true -> n_digest (s_node z) <> None) ->
  read_down dup m z d = path_insert_all dup m (map (append_to d) (entries z)).
Proof.
  intros dup. induction z as [n|n l IHl r IHr]; intros m d G C.
  - cbn [read_down s_node entries] in *. destruct (is_client n); [|reflexivity]. destruct (n_digest n) as [k|]; [|exfalso; apply C; reflexivity].
    cbn [map append_to fst snd p_index p_digests app path_insert_all]. unfold s_offset. cbn [s_node].
    destruct (path_insert dup m k (mkpath (n_offset n) d)); reflexivity.
  - destruct G as (T & _ & _ & Gl & Gr). destruct (together_inv _ _ _ T) as (da & db & Da & Db & En).
    destruct (together_clients _ _ _ T) as [Cl Cr].
    assert (Nn : n = mknode (s_offset l / 2) flag_intermediate (Some (H (da ++ db)))) by congruence.
    cbn [read_down s_node]. replace (is_client n) with false by (rewrite Nn; reflexivity).
    unfold right_digest in Db. rewrite Db, Da. rewrite IHl by assumption. cbn [entries]. rewrite map_app, !append_add.
    rewrite path_insert_all_app. unfold right_digest. rewrite Db, Da.
    destruct (path_insert_all dup m _); [|reflexivity]. apply IHr; assumption.
Qed.

Lemma entries_climb : forall z D, good z -> n_digest (s_node z) = Some D -> forall k p, In (k, p) (entries z) ->
  climb H (mkleaf k (p_index p)) (p_digests p) = mkleaf D (s_offset z).
Proof.
  induction z as [n|n l IHl r IHr]; intros D G E k p X.
  - cbn [entries s_node] in *. destruct (is_client n); [|destruct X]. rewrite E in X. destruct X as [X|[]].
    assert (k = D /\ p = mkpath (n_offset n) []) as [-> ->] by (split; congruence). reflexivity.
  - destruct G as (T & Ol & Or & Gl & Gr). destruct (together_inv _ _ _ T) as (da & db & Da & Db & En).
    assert (Nn : n = mknode (s_offset l / 2) flag_intermediate (Some (H (da ++ db)))) by congruence.
    cbn [s_node] in E. assert (D = H (da ++ db)) by (rewrite Nn in E; cbn [n_digest] in E; congruence). subst D.
    cbn [entries] in X. apply in_app_or in X. destruct X as [X|X]; apply in_map_iff in X; destruct X as ([k' p'] & A & X);
      unfold add_step in A; cbn [fst snd] in A;
      assert (k' = k /\ p = mkpath (p_index p') (p_digests p' ++ [if Nat.eq_dec 0 0 then _ else None])) as [-> ->]
        by (split; [congruence|]; etransitivity; [symmetry; exact (f_equal snd A)|reflexivity]); cbn [p_index p_digests]; rewrite climb_app.
    + rewrite (IHl da Gl Da k p' X). rewrite Db. cbn [climb]. unfold leaf_next, sibling, hcat. cbn [l_index l_digest].
      rewrite Ol. replace (N.odd (2 * n_offset n)) with false by (symmetry; rewrite N.odd_mul; reflexivity).
      unfold s_offset at 1. cbn [s_node]. f_equal. lia.
    + unfold right_digest in Db. destruct (is_duplicate (s_node r)) eqn:Du.
      * exfalso. destruct r as [nr|nr rl rr].
        { cbn [entries s_node] in *. destruct (is_client nr) eqn:C; [|destruct X]. rewrite (client_not_dup _ C) in Du. discriminate. }
        { destruct Gr as (T' & _). destruct (together_inv _ _ _ T') as (? & ? & _ & _ & En'). assert (nr = mknode (s_offset rl / 2) flag_intermediate (Some (H (x ++ x0)))) by congruence.
          subst nr. discriminate. }
      * rewrite (IHr db Gr Db k p' X). rewrite Da. cbn [climb]. unfold leaf_next, sibling, hcat. cbn [l_index l_digest].
        rewrite Or. replace (N.odd (2 * n_offset n + 1)) with true by (rewrite N.odd_add, N.odd_mul; reflexivity).
        unfold s_offset at 1. cbn [s_node]. f_equal. lia.
Qed.

Lemma entries_digest : forall z, good z -> entries z <> [] -> n_digest (s_node z) <> None.
Proof.
  intros [n|n l r] G E.
  - cbn [entries s_node] in *. destruct (is_client n); [|congruence]. destruct (n_digest n); congruence.
  - destruct G as (T & _). destruct (together_inv _ _ _ T) as (da & db & Da & Db & En).
    assert (Nn : n = mknode (s_offset l / 2) flag_intermediate (Some (H (da ++ db)))) by congruence. subst n. discriminate.
Qed.

Definition position (e : bytes * path) : N * nat := (p_index (snd e), length (p_digests (snd e))).

Lemma entries_position : forall z e, good z -> In e (entries z) -> p_index (snd e) / 2 ^ N.of_nat (length (p_digests (snd e))) = s_offset z.
Proof.
  intros z [k p] G X. destruct (n_digest (s_node z)) as [D|] eqn:E.
  - pose proof (entries_climb z D G E k p X) as C. apply (f_equal l_index) in C. rewrite climb_index in C. exact C.
  - exfalso. apply (entries_digest z G); [|exact E]. intros N. rewrite N in X. destruct X.
Qed.

Lemma NoDup_app_intro : forall A (a b : list A), NoDup a -> NoDup b -> (forall x, In x a -> ~ In x b) -> NoDup (a ++ b).
Proof.
  induction a as [|x a IH]; intros b A1 B1 D; [exact B1|]. inversion A1 as [|? ? N1 N2]; subst. cbn [app]. constructor.
  - intros X. apply in_app_or in X. destruct X as [X|X]; [contradiction|]. apply (D x); [left; reflexivity|exact X].
  - apply IH; auto. intros y Y. apply D. right. exact Y.
Qed.

Lemma NoDup_map_succ : forall s l, NoDup (map position l) -> NoDup (map position (map (add_step s) l)).
Proof.
  intros s l ND. rewrite map_map. apply (NoDup_map_by _ _ _ position); [exact ND|]. intros x y _ _ E. unfold position, add_step in *.
  cbn [fst snd p_index p_digests] in E. rewrite !app_length in E. cbn [length] in E.
  assert (A := f_equal fst E). assert (B := f_equal snd E). cbn [fst snd] in A, B. f_equal; lia.
Qed.

Lemma entries_NoDup : forall z, good z -> NoDup (map position (entries z)).
Proof.
  induction z as [n|n l IHl r IHr]; intros G.
  - cbn [entries]. destruct (is_client n); [destruct (n_digest n)|]; cbn [map]; repeat constructor. intros [].
  - destruct G as (T & Ol & Or & Gl & Gr). cbn [entries]. rewrite map_app. apply NoDup_app_intro; [apply NoDup_map_succ; auto|apply NoDup_map_succ; auto|].
    intros x X Y. apply in_map_iff in X, Y. destruct X as (e & E1 & X), Y as (f & F1 & Y). apply in_map_iff in X, Y.
    destruct X as (e' & E2 & X), Y as (f' & F2 & Y). subst e f x. unfold position, add_step in F1. cbn [fst snd p_index p_digests] in F1.
    rewrite !app_length in F1. cbn [length] in F1. assert (A := f_equal fst F1). assert (B := f_equal snd F1). cbn [fst snd] in A, B.
    pose proof (entries_position l e' Gl X) as P1. pose proof (entries_position r f' Gr Y) as P2.
    assert (B' : length (p_digests (snd e')) = length (p_digests (snd f'))) by lia. rewrite A, <- B' in P2. lia.
Qed.

(* which client nodes end up where; [done]: the levels so far *)
Definition bounded (done : list level) (s : list smash) : Prop :=
  forall z k o ds, In z s -> In (k, mkpath o ds) (entries z) -> (length ds <= length done)%nat.
Definition seen (done : list level) (s : list smash) : Prop :=
  bounded done s /\ forall j n o k, (j + n = length done)%nat ->
  ((exists z ds, In z s /\ In (k, mkpath o ds) (entries z) /\ length ds = n) <->
   (exists l, nth_error done j = Some l /\ In (mknode o flag_client (Some k)) l)).

Lemma paired_entries : forall u ms, paired u ms -> forall k o n,
  (exists z ds, In z ms /\ In (k, mkpath o ds) (entries z) /\ length ds = n) <->
  (exists z ds, In z u /\ In (k, mkpath o ds) (entries z) /\ S (length ds) = n).
Proof.
  intros u ms P k o n. split.
  - intros (z & ds & X & E & L). destruct (paired_In _ _ P z X) as (a & b & Ia & Ib & T & _).
    destruct (together_inv _ _ _ T) as (da & db & _ & _ & ->). cbn [entries] in E. apply in_app_or in E.
    destruct E as [E|E]; apply in_map_iff in E; destruct E as ([k' p'] & A & E); unfold add_step in A; cbn [fst snd] in A.
    + exists a, (p_digests p'). split; [exact Ia|]. assert (k' = k) by congruence. subst k'.
      assert (A2 : mkpath (p_index p') (p_digests p' ++ [right_digest a b]) = mkpath o ds) by congruence.
      assert (o = p_index p') by (apply (f_equal p_index) in A2; symmetry; exact A2). apply (f_equal p_digests) in A2. cbn [p_digests] in A2.
      subst o ds. rewrite app_length in L. cbn [length] in L. split; [destruct p'; exact E|lia].
    + exists b, (p_digests p'). split; [exact Ib|]. assert (k' = k) by congruence. subst k'.
      assert (A2 : mkpath (p_index p') (p_digests p' ++ [n_digest (s_node a)]) = mkpath o ds) by congruence.
      assert (o = p_index p') by (apply (f_equal p_index) in A2; symmetry; exact A2). apply (f_equal p_digests) in A2. cbn [p_digests] in A2.
      subst o ds. rewrite app_length in L. cbn [length] in L. split; [destruct p'; exact E|lia].
  - intros (x & ds & X & E & L). destruct (paired_In_inv _ _ P x X) as (z & a & b & Iz & T & C).
    destruct (together_inv _ _ _ T) as (da & db & _ & _ & ->). destruct C as [-> | ->].
    + exists (Made (mknode (s_offset a / 2) flag_intermediate (Some (H (da ++ db)))) a b), (ds ++ [right_digest a b]).
      split; [exact Iz|]. split; [|rewrite app_length; cbn [length]; lia]. cbn [entries]. apply in_or_app. left.
      apply in_map_iff. exists (k, mkpath o ds). split; [reflexivity|exact E].
    + exists (Made (mknode (s_offset a / 2) flag_intermediate (Some (H (da ++ db)))) a b), (ds ++ [n_digest (s_node a)]).
      split; [exact Iz|]. split; [|rewrite app_length; cbn [length]; lia]. cbn [entries]. apply in_or_app. right.
      apply in_map_iff. exists (k, mkpath o ds). split; [reflexivity|exact E].
Qed.

Lemma given_entries : forall n k o ds, In (k, mkpath o ds) (entries (Given n)) <-> ds = [] /\ n = mknode o flag_client (Some k).
Proof.
  intros [no f d] k o ds. cbn [entries n_digest n_offset]. unfold is_client. cbn [n_flag]. destruct (byte_eqb f flag_client) eqn:C.
  - apply byte_eqb_eq in C. subst f. destruct d as [d|].
    + cbn [In]. split.
      * intros [E|[]]. split; congruence.
      * intros [-> E]. left. congruence.
    + split; [intros []|]. intros [_ E]. discriminate.
  - split; [intros []|]. intros [_ E]. assert (f = flag_client) by congruence. subst f. rewrite byte_eqb_refl in C. discriminate.
Qed.

Lemma seen_next : forall done s l u ms, seen done s -> paired u ms -> Permutation u (s ++ map Given l) -> seen (done ++ [l]) ms.
Proof.
  intros done s l u ms [Bd Sn] P Pm. split.
  { intros z k o ds Z E. destruct (proj1 (paired_entries _ _ P k o (length ds))) as (z' & ds' & Z' & E' & L'); [exists z, ds; auto|].
    rewrite app_length. cbn [length]. apply (Permutation_in _ Pm) in Z'. apply in_app_or in Z'. destruct Z' as [Z'|Z'].
    - pose proof (Bd z' k o ds' Z' E'). lia.
    - apply in_map_iff in Z'. destruct Z' as (nd & <- & _). apply given_entries in E'. destruct E' as [-> _]. cbn [length] in L'. lia. }
  intros j n o k L. rewrite app_length in L. cbn [length] in L. rewrite (paired_entries _ _ P).
  split.
  - intros (z & ds & Z & E & Ln). apply (Permutation_in _ Pm) in Z. apply in_app_or in Z. destruct Z as [Z|Z].
    + destruct (proj1 (Sn j (length ds) o k ltac:(lia))) as (l' & N1 & N2); [exists z, ds; auto|]. exists l'. split; [|exact N2].
      rewrite nth_error_app1; [exact N1|]. apply nth_error_Some. congruence.
    + apply in_map_iff in Z. destruct Z as (nd & <- & Z). apply given_entries in E. destruct E as [-> ->]. cbn [length] in Ln.
      exists l. split; [|exact Z]. rewrite nth_error_app2 by lia. replace (j - length done)%nat with 0%nat by lia. reflexivity.
  - intros (l' & N1 & N2). destruct (Nat.eq_dec j (length done)) as [-> |Ne].
    + rewrite nth_error_app2, Nat.sub_diag in N1 by lia. assert (l' = l) by (cbn in N1; congruence). subst l'.
      exists (Given (mknode o flag_client (Some k))), []. split; [|split; [apply given_entries; auto|cbn [length]; lia]].
      apply (Permutation_in _ (Permutation_sym Pm)). apply in_or_app. right. apply in_map, N2.
    + assert (J : (j < length (done ++ [l]))%nat) by (apply nth_error_Some; congruence). rewrite app_length in J. cbn [length] in J.
      rewrite nth_error_app1 in N1 by lia.
      destruct (proj2 (Sn j (n - 1)%nat o k ltac:(lia))) as (z & ds & Z & E & Ln); [exists l'; auto|].
      exists z, ds. split; [|split; [exact E|lia]]. apply (Permutation_in _ (Permutation_sym Pm)). apply in_or_app. left. exact Z.
Qed.

Lemma paired_good : forall u ms, paired u ms -> Forall good u -> Forall good ms.
Proof.
  intros u ms P G. apply Forall_forall. intros z Z. destruct (paired_In _ _ P z Z) as (a & b & Ia & Ib & T & Oa & Ob).
  rewrite Forall_forall in G. destruct (together_inv _ _ _ T) as (da & db & _ & _ & E). subst z. cbn [good]. unfold s_offset in Oa at 2, Ob at 2. cbn [s_node] in Oa, Ob.
  split; [exact T|]. split; [exact Oa|]. split; [exact Ob|]. split; apply G; assumption.
Qed.

Lemma smash_all_exact : forall path s done r, ascending (map s_offset s) -> Forall good s -> seen done s -> (path <> [] \/ Forall (fun z => n_digest (s_node z) <> None) s) ->
  tidy_from (map s_offset s) path -> root_from H ins (map s_node s) path = Ret r -> r <> zero_digest ->
  exists z, smash_all H ins s path = Some [z] /\ good z /\ n_digest (s_node z) = Some r /\ seen (done ++ path) [z].
Proof.
  induction path as [|l path IH]; intros s done r Ss G Sn Ne T E Nz; cbn [root_from smash_all] in *.
  - destruct s as [|z [|? ?]]; cbn [map] in E; try (exfalso; apply Nz; congruence). exists z. inversion G; subst. rewrite app_nil_r.
    split; [reflexivity|]. split; [assumption|]. split; [|exact Sn]. destruct (n_digest (s_node z)) eqn:D; congruence.
  - destruct T as (T1 & T2 & T3). destruct (step H ins (combine ins (map s_node s) l)) as [c| |] eqn:St; try discriminate.
    destruct (layer s l c Ss T1 T2 St) as (u & ms & E1 & P & M & Sm & Pm). subst c. rewrite E1.
    destruct (IH ms (done ++ [l]) r) as (z & Z1 & Z2 & Z3 & Z4); auto.
    + apply (paired_good u ms P). apply (Permutation_Forall (Permutation_sym Pm)). apply Forall_app. split; [exact G|].
      apply Forall_forall. intros z Z. apply in_map_iff in Z. destruct Z as (n & <- & _). exact I.
    + apply (seen_next done s l u ms); assumption.
    + right. apply Forall_forall. intros z Z. destruct (paired_In _ _ P z Z) as (a & b & _ & _ & J & _).
      destruct (together_inv _ _ _ J) as (da & db & _ & _ & ->). discriminate.
    + apply (tidy_from_incl path (map (fun x => x / 2) (map s_offset s ++ offsets l))); [|exact T3].
      intros x X. apply in_map_iff in X. destruct X as (z & <- & Z). destruct (paired_In _ _ P z Z) as (a & b & Ia & _ & J & Oa & _).
      apply in_map_iff. exists (s_offset a). split; [lia|]. apply (Permutation_in _ Pm) in Ia. apply (in_map s_offset) in Ia.
      rewrite map_app, map_map in Ia. exact Ia.
    + rewrite <- app_assoc in Z4. exists z. auto.
Qed.

Lemma seen_nil : seen [] [].
Proof.
  split; [intros ? ? ? ? []|]. intros j n o k L. split; [intros (? & ? & [] & _)|]. intros (l & N1 & _). destruct j; discriminate.
Qed.

Lemma append_nil : forall l, map (append_to []) l = l.
Proof.
  intros l. rewrite <- (map_id l) at 2. apply map_ext. intros [k [i ds]]. unfold append_to. cbn [fst snd p_index p_digests]. rewrite app_nil_r. reflexivity.
Qed.

Lemma good_made_client : forall z r, good z -> n_digest (s_node z) = Some r -> is_client (s_node z) = true -> n_digest (s_node z) <> None.
Proof. congruence. Qed.

Theorem paths_sound : forall dup b r m, dup_picks dup -> tidy b -> bump_root H ins b = Ret r -> r <> zero_digest ->
  bump_paths H ins dup b = Some m -> forall k p, In (k, p) m -> derive_root H p k = r.
Proof.
  intros dup b r m Dp T E Nz M k p X.
  destruct (smash_all_exact (bp_path b) [] [] r I (Forall_nil _) seen_nil (or_intror (Forall_nil _)) T E Nz) as (z & Z1 & Z2 & Z3 & _).
  unfold bump_paths in M. rewrite Z1 in M. rewrite read_down_entries in M by (auto; congruence). rewrite append_nil in M.
  destruct (path_insert_all_picks dup Dp _ _ _ M _ X) as [Y|[]].
  unfold derive_root, root_leaf. rewrite (entries_climb z r Z2 Z3 k p Y). reflexivity.
Qed.

Theorem paths_exact : forall dup b r, tidy b -> bump_root H ins b = Ret r -> r <> zero_digest ->
  (forall j o j' o' k, client_node b j o k -> client_node b j' o' k -> j = j' /\ o = o') ->
  exists m, bump_paths H ins dup b = Some m /\ NoDup (map fst m) /\
    (forall k p, In (k, p) m -> derive_root H p k = r) /\
    (forall k p, In (k, p) m -> (length (p_digests p) <= length (bp_path b))%nat) /\
    (forall j o k, client_node b j o k <-> exists ds, In (k, mkpath o ds) m /\ (j + length ds = length (bp_path b))%nat).
Proof.
  intros dup b r T E Nz U.
  destruct (smash_all_exact (bp_path b) [] [] r I (Forall_nil _) seen_nil (or_intror (Forall_nil _)) T E Nz) as (z & Z1 & Z2 & Z3 & Z4).
  cbn [app] in Z4. destruct Z4 as [Bz Z4].
  assert (W : forall j o k, client_node b j o k <-> exists ds, In (k, mkpath o ds) (entries z) /\ (j + length ds = length (bp_path b))%nat).
  { intros j o k. split.
    - intros (l & N1 & N2). assert (J : (j < length (bp_path b))%nat) by (apply nth_error_Some; congruence).
      destruct (proj2 (Z4 j (length (bp_path b) - j)%nat o k ltac:(lia))) as (z' & ds & [<-|[]] & X & L); [exists l; auto|].
      exists ds. split; [exact X|lia].
    - intros (ds & X & L). apply (Z4 j (length ds) o k L). exists z, ds. split; [left; reflexivity|auto]. }
  assert (ND : NoDup (map fst (entries z))).
  { apply (NoDup_map_by _ _ _ position); [apply entries_NoDup, Z2|]. intros [k [o ds]] [k' [o' ds']] X Y Q. cbn [fst] in Q. subst k'.
    assert (B : forall o ds, In (k, mkpath o ds) (entries z) -> client_node b (length (bp_path b) - length ds) o k /\ (length ds <= length (bp_path b))%nat).
    { intros o0 ds0 X0. assert (Ln : (length ds0 <= length (bp_path b))%nat).
      { apply (Bz z k o0 ds0); [left; reflexivity|exact X0]. }
      split; [|exact Ln]. apply W. exists ds0. split; [exact X0|lia]. }
    destruct (B _ _ X) as [B1 L1]. destruct (B _ _ Y) as [B2 L2]. destruct (U _ _ _ _ _ B1 B2) as [U1 U2]. unfold position. cbn [snd p_index p_digests]. f_equal; [exact U2|lia]. }
  exists (entries z). split; [|split; [exact ND|split; [|split; [|exact W]]]].
  - unfold bump_paths. rewrite Z1, read_down_entries by (auto; congruence). rewrite append_nil.
    apply (path_insert_all_fresh dup (entries z) []). exact ND.
  - intros k p X. unfold derive_root, root_leaf. rewrite (entries_climb z r Z2 Z3 k p X). reflexivity.
  - intros k [o ds] X. apply (Bz z k o ds); [left; reflexivity|exact X].
Qed.

End Paths.
