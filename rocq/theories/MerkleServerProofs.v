(* tree::operator [], the proof server, conversions between server and tree. *)
From Verif Require Import Base BaseProofs MerkleModel MerkleSpec MerkleProofs MerkleTreeProofs.
From Coq Require Import ZifyBool ZifyNat ZifyN.
Ltac Zify.zify_post_hook ::= Z.div_mod_to_equations.
Local Open Scope N_scope.

Lemma width_width : forall n a b, width (width n a) b = width n (a + b).
Proof.
  intros n a b. induction b; cbn [width]; [rewrite Nat.add_0_r; reflexivity|].
  rewrite IHb. replace (a + S b)%nat with (S (a + b)) by lia. reflexivity.
Qed.

(* number of nodes on levels k .. k + m - 1 *)
Fixpoint nodes_from (n : N) (k m : nat) : N :=
  match m with O => 0 | S m' => width n k + nodes_from n (S k) m' end.

Lemma nodes_from_snoc : forall n m k, nodes_from n k (S m) = nodes_from n k m + width n (k + m).
Proof.
  intros n. induction m; intros k.
  - cbn [nodes_from]. rewrite Nat.add_0_r. lia.
  - change (nodes_from n k (S (S m))) with (width n k + nodes_from n (S k) (S m)). rewrite IHm. cbn [nodes_from].
    replace (S k + m)%nat with (k + S m)%nat by lia. lia.
Qed.

Lemma nodes_from_bound : forall n m k, nodes_from n k m <= 2 * width n k + N.of_nat m.
Proof.
  intros n. induction m; intros k; cbn [nodes_from]; [lia|].
  specialize (IHm (S k)). cbn [width] in IHm. lia.
Qed.

Lemma nodes_from_split : forall n a b k, nodes_from n k (a + b) = nodes_from n k a + nodes_from n (k + a) b.
Proof.
  intros n. induction a; intros b k; cbn [nodes_from Nat.add]; [rewrite Nat.add_0_r; lia|].
  rewrite IHa. replace (S k + a)%nat with (k + S a)%nat by lia. lia.
Qed.

Definition total_nodes (n : N) : N := nodes_from n 0 (S (depth n)).

Lemma total_nodes_bound : forall n, n <= 2147483600 -> total_nodes n < 4294967296.
Proof.
  intros n E. unfold total_nodes. pose proof (nodes_from_bound n (S (depth n)) 0). cbn [width] in *.
  assert (depth n <= 32)%nat by (apply depth_bound; change (2 ^ N.of_nat 32) with 4294967296; lia). lia.
Qed.

Section Server.
Variable H : bytes -> bytes.
Notation node := (node H).
Notation subtree := (subtree H).
Notation levels_from := (levels_from H).
Notation all_nodes := (all_nodes H).

(* ---- tree::operator [] ---- *)

Lemma at_loop_tail : forall k t last ds t' ds', at_loop k t last ds = Some (t', ds') ->
  exists pre, ds' = pre ++ ds /\ length pre = k.
Proof.
  induction k; intros t last ds t' ds' E; cbn [at_loop] in E.
  - injection E as <- <-. exists []. split; reflexivity.
  - destruct t as [|d a b]; [discriminate|]. apply IHk in E. destruct E as (pre & -> & L).
    exists (pre ++ [Some d]). rewrite <- app_assoc, app_length. split; [reflexivity|cbn [length]; lia].
Qed.

Lemma tree_at_outside : forall t i, t_width t <= i -> tree_at t i = Some empty_proof.
Proof. intros t i E. unfold tree_at. replace (t_width t <=? i) with true by lia. reflexivity. Qed.

Lemma tree_at_root_last : forall l i p, 1 < count l -> i < count l -> tree_at (tree_of H l) i = Some p ->
  pr_root p = merkle_root H l /\ l_index (b_leaf (pr_branch p)) = i /\
  exists pre, b_digests (pr_branch p) = pre ++ [Some (merkle_root H l)].
Proof.
  intros l i p W E A. unfold tree_at, tree_of in A. cbn [t_width t_height t_tree] in A.
  replace (count l <=? i) with false in A by lia.
  pose proof (depth_pos _ W) as D. destruct (depth (count l)) as [|k] eqn:Dk; [lia|].
  replace (N.to_nat (N.of_nat (S k) + 1 - 1)) with (S k) in A by lia.
  assert (M : merkle_root H l = node l (S k) 0) by (unfold merkle_root; rewrite Dk; reflexivity).
  cbn [MerkleSpec.subtree at_loop] in A.
  match type of A with match ?x with _ => _ end = _ => destruct x as [[t ds]|] eqn:L; [|discriminate] end.
  destruct t as [|d a b]; [discriminate|]. cbn [dt_root] in A.
  assert (p = mkproof (mkbranch (mkleaf d i) ds) (node l (S k) 0)) by congruence. subst p. cbn [pr_root pr_branch b_leaf b_digests l_index].
  apply at_loop_tail in L. destruct L as (pre & -> & _).
  split; [symmetry; exact M|]. split; [reflexivity|]. exists pre. rewrite M. reflexivity.
Qed.

Lemma tree_at_needs_cycle : forall l i p, 1 < count l -> i < count l -> tree_at (tree_of H l) i = Some p ->
  branch_root H (pr_branch p) = merkle_root H l ->
  exists y, H (y ++ merkle_root H l) = merkle_root H l \/ H (merkle_root H l ++ y) = merkle_root H l.
Proof.
  intros l i p W E A V. destruct (tree_at_root_last l i p W E A) as (_ & _ & pre & D).
  unfold branch_root, root_leaf in V. rewrite D, climb_app in V. cbn [climb sibling] in V.
  set (lf := climb H (b_leaf (pr_branch p)) pre) in *. unfold leaf_next, hcat in V. cbn [l_digest] in V.
  exists (l_digest lf). destruct (N.odd (l_index lf)); [right|left]; exact V.
Qed.

Lemma at_loop_left : forall l k ds, at_loop k (subtree l k 0) false ds = Some (subtree l 0 0, left_edge H l k ++ ds).
Proof.
  intros l. induction k; intros ds; [reflexivity|].
  cbn [MerkleSpec.subtree at_loop]. change (2 * 0) with 0. rewrite IHk. cbn [MerkleSpec.left_edge]. rewrite <- app_assoc. reflexivity.
Qed.

(* every index but the last gives the first leaf *)
Lemma tree_at_first_leaf : forall l i, i + 1 < count l ->
  tree_at (tree_of H l) i =
  Some (mkproof (mkbranch (mkleaf (nthd l 0) i) (left_edge H l (depth (count l)))) (merkle_root H l)).
Proof.
  intros l i E. unfold tree_at, tree_of. cbn [t_width t_height t_tree].
  replace (count l <=? i) with false by lia. replace (i =? count l - 1) with false by lia.
  replace (N.to_nat (N.of_nat (depth (count l)) + 1 - 1)) with (depth (count l)) by lia.
  rewrite at_loop_left, app_nil_r. cbn [MerkleSpec.subtree]. rewrite subtree_root. reflexivity.
Qed.

(* the last index walks off the tree unless every node on the right edge has a right child *)
Lemma at_loop_right : forall l k j ds, j + 1 = width (count l) k ->
  (j + 1) * 2 ^ N.of_nat k <> count l -> 0 < count l ->
  match at_loop k (subtree l k j) true ds with Some (Node _ _ _, _) => False | _ => True end.
Proof.
  intros l. induction k; intros j ds J NE Z.
  - cbn [width] in J. exfalso. apply NE. change (2 ^ N.of_nat 0) with 1. lia.
  - cbn [MerkleSpec.subtree at_loop]. cbn [width] in J.
    destruct (N.ltb_spec (2 * j + 1) (width (count l) k)) as [L|L].
    + apply IHk; [lia| |assumption]. intros X. apply NE. rewrite pow2_S. lia.
    + destruct k; cbn [at_loop]; exact I.
Qed.

Lemma tree_at_last_undefined : forall l, 0 < count l -> count l <> 2 ^ N.of_nat (depth (count l)) ->
  tree_at (tree_of H l) (count l - 1) = None.
Proof.
  intros l Z NE. unfold tree_at, tree_of. cbn [t_width t_height t_tree].
  replace (count l <=? count l - 1) with false by lia. rewrite N.eqb_refl.
  replace (N.to_nat (N.of_nat (depth (count l)) + 1 - 1)) with (depth (count l)) by lia.
  pose proof (at_loop_right l (depth (count l)) 0 []) as A.
  rewrite width_depth in A by assumption. specialize (A eq_refl). rewrite N.add_0_l, N.mul_1_l in A. specialize (A (not_eq_sym NE) Z).
  destruct (at_loop _ _ _ _) as [[[|d a b] ds]|]; tauto.
Qed.

(* ---- nodes in the array ---- *)

Lemma levels_count : forall l m k, count (levels_from l k m) = nodes_from (count l) k m.
Proof.
  intros l. induction m; intros k; cbn [MerkleSpec.levels_from nodes_from]; [reflexivity|].
  rewrite count_app, count_map, count_upto, IHm. reflexivity.
Qed.

Lemma levels_snoc : forall l m k, levels_from l k (S m) = levels_from l k m ++ map (node l (k + m)) (upto (width (count l) (k + m))).
Proof.
  intros l. induction m; intros k.
  - cbn [MerkleSpec.levels_from]. rewrite Nat.add_0_r, app_nil_r. reflexivity.
  - change (levels_from l k (S (S m))) with (map (node l k) (upto (width (count l) k)) ++ levels_from l (S k) (S m)).
    rewrite IHm. cbn [MerkleSpec.levels_from]. rewrite app_assoc.
    replace (S k + m)%nat with (k + S m)%nat by lia. reflexivity.
Qed.

Lemma map_upto_nth : forall A (f : N -> A) n j, j < n -> nth_error (map f (upto n)) (N.to_nat j) = Some (f j).
Proof.
  intros A f n j E. unfold upto. rewrite nth_error_map, upto_from_nth by lia. cbn [option_map]. do 2 f_equal. lia.
Qed.

Lemma levels_nth : forall l m k j, (k < m)%nat -> j < width (count l) k ->
  nth_error (levels_from l 0 m) (N.to_nat (nodes_from (count l) 0 k + j)) = Some (node l k j).
Proof.
  intros l m k j Km E.
  assert (G : forall m k0, (k0 <= k < k0 + m)%nat ->
     nth_error (levels_from l k0 m) (N.to_nat (nodes_from (count l) k0 (k - k0) + j)) = Some (node l k j)).
  { clear m Km. induction m; intros k0 R; [lia|].
    cbn [MerkleSpec.levels_from].
    assert (LL : length (map (node l k0) (upto (width (count l) k0))) = N.to_nat (width (count l) k0)).
    { rewrite map_length. unfold upto. apply upto_from_length. }
    destruct (Nat.eq_dec k0 k) as [->|NE].
    - rewrite Nat.sub_diag. cbn [nodes_from]. rewrite N.add_0_l.
      rewrite nth_error_app1 by (rewrite LL; lia). apply map_upto_nth, E.
    - replace (k - k0)%nat with (S (k - S k0)) by lia. cbn [nodes_from].
      rewrite nth_error_app2 by (rewrite LL; lia). rewrite LL.
      replace (N.to_nat (width (count l) k0 + nodes_from (count l) (S k0) (k - S k0) + j) - N.to_nat (width (count l) k0))%nat
        with (N.to_nat (nodes_from (count l) (S k0) (k - S k0) + j)) by lia.
      apply IHm. lia. }
  specialize (G m 0%nat ltac:(lia)). rewrite Nat.sub_0_r in G. exact G.
Qed.

Lemma all_nodes_last : forall l, l <> [] -> last_digest (all_nodes l) = Some (merkle_root H l).
Proof.
  intros l Ne. unfold MerkleSpec.all_nodes, last_digest. rewrite levels_snoc, Nat.add_0_l, (width_depth _ (nonempty_count _ Ne)).
  change (upto 1) with [0]. cbn [map]. rewrite rev_app_distr. reflexivity.
Qed.

(* ---- server::server (leaf_digests) ---- *)

Lemma totals_exact : forall n, 0 < n -> total_nodes n < 4294967296 -> forall fuel k, (k <= depth n)%nat -> (depth n - k <= fuel)%nat ->
  totals fuel (width n k) (nodes_from n 0 (S k)) (N.of_nat k + 1) = Some (total_nodes n, N.of_nat (depth n) + 1).
Proof.
  intros n Z T fuel. induction fuel; intros k Hk Hf.
  - replace k with (depth n) by lia. cbn [totals]. rewrite width_depth by assumption. reflexivity.
  - cbn [totals]. destruct (Nat.eq_dec k (depth n)) as [->|NE].
    + rewrite width_depth by assumption. reflexivity.
    + pose proof (width_below n k ltac:(lia)). replace (1 <? width n k) with true by lia. cbv zeta.
      assert (B : nodes_from n 0 (S (S k)) <= total_nodes n).
      { unfold total_nodes. replace (S (depth n)) with (S (S k) + (depth n - S k))%nat by lia. rewrite nodes_from_split. lia. }
      assert (B' := nodes_from_snoc n (S k) 0). rewrite Nat.add_0_l in B'.
      assert (B'' := nodes_from_snoc n k 0). rewrite Nat.add_0_l in B''.
      assert (B3 := width_pos n (S k) Z).
      assert (w32 (width n k + 1) / 2 = width n (S k)) as ->.
      { cbn [width]. unfold w32. rewrite N.mod_small; [reflexivity|]. lia. }
      rewrite <- (IHfuel (S k)) by lia. f_equal.
      * unfold w32. rewrite N.mod_small by lia. lia.
      * unfold w32. assert (depth n <= 32)%nat; [|lia]. apply depth_bound. change (2 ^ N.of_nat 32) with 4294967296.
        assert (n <= total_nodes n) by (unfold total_nodes; cbn [nodes_from width]; lia). lia.
Qed.

Lemma fill_exact : forall l, l <> [] -> forall fuel k, (k <= depth (count l))%nat -> (depth (count l) - k < fuel)%nat ->
  fill H fuel (rounds H k l) (levels_from l 0 k) (total_nodes (count l)) = Some (all_nodes l).
Proof.
  intros l Ne. assert (Z := nonempty_count l Ne). induction fuel; intros k Hk Hf; [lia|].
  cbn [fill]. rewrite rounds_list. replace (levels_from l 0 k ++ _) with (levels_from l 0 (S k)) by (rewrite levels_snoc; reflexivity).
  pose proof (levels_count l (S k) 0) as C. unfold count in C at 1. rewrite C.
  destruct (Nat.eq_dec k (depth (count l))) as [->|NE].
  - fold (total_nodes (count l)). rewrite N.ltb_irrefl, N.eqb_refl. reflexivity.
  - assert (B : nodes_from (count l) 0 (S k) < total_nodes (count l)).
    { unfold total_nodes. replace (S (depth (count l))) with (S k + S (depth (count l) - S k))%nat by lia. rewrite nodes_from_split.
      cbn [nodes_from]. pose proof (width_pos (count l) (0 + S k) Z). cbn [Nat.add] in *. lia. }
    replace (total_nodes (count l) <? nodes_from (count l) 0 (S k)) with false by lia.
    replace (nodes_from (count l) 0 (S k) =? total_nodes (count l)) with false by lia.
    rewrite <- (rounds_list H k l). change (MerkleModel.round H (rounds H k l)) with (rounds H (S k) l). apply IHfuel; lia.
Qed.

Lemma firstn_all_nodes : forall l, firstn (length l) (all_nodes l) = l.
Proof.
  intros l. unfold MerkleSpec.all_nodes. cbn [MerkleSpec.levels_from width].
  change (map (node l 0) (upto (count l))) with (map (nthd l) (upto (count l))). rewrite list_upto.
  rewrite firstn_app, firstn_all, Nat.sub_diag. cbn [firstn]. apply app_nil_r.
Qed.

Lemma skipn_all_nodes : forall l, skipn (length l) (all_nodes l) = levels_from l 1 (depth (count l)).
Proof.
  intros l. unfold MerkleSpec.all_nodes. cbn [MerkleSpec.levels_from width].
  change (map (node l 0) (upto (count l))) with (map (nthd l) (upto (count l))). rewrite list_upto.
  rewrite skipn_app, skipn_all, Nat.sub_diag. reflexivity.
Qed.

Lemma server_make_exact : forall dup l, l <> [] -> total_nodes (count l) < 4294967296 ->
  server_make H dup l = option_map (fun m => mkserver (all_nodes l) m (count l) (N.of_nat (depth (count l)) + 1)) (index_all dup [] l 0).
Proof.
  intros dup l Ne T. assert (Z := nonempty_count l Ne).
  assert (n32 : count l < 4294967296) by (unfold total_nodes in T; cbn [nodes_from width] in T; lia).
  unfold server_make. destruct l as [|a r]; [congruence|]. set (l := a :: r) in *.
  assert (w32 (N.of_nat (length l)) = count l) as -> by (unfold w32; apply N.mod_small; exact n32).
  pose proof (totals_exact (count l) Z T (length l) 0) as Tt. cbn [width nodes_from] in Tt. rewrite N.add_0_r in Tt.
  pose proof (depth_le (count l) Z) as Dl. unfold count in Dl at 2.
  change (N.of_nat 0 + 1) with 1 in Tt. rewrite Tt by lia.
  change l with (rounds H 0 l) at 2. change (@nil bytes) with (levels_from l 0 0) at 1. rewrite fill_exact by (assumption || lia).
  unfold count at 1. rewrite Nat2N.id, firstn_all_nodes. destruct (index_all dup [] l 0); reflexivity.
Qed.

(* the index map *)
Lemma index_get_insert : forall dup m k v m', index_insert dup m k v = Some m' -> index_get m k = 0 -> (forall x, In x (map snd m) -> x <> 0) ->
  index_get m' k = v /\ (forall k', k' <> k -> index_get m' k' = index_get m k') /\ (v <> 0 -> forall x, In x (map snd m') -> x <> 0).
Proof.
  intros dup. induction m as [|[k0 v0] m IH]; intros k v m' E G P; cbn [index_insert] in E.
  - injection E as <-. cbn [index_get]. rewrite bytes_eqb_refl. split; [reflexivity|]. split.
    + intros k' N. destruct (bytes_eqb k' k) eqn:B; [apply bytes_eqb_eq in B; congruence|reflexivity].
    + intros V x [<-|[]]; exact V.
  - cbn [index_get] in G. destruct (bytes_eqb k k0) eqn:B.
    + exfalso. apply (P v0); [left; reflexivity|exact G].
    + destruct (index_insert dup m k v) as [m1|] eqn:I; [|discriminate]. injection E as <-.
      destruct (IH k v m1 I G) as (A & C & D). { intros x X. apply P. right. exact X. }
      cbn [index_get]. rewrite B. split; [exact A|]. split.
      * intros k' N. destruct (bytes_eqb k' k0); [reflexivity|]. apply C, N.
      * intros V x [<-|X]; [apply P; left; reflexivity|apply D; assumption].
Qed.

Lemma index_insert_fresh : forall dup m k v, index_get m k = 0 -> (forall x, In x (map snd m) -> x <> 0) ->
  exists m', index_insert dup m k v = Some m'.
Proof.
  intros dup. induction m as [|[k0 v0] m IH]; intros k v G P; cbn [index_insert]; [eauto|].
  cbn [index_get] in G. destruct (bytes_eqb k k0) eqn:B.
  - exfalso. apply (P v0); [left; reflexivity|exact G].
  - destruct (IH k v G) as [m' ->]. { intros x X. apply P. right. exact X. } cbn [option_map]. eauto.
Qed.

Lemma index_all_exact : forall dup l m x, NoDup l -> (forall d, In d l -> index_get m d = 0) -> (forall v, In v (map snd m) -> v <> 0) ->
  exists m', index_all dup m l x = Some m' /\
  (forall j, j < count l -> index_get m' (nthd l j) = x + j + 1) /\
  (forall d, ~ In d l -> index_get m' d = index_get m d).
Proof.
  intros dup. induction l as [|a l IH]; intros m x ND F P.
  - exists m. split; [reflexivity|]. split; [intros j J; cbn in J; lia|auto].
  - inversion ND as [|? ? NI ND']; subst.
    destruct (index_insert_fresh dup m a (x + 1)) as [m1 I]; [apply F; left; reflexivity|exact P|].
    destruct (index_get_insert dup m a (x + 1) m1 I (F a (or_introl eq_refl)) P) as (A & B & C).
    destruct (IH m1 (x + 1)) as (m' & E & G & U).
    + exact ND'.
    + intros d D. rewrite B; [apply F; right; exact D|intros ->; contradiction].
    + intros v V. apply C; [lia|exact V].
    + exists m'. cbn [index_all]. rewrite I. split; [exact E|]. split.
      * intros j J. destruct (N.eq_dec j 0) as [->|NE].
        -- rewrite nthd_0, U by exact NI. rewrite A. lia.
        -- rewrite count_cons in J. replace j with (N.succ (j - 1)) at 1 by lia. rewrite nthd_cons, G by lia. lia.
      * intros d D. rewrite U by (intros X; apply D; right; exact X). apply B. intros ->. apply D. left. reflexivity.
Qed.

(* ---- proofs of the server ---- *)

Lemma server_siblings_exact : forall l, l <> [] -> total_nodes (count l) < 4294967296 -> forall fuel k i,
  (k <= depth (count l))%nat -> (depth (count l) - k <= fuel)%nat -> i < width (count l) k ->
  server_siblings fuel (all_nodes l) (width (count l) k) i (nodes_from (count l) 0 k) =
  Some (sibling_digests H l k i (depth (count l) - k)).
Proof.
  intros l Ne T. assert (Z := nonempty_count l Ne).
  assert (Top : forall fuel i, server_siblings fuel (all_nodes l) (width (count l) (depth (count l))) i (nodes_from (count l) 0 (depth (count l))) = Some []).
  { intros fuel i. rewrite width_depth by assumption. destruct fuel; reflexivity. }
  induction fuel; intros k i Hk Hf E.
  - replace k with (depth (count l)) by lia. rewrite Nat.sub_diag. apply Top.
  - destruct (Nat.eq_dec k (depth (count l))) as [->|NE]; [rewrite Nat.sub_diag; apply Top|].
    pose proof (width_below (count l) k ltac:(lia)) as W.
    cbn [server_siblings]. replace (1 <? width (count l) k) with true by lia. cbv zeta.
    assert (B : nodes_from (count l) 0 k + width (count l) k + 1 <= total_nodes (count l)).
    { pose proof (nodes_from_snoc (count l) k 0) as S'. cbn [Nat.add] in S'. rewrite <- S'.
      pose proof (width_pos (count l) (S k) Z).
      unfold total_nodes. replace (S (depth (count l))) with (S k + S (depth (count l) - S k))%nat by lia. rewrite nodes_from_split.
      change (nodes_from (count l) (0 + S k) (S (depth (count l) - S k))) with (width (count l) (S k) + nodes_from (count l) (S (S k)) (depth (count l) - S k)). lia. }
    set (base := nodes_from (count l) 0 k) in *.
    set (off := if N.odd i then 4294967295 else if i =? width (count l) k - 1 then 0 else 1).
    assert (P : w32 (base + i + off) = base + sibling_position (width (count l) k) i).
    { unfold off, sibling_position, w32. destruct (N.odd i) eqn:O.
      - assert (0 < i) by (destruct i; [discriminate O|lia]).
        replace (base + i + 4294967295) with (base + (i - 1) + 1 * 4294967296) by lia. rewrite N.mod_add by lia. apply N.mod_small. lia.
      - destruct (N.eqb_spec i (width (count l) k - 1)); rewrite N.mod_small by lia; lia. }
    rewrite P. unfold base. unfold MerkleSpec.all_nodes at 1.
    assert (SP : sibling_position (width (count l) k) i < width (count l) k).
    { unfold sibling_position. destruct (N.odd i); lia. }
    rewrite levels_nth by (try exact SP; lia).
    assert (w32 (width (count l) k + 1) / 2 = width (count l) (S k)) as ->.
    { cbn [width]. unfold w32. rewrite N.mod_small by lia. reflexivity. }
    assert (w32 (nodes_from (count l) 0 k + width (count l) k) = nodes_from (count l) 0 (S k)) as ->.
    { rewrite nodes_from_snoc, Nat.add_0_l. unfold w32. apply N.mod_small. fold base. lia. }
    rewrite IHfuel by (try apply pos_half; try assumption; lia). cbn [option_map].
    replace (depth (count l) - k)%nat with (S (depth (count l) - S k)) by lia. reflexivity.
Qed.

Lemma server_proof_exact : forall l i, l <> [] -> total_nodes (count l) < 4294967296 -> i < count l ->
  server_proof (all_nodes l) (count l) i = Some (proof_of H l i).
Proof.
  intros l i Ne T E. assert (Z := nonempty_count l Ne).
  assert (n32 : count l < 4294967296) by (unfold total_nodes in T; cbn [nodes_from width] in T; lia).
  unfold server_proof.
  pose proof (server_siblings_exact l Ne T 33 0 i) as S'. cbn [width nodes_from] in S'. rewrite S'; try assumption; try lia.
  - pose proof (levels_nth l (S (depth (count l))) 0 i ltac:(lia) E) as X. cbn [nodes_from] in X. rewrite N.add_0_l in X.
    fold (all_nodes l) in X. rewrite X, all_nodes_last by assumption. rewrite Nat.sub_0_r. reflexivity.
  - assert (depth (count l) <= 32)%nat; [|lia]. apply depth_bound. change (2 ^ N.of_nat 32) with 4294967296. lia.
Qed.

Lemma server_proofs_exact : forall l m h, l <> [] -> total_nodes (count l) < 4294967296 ->
  server_proofs (mkserver (all_nodes l) m (count l) h) = Some (map (proof_of H l) (upto (count l))).
Proof.
  intros l m h Ne T. unfold server_proofs. cbn [s_width]. unfold upto.
  assert (G : forall k i, i + N.of_nat k <= count l ->
     server_proofs_from k (mkserver (all_nodes l) m (count l) h) i = Some (map (proof_of H l) (upto_from i k))).
  { induction k; intros i E; [reflexivity|]. cbn [server_proofs_from upto_from map s_digests s_width].
    rewrite server_proof_exact by (assumption || lia). rewrite IHk by lia. reflexivity. }
  apply G. lia.
Qed.

Lemma server_at_exact : forall dup l i d, l <> [] -> NoDup l -> total_nodes (count l) < 4294967296 -> 
  exists s, server_make H dup l = Some s /\ s_digests s = all_nodes l /\ s_width s = count l /\ s_height s = N.of_nat (depth (count l)) + 1 /\
    (i < count l -> nthd l i = d -> server_at s d = Some (proof_of H l i)) /\
    (~ In d l -> server_at s d = Some empty_proof).
Proof.
  intros dup l i d Ne ND T. rewrite server_make_exact by assumption.
  destruct (index_all_exact dup l [] 0 ND) as (m & E & G & U); [reflexivity|intros v []|].
  rewrite E. cbn [option_map]. eexists. split; [reflexivity|]. cbn [s_digests s_width s_height].
  split; [reflexivity|]. split; [reflexivity|]. split; [reflexivity|]. split.
  - intros I <-. unfold server_at. cbn [s_indices s_digests s_width]. rewrite G by exact I.
    replace (0 + i + 1 =? 0) with false by lia. replace (0 + i + 1 - 1) with i by lia. apply server_proof_exact; assumption.
  - intros NI. unfold server_at. cbn [s_indices]. rewrite U by exact NI. reflexivity.
Qed.

(* ---- server and tree ---- *)

Lemma leaves_below_top : forall n k, 0 < n -> n <= 2 ^ N.of_nat k -> leaves_below n k 0 = upto n.
Proof.
  intros n k Z E. unfold leaves_below, below, upto. rewrite N.mul_0_l. f_equal. lia.
Qed.

Lemma digests_at_height_exact : forall l, 0 < count l -> forall h m j, j < width (count l) (m + h) ->
  digests_at_height h (subtree l (m + h) j) = Some (map (node l m) (leaves_below (width (count l) m) h j)).
Proof.
  intros l Z. induction h; intros m j E.
  - rewrite Nat.add_0_r in *. unfold leaves_below, below. change (2 ^ N.of_nat 0) with 1.
    replace (N.to_nat (N.min 1 (width (count l) m - j * 1))) with 1%nat by lia. cbn [upto_from map].
    replace (j * 1) with j by lia. destruct m; reflexivity.
  - assert (Zm := width_pos (count l) m Z).
    rewrite leaves_below_S by (rewrite ?width_width; assumption). rewrite width_width.
    replace (m + S h)%nat with (S (m + h)) in * by lia. cbn [MerkleSpec.subtree digests_at_height].
    assert (L2 : 2 * j < width (count l) (m + h)) by (cbn [width] in E; lia).
    destruct (N.ltb_spec (2 * j + 1) (width (count l) (m + h))) as [L|L].
    + destruct (subtree l (m + h) (2 * j + 1)) as [|dr t1 t2] eqn:Tq; [exfalso; apply (subtree_not_empty _ _ _ _ Tq)|].
      rewrite <- Tq. rewrite !IHh by (assumption || lia). rewrite map_app. reflexivity.
    + rewrite app_nil_r. apply IHh. exact L2.
Qed.

Lemma digests_from_height_exact : forall l, l <> [] -> forall h, (h <= depth (count l))%nat ->
  digests_from_height h (subtree l (depth (count l)) 0) = Some (levels_from l (depth (count l) - h) (S h)).
Proof.
  intros l Ne. assert (Z := nonempty_count l Ne).
  assert (A : forall h, (h <= depth (count l))%nat -> digests_at_height h (subtree l (depth (count l)) 0) =
     Some (map (node l (depth (count l) - h)) (upto (width (count l) (depth (count l) - h))))).
  { intros h Hh. pose proof (digests_at_height_exact l Z h (depth (count l) - h) 0) as X.
    replace (depth (count l) - h + h)%nat with (depth (count l)) in X by lia.
    rewrite X by (rewrite width_depth by assumption; lia). rewrite leaves_below_top; [reflexivity|apply width_pos, Z|].
    apply width_top_one; [apply width_pos, Z|]. rewrite width_width. replace (depth (count l) - h + h)%nat with (depth (count l)) by lia.
    apply width_depth, Z. }
  induction h; intros Hh; cbn [digests_from_height].
  - rewrite A by lia. cbn [MerkleSpec.levels_from]. rewrite app_nil_r. reflexivity.
  - rewrite A by lia. rewrite IHh by lia. cbn [option_map].
    change (levels_from l (depth (count l) - S h) (S (S h))) with
      (map (node l (depth (count l) - S h)) (upto (width (count l) (depth (count l) - S h))) ++ levels_from l (S (depth (count l) - S h)) (S h)).
    replace (S (depth (count l) - S h)) with (depth (count l) - h)%nat by lia. reflexivity.
Qed.

Lemma server_of_tree_exact : forall l, l <> [] -> total_nodes (count l) < 4294967296 ->
  server_of_tree (tree_of H l) = Some (mkserver (all_nodes l) [] (count l) (N.of_nat (depth (count l)) + 1)).
Proof.
  intros l Ne T. assert (Z := nonempty_count l Ne).
  assert (n32 : count l < 4294967296) by (unfold total_nodes in T; cbn [nodes_from width] in T; lia).
  unfold server_of_tree, tree_of. cbn [t_width t_height t_tree].
  replace ((count l =? 0) || (N.of_nat (depth (count l)) + 1 =? 0)) with false by lia.
  pose proof (totals_exact (count l) Z T 64 0) as Tt. cbn [width nodes_from] in Tt. rewrite N.add_0_r in Tt.
  assert (depth (count l) <= 32)%nat by (apply depth_bound; change (2 ^ N.of_nat 32) with 4294967296; lia).
  change (N.of_nat 0 + 1) with 1 in Tt. rewrite Tt by lia.
  replace (N.to_nat (N.of_nat (depth (count l)) + 1 - 1)) with (depth (count l)) by lia.
  rewrite digests_from_height_exact by (assumption || lia). rewrite Nat.sub_diag. fold (all_nodes l).
  pose proof (levels_count l (S (depth (count l))) 0) as C. unfold count in C at 1. fold (all_nodes l) in C. fold (total_nodes (count l)) in C.
  rewrite C, N.ltb_irrefl. replace (N.to_nat (total_nodes (count l)) - length (all_nodes l))%nat with 0%nat by lia.
  cbn [repeat]. rewrite app_nil_r. reflexivity.
Qed.

Lemma pair_trees_from : forall l k m m' j ds,
  2 * j + N.of_nat m' = width (count l) k -> N.of_nat m = (N.of_nat m' + 1) / 2 ->
  pair_trees (map (subtree l k) (upto_from (2 * j) m')) (map (node l (S k)) (upto_from j m) ++ ds) =
  Some (map (subtree l (S k)) (upto_from j m), ds).
Proof.
  intros l k. induction m; intros m' j ds W E.
  - replace m' with 0%nat by lia. reflexivity.
  - destruct m' as [|[|m']]; [lia| |].
    + replace m with 0%nat in * by lia. cbn [upto_from map pair_trees app].
      cbn [MerkleSpec.subtree]. destruct (N.ltb_spec (2 * j + 1) (width (count l) k)); [lia|]. reflexivity.
    + cbn [upto_from map pair_trees app].
      replace (2 * j + 1 + 1) with (2 * (j + 1)) by lia. rewrite IHm by lia.
      cbn [MerkleSpec.subtree]. destruct (N.ltb_spec (2 * j + 1) (width (count l) k)); [|lia]. reflexivity.
Qed.

Lemma tree_loop_exact : forall l, l <> [] -> forall fuel k, (k <= depth (count l))%nat -> (depth (count l) - k <= fuel)%nat ->
  tree_loop fuel (map (subtree l k) (upto (width (count l) k))) (levels_from l (S k) (depth (count l) - k)) =
  Some (subtree l (depth (count l)) 0).
Proof.
  intros l Ne. assert (Z := nonempty_count l Ne).
  assert (Top : forall fuel ds, tree_loop fuel (map (subtree l (depth (count l))) (upto (width (count l) (depth (count l))))) ds = Some (subtree l (depth (count l)) 0)).
  { intros fuel ds. rewrite width_depth by assumption. destruct fuel; reflexivity. }
  induction fuel; intros k Hk Hf.
  - replace k with (depth (count l)) by lia. apply Top.
  - destruct (Nat.eq_dec k (depth (count l))) as [->|NE]; [apply Top|].
    pose proof (width_below (count l) k ltac:(lia)) as W.
    assert (P : pair_trees (map (subtree l k) (upto (width (count l) k))) (levels_from l (S k) (depth (count l) - k)) =
      Some (map (subtree l (S k)) (upto (width (count l) (S k))), levels_from l (S (S k)) (depth (count l) - S k))).
    { replace (depth (count l) - k)%nat with (S (depth (count l) - S k)) by lia. cbn [MerkleSpec.levels_from]. unfold upto.
      apply (pair_trees_from l k _ _ 0); [lia|cbn [width]; lia]. }
    assert (R : exists a b r, map (subtree l k) (upto (width (count l) k)) = a :: b :: r).
    { pose proof (count_upto (width (count l) k)) as C. unfold count in C at 1. destruct (upto (width (count l) k)) as [|a [|b r]]; cbn [length] in C; try lia.
      cbn [map]. eauto. }
    destruct R as (a & b & r & R). rewrite R in *. cbn [tree_loop]. rewrite P. apply IHfuel; lia.
Qed.

Lemma tree_of_server_exact : forall l m, l <> [] -> 
  tree_of_server (mkserver (all_nodes l) m (count l) (N.of_nat (depth (count l)) + 1)) = Some (tree_of H l).
Proof.
  intros l m Ne. assert (Z := nonempty_count l Ne). unfold tree_of_server. cbn [s_width s_height s_digests].
  replace ((count l =? 0) || (N.of_nat (depth (count l)) + 1 =? 0)) with false by lia.
  pose proof (levels_count l (S (depth (count l))) 0) as C. unfold count in C at 1. fold (all_nodes l) in C.
  assert (count l <= nodes_from (count l) 0 (S (depth (count l)))) by (cbn [nodes_from width]; lia).
  rewrite C. replace (nodes_from (count l) 0 (S (depth (count l))) <? count l) with false by lia.
  replace (N.to_nat (count l)) with (length l) by (unfold count; lia). rewrite firstn_all_nodes, skipn_all_nodes.
  rewrite (map_leaf_subtree H). pose proof (tree_loop_exact l Ne (length (all_nodes l)) 0) as X. rewrite Nat.sub_0_r in X.
  rewrite X; [reflexivity|lia|]. pose proof (depth_le (count l) Z). lia.
Qed.

End Server.
