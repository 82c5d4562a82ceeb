(* Independent description of Merkle trees: nodes by level and position, siblings, what a branch claims. *)
From Verif Require Import Base MerkleModel.
From Coq Require Import Sorting.Permutation.
Local Open Scope N_scope.

(* number of nodes at level k of a tree with n leaves: n, ceil (n/2), ceil (ceil (n/2) / 2), ... *)
Fixpoint width (n : N) (k : nat) : N :=
  match k with O => n | S k' => (width n k' + 1) / 2 end.

(* number of levels above the leaves: the least k with n <= 2^k *)
Definition depth (n : N) : nat := N.to_nat (N.log2_up n).

Definition nthd (l : list bytes) (i : N) : bytes := nth (N.to_nat i) l zero_digest.
Definition count {A} (l : list A) : N := N.of_nat (length l).

Fixpoint upto_from (start : N) (k : nat) : list N :=
  match k with O => [] | S k' => start :: upto_from (start + 1) k' end.
Definition upto (n : N) : list N := upto_from 0 (N.to_nat n).

Section Spec.
Variable H : bytes -> bytes.

(* the node at level k, position j: the hash of its two children, the last child standing in for a missing one *)
Fixpoint node (l : list bytes) (k : nat) (j : N) : bytes :=
  match k with
  | O => nthd l j
  | S k' => H (node l k' (2 * j) ++ node l k' (N.min (2 * j + 1) (width (count l) k' - 1)))
  end.

Definition merkle_root (l : list bytes) : bytes := node l (depth (count l)) 0.

(* the position next to j among w nodes *)
Definition sibling_position (w j : N) : N := if N.odd j then j - 1 else N.min (j + 1) (w - 1).

(* the digests of a proof for position i: the sibling at every level, from the leaves upwards *)
Fixpoint sibling_digests (l : list bytes) (k : nat) (i : N) (levels : nat) : digests :=
  match levels with
  | O => []
  | S m => Some (node l k (sibling_position (width (count l) k) i)) :: sibling_digests l (S k) (i / 2) m
  end.
Definition proof_of (l : list bytes) (i : N) : proof :=
  mkproof (mkbranch (mkleaf (nthd l i) i) (sibling_digests l 0 i (depth (count l)))) (merkle_root l).

(* the tree above position j of level k *)
Fixpoint subtree (l : list bytes) (k : nat) (j : N) : dt :=
  match k with
  | O => Node (nthd l j) Nil Nil
  | S k' => Node (node l k j) (subtree l k' (2 * j))
              (if 2 * j + 1 <? width (count l) k' then subtree l k' (2 * j + 1) else Nil)
  end.
Definition tree_of (l : list bytes) : tree :=
  mktree (subtree l (depth (count l)) 0) (count l) (N.of_nat (depth (count l)) + 1).

(* all nodes, level by level, leaves first *)
Fixpoint levels_from (l : list bytes) (k m : nat) : list bytes :=
  match m with
  | O => []
  | S m' => map (node l k) (upto (width (count l) k)) ++ levels_from l (S k) m'
  end.
Definition all_nodes (l : list bytes) : list bytes := levels_from l 0 (S (depth (count l))).

(* every 64-byte string hashed to build the tree *)
Fixpoint level_preimages (l : list bytes) (k : nat) : list bytes :=
  match k with
  | O => []
  | S k' => map (fun j => node l k' (2 * j) ++ node l k' (N.min (2 * j + 1) (width (count l) k' - 1))) (upto (width (count l) k))
            ++ level_preimages l k'
  end.
Definition tree_preimages (l : list bytes) : list bytes := level_preimages l (depth (count l)).

(* every string hashed when a branch is followed up to its root *)
Fixpoint branch_preimages (lf : leaf) (ds : digests) : list bytes :=
  match ds with
  | [] => []
  | m :: r =>
    let s := match m with Some d => d | None => l_digest lf end in
    let p := if N.odd (l_index lf) then s ++ l_digest lf else l_digest lf ++ s in
    p :: branch_preimages (mkleaf (H p) (l_index lf / 2)) r
  end.

(* two different strings with the same hash, one from each list *)
Definition collision (xs ys : list bytes) : Prop :=
  exists x y, In x xs /\ In y ys /\ x <> y /\ H x = H y.

(* the nodes on the left edge, from level 1 up to level k *)
Fixpoint left_edge (l : list bytes) (k : nat) : digests :=
  match k with O => [] | S k' => left_edge l k' ++ [Some (node l k 0)] end.

End Spec.

(* The leaf that stands at position i of the tree completed by duplication to 2^depth leaves:
   walk down from the root, stopping at the last node of a level whenever the position is beyond it. *)
Fixpoint clip_from (n i : N) (k : nat) (c : N) : N :=
  match k with
  | O => c
  | S k' => clip_from n i k' (N.min (2 * c + (i / 2 ^ N.of_nat k') mod 2) (width n k' - 1))
  end.
Definition clip (n i : N) : N := clip_from n i (depth n) 0.

(* digests of the right size *)
Definition sized (d : bytes) : Prop := length d = 32%nat.
Definition sized_opt (m : option bytes) : Prop := match m with Some d => sized d | None => True end.
Definition sized_leaf_digests (l : list bytes) : Prop := Forall sized l.
Definition sized_branch (b : branch) : Prop := sized (l_digest (b_leaf b)) /\ Forall sized_opt (b_digests b).

(* what every ordered insertion satisfies *)
Definition inserts {A} (ins : A -> list A -> list A) : Prop := forall x l, Permutation (ins x l) (x :: l).

(* all paths of a dual lead to the digest r, with t left of the index *)
Definition leads_to (H : bytes -> bytes) (r : bytes) (t : N) (e : bytes * path) : Prop :=
  derive_root H (snd e) (fst e) = r /\ p_index (snd e) / 2 ^ count (p_digests (snd e)) = t.
Definition dual_agrees (H : bytes -> bytes) (d : dual) (r : bytes) (t : N) : Prop :=
  forall e, In e (d_paths d) -> leads_to H r t e.
Definition dual_well_formed (d : dual) : Prop :=
  digest_valid (d_root d) = true /\ paths_valid (d_paths d) = true /\ d_paths d <> [].

(* a complete path of a tree of the given height: every sibling written out, a possible index *)
Definition full_path (levels : nat) (e : bytes * path) : Prop :=
  sized (fst e) /\ length (p_digests (snd e)) = levels /\ p_index (snd e) < 2 ^ N.of_nat levels /\
  Forall (fun m => exists d, m = Some d /\ sized d) (p_digests (snd e)).
(* two maps name no transaction at two positions *)
Definition same_positions (es : list (bytes * path)) : Prop :=
  forall e f, In e es -> In f es -> fst e = fst f -> p_index (snd e) = p_index (snd f).
(* no collision shows up among the strings hashed along these paths *)
Definition entry_preimages (H : bytes -> bytes) (e : bytes * path) : list bytes :=
  branch_preimages H (mkleaf (fst e) (p_index (snd e))) (p_digests (snd e)).
Definition collision_free (H : bytes -> bytes) (es : list (bytes * path)) : Prop :=
  forall e f, In e es -> In f es -> ~ collision H (entry_preimages H e) (entry_preimages H f).

(* adding one dual after another *)
Fixpoint dual_sum H ins ord dup (fuel : nat) (a : dual) (ds : list dual) : run dual :=
  match ds with
  | [] => Done a
  | d :: r => match dual_plus H ins ord dup fuel a d with
              | Done b => dual_sum H ins ord dup fuel b r
              | x => x
              end
  end.

(* the dual with one path *)
Definition one_path (k : bytes) (i : N) (ds : digests) (r : bytes) : dual := mkdual [(k, mkpath i ds)] r.

(* the number of digests of the longest path *)
Fixpoint longest (m : path_map) : nat :=
  match m with [] => 0%nat | e :: r => Nat.max (length (p_digests (snd e))) (longest r) end.

(* a tree of depth k over n leaves whose digests are right: a missing right child stands for a second
   copy of the left one, and left children that have a sibling are full *)
Inductive well_made (H : bytes -> bytes) : dt -> nat -> N -> Prop :=
| well_leaf d : digest_valid d = true -> well_made H (Node d Nil Nil) 0 1
| well_one d lt k n dl : well_made H lt k n -> dt_root lt = Some dl -> d = H (dl ++ dl) -> well_made H (Node d lt Nil) (S k) n
| well_two d lt rt k m dl dr : well_made H lt k (2 ^ N.of_nat k) -> well_made H rt k m -> dt_root lt = Some dl -> dt_root rt = Some dr ->
    d = H (dl ++ dr) -> well_made H (Node d lt rt) (S k) (2 ^ N.of_nat k + m).
