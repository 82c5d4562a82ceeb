(* What the BUMP theorems talk about. *)
From Verif Require Import Base WireModel WireSpec MerkleModel MerkleSpec BumpModel.
Local Open Scope N_scope.

(* what the external ordered sequence does with a new offset *)
Definition ordered_insert (ins : forall A, (A -> N) -> A -> list A -> list A) : Prop :=
  forall A (off : A -> N) x l, ~ In (off x) (map off l) -> ins A off x l = place off x l.

(* strictly ascending *)
Fixpoint ascending (l : list N) : Prop :=
  match l with
  | [] => True
  | x :: r => (forall y, In y r -> x < y) /\ ascending r
  end.
Definition offsets (l : level) : list N := map n_offset l.
Definition sorted (l : level) : Prop := ascending (offsets l).

(* a node that can be written *)
Definition node_wf (n : node) : Prop :=
  u64 (n_offset n) /\ match n_digest n with
                      | Some d => length d = 32%nat /\ n_flag n <> flag_duplicate
                      | None => n_flag n = flag_duplicate
                      end.
Definition level_wf (l : level) : Prop := seq_wf node_wf l.
Definition bump_wf (b : bump) : Prop :=
  u64 (bp_height b) /\ N.of_nat (length (bp_path b)) < 256 /\ Forall level_wf (bp_path b).

(* no level repeats an offset or gives a node that is computed from the level below;
   [gen] are the offsets computed from below *)
Fixpoint tidy_from (gen : list N) (path : list level) : Prop :=
  match path with
  | [] => True
  | l :: r => sorted l /\ (forall x, In x (offsets l) -> ~ In x gen) /\
              tidy_from (map (fun x => x / 2) (gen ++ offsets l)) r
  end.
Definition tidy (b : bump) : Prop := tidy_from [] (bp_path b).

(* a client node on level j *)
Definition client_node (b : bump) (j : nat) (o : N) (k : bytes) : Prop :=
  exists l, nth_error (bp_path b) j = Some l /\ In (mknode o flag_client (Some k)) l.

(* a map that, given a key twice, keeps one of the values or throws *)
Definition dup_picks {A} (dup : option (A -> A -> A)) : Prop :=
  match dup with Some f => forall a b, f a b = a \/ f a b = b | None => True end.

(* the siblings of a branch with the implicit ones written out *)
Fixpoint written_out (H : bytes -> bytes) (lf : leaf) (ds : digests) : digests :=
  match ds with
  | [] => []
  | m :: r => Some (sibling m lf) :: written_out H (leaf_next H lf (sibling m lf)) r
  end.
(* siblings are implicit only on the right-hand side *)
Fixpoint implicit_right (i : N) (ds : digests) : Prop :=
  match ds with
  | [] => True
  | m :: r => (m = None -> N.odd i = false) /\ implicit_right (i / 2) r
  end.

(* ---- sums ---- *)

(* the other child of the same parent *)
Definition twin (o : N) : N := if N.odd o then o - 1 else o + 1.

(* the offsets computed above all levels *)
Fixpoint tops_from (gen : list N) (path : list level) : list N :=
  match path with
  | [] => gen
  | l :: r => tops_from (map (fun x => x / 2) (gen ++ offsets l)) r
  end.
Definition single_top (path : list level) (t : N) : Prop := forall x, In x (tops_from [] path) <-> x = t.

(* on every level, a node that is there or computed has its twin there or computed *)
Fixpoint complete_from (gen : list N) (path : list level) : Prop :=
  match path with
  | [] => True
  | l :: r => (forall x, In x (gen ++ offsets l) -> In (twin x) (gen ++ offsets l)) /\
              complete_from (map (fun x => x / 2) (gen ++ offsets l)) r
  end.
Definition complete (b : bump) : Prop := complete_from [] (bp_path b).

(* only the nodes that are not computed from below *)
Fixpoint trim_from (gen : list N) (path : list level) : list level :=
  match path with
  | [] => []
  | l :: r => filter (fun n => negb (existsb (N.eqb (n_offset n)) gen)) l ::
              trim_from (map (fun x => x / 2) (gen ++ offsets l)) r
  end.

(* the digests of a whole tree: [tr k j] is node j of level k *)
Definition tree_digests (H : bytes -> bytes) (tr : nat -> N -> bytes) : Prop :=
  forall k j, tr (S k) j = H (tr k (2 * j) ++ tr k (2 * j + 1)).
Definition node_in (tr : nat -> N -> bytes) (k : nat) (n : node) : Prop :=
  (n_digest n = Some (tr k (n_offset n)) /\ n_flag n <> flag_duplicate) \/
  (n = dup_node (n_offset n) /\ N.odd (n_offset n) = true /\ tr k (n_offset n) = tr k (n_offset n - 1)).
Fixpoint levels_in (tr : nat -> N -> bytes) (k : nat) (path : list level) : Prop :=
  match path with
  | [] => True
  | l :: r => Forall (node_in tr k) l /\ levels_in tr (S k) r
  end.

(* the siblings of node [o] of level [k], a missing one meaning that it equals the node *)
Fixpoint branch_in (tr : nat -> N -> bytes) (k : nat) (o : N) (ds : digests) : Prop :=
  match ds with
  | [] => True
  | m :: r => match m with Some d => d = tr k (twin o) | None => N.odd o = false /\ tr k (twin o) = tr k o end /\
              branch_in tr (S k) (o / 2) r
  end.

(* two descending sequences of offsets: a common beginning, then nothing in common *)
Fixpoint aligned (a b : list N) : Prop :=
  match a, b with
  | x :: a', y :: b' => (x = y /\ aligned a' b') \/ (forall z, In z a -> ~ In z b)
  | _, _ => True
  end.
Fixpoint aligned_levels (a b : list level) : Prop :=
  match a, b with
  | l :: a', m :: b' => aligned (rev (offsets l)) (rev (offsets m)) /\ aligned_levels a' b'
  | _, _ => True
  end.

Definition small (path : list level) : Prop := Forall (fun l => forall n, In n (offsets l) -> n < 9223372036854775808) path.

(* three ways an ordered sequence can treat an offset it already has *)
Definition keep_both : forall A, (A -> N) -> A -> list A -> list A := fun A off x l => place off x l.
Definition keep_old : forall A, (A -> N) -> A -> list A -> list A :=
  fun A off x l => if existsb (fun y => off y =? off x) l then l else place off x l.
Definition keep_new : forall A, (A -> N) -> A -> list A -> list A :=
  fun A off x l => if existsb (fun y => off y =? off x) l then map (fun y => if off y =? off x then x else y) l else place off x l.

(* a BUMP that gives a node although it can be computed: a b c d are the leaves, e takes the place of the node above c and d *)
Definition redundant_bump (h : N) (a b c d e : bytes) : bump :=
  mkbump h [[mknode 0 flag_intermediate (Some a); mknode 1 flag_intermediate (Some b);
             mknode 2 flag_client (Some c); mknode 3 flag_intermediate (Some d)];
            [mknode 1 flag_client (Some e)]].
(* a BUMP with 256 levels *)
Definition deep_bump (d : bytes) : bump := mkbump 0 (repeat [mknode 0 flag_client (Some d)] 256).
(* the paths of the third, first and second leaf of a tree with leaves a b c d *)
Definition three_paths (H : bytes -> bytes) (a b c d : bytes) : path_map :=
  [(c, mkpath 2 [Some d; Some (H (a ++ b))]); (a, mkpath 0 [Some b; Some (H (c ++ d))]); (b, mkpath 1 [Some a; Some (H (c ++ d))])].
Definition two_paths (H : bytes -> bytes) (a b c d : bytes) : path_map := firstn 2 (three_paths H a b c d).
