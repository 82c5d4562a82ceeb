(* What the theorems about the SPV database talk about. *)
From Verif Require Import Base WireModel MerkleModel MerkleSpec WorkModel BeefModel SpvModel.
Local Open Scope N_scope.

Section Spec.
Variable H : bytes -> bytes.

(* the operation is a removal that takes the latest header away *)
Definition takes_latest (m : db) (o : op) : Prop :=
  exists n h, latest m = Some (n, h) /\ match o with RemoveHeight k => k = n | RemoveHash d => d = header_hash H h | _ => False end.
(* and the header before it is there to become the latest *)
Definition keeps_chain (m : db) (o : op) : Prop :=
  takes_latest m o -> exists n h h', latest m = Some (n, h) /\ 0 < n /\ header_at m (n - 1) = Some (n - 1, h').
(* a new header has another hash and another root than those that stay *)
Definition stays (m : db) (n k : N) : Prop := k < n \/ n < k /\ header_at m n = None.
Definition no_clash (m : db) (o : op) : Prop :=
  match o with
  | InsertHeader n h => forall k h', stays m n k -> header_at m k = Some (k, h') ->
      header_hash H h' <> header_hash H h /\ h_merkle_root h' <> h_merkle_root h
  | _ => True
  end.

(* every operation of a history meets a condition on the state it is applied in *)
Section All.
Variable ins : branch -> list branch -> list branch.
Variable ord : list branch -> list branch.
Variable dup : option (path -> path -> path).
Variable fuel : nat.
Fixpoint throughout (P : db -> op -> Prop) (m : db) (l : list op) : Prop :=
  match l with
  | [] => True
  | o :: r => P m o /\ match apply H ins ord dup fuel m o with Done x => throughout P x r | _ => True end
  end.
End All.

(* the proofs kept for the block at a height *)
Definition block_paths (m : db) (k : N) : path_map :=
  match get N.eqb (m_by_height m) k with Some i => e_paths (deref m i) | None => [] end.

(* ---- Merkle paths ---- *)
(* The paths that may turn up for each root: all of one length, explicit, deriving the root, naming no
   transaction twice, and without a collision among them.  The paths of the transactions of a block are such. *)
Definition entry_ok (e : bytes * path) : Prop := digest_valid (fst e) = true /\ digests_valid (p_digests (snd e)) = true.
Definition universe (U : bytes -> list (bytes * path)) (L : bytes -> nat) : Prop :=
  forall r, (L r <= 31)%nat /\ (forall e, In e (U r) -> full_path (L r) e /\ derive_root H (snd e) (fst e) = r /\ entry_ok e) /\
    same_positions (U r) /\ collision_free H (U r).
Definition from_universe (U : bytes -> list (bytes * path)) (o : op) : Prop :=
  match o with
  | InsertDual d => NoDup (map fst (d_paths d)) /\ forall e, In e (d_paths d) -> In e (U (d_root d))
  | InsertTxPath t p => In (tx_id H t, p) (U (derive_root H p (tx_id H t)))
  | _ => True
  end.
Definition no_removal (o : op) : Prop := match o with RemoveHeight _ | RemoveHash _ => False | _ => True end.
(* proofs come after the transactions they belong to *)
Definition known_first (m : db) (o : op) : Prop :=
  match o with InsertDual d => forall k, In k (map fst (d_paths d)) -> dbtx_valid (transaction m k) = true | _ => True end.
Definition no_tx_path (o : op) : Prop := match o with InsertTxPath _ _ => False | _ => True end.
End Spec.
