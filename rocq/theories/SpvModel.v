(* The in-memory SPV database.
   Source: SPV.cpp 26-109 and 261-353, include/gigamonkey/SPV.hpp. *)
From Verif Require Import Base WireModel MerkleModel WorkModel BeefModel ExtModel.
Local Open Scope N_scope.

(* ---------------------------------------------------------------- maps *)
(* std::map and the library's sets, as lists with one entry per key; nothing below depends on the order *)
Section Maps.
Context {K V : Type} (eqb : K -> K -> bool).
Fixpoint get (m : list (K * V)) (k : K) : option V :=
  match m with
  | [] => None
  | (k', v) :: r => if eqb k k' then Some v else get r k
  end.
Definition del (m : list (K * V)) (k : K) : list (K * V) := filter (fun e => negb (eqb k (fst e))) m.
Definition put (m : list (K * V)) (k : K) (v : V) : list (K * V) := (k, v) :: del m k.
End Maps.
Definition set_add (k : bytes) (s : list bytes) : list bytes := if digest_in k s then s else k :: s.
Definition set_del (k : bytes) (s : list bytes) : list bytes := filter (fun x => negb (bytes_eqb k x)) s.

(* ---------------------------------------------------------------- the database *)
(* SPV.hpp 185-205.  Entries are shared by pointer; a pointer is a position in [m_heap] *)
Record entry := mkentry { e_height : N; e_header : header; e_paths : path_map; e_prev : option nat }.
(* SPV.hpp 207-214 *)
Record db := mkdb {
  m_heap : list entry;
  m_latest : option nat;
  m_by_height : list (N * nat);
  m_by_hash : list (bytes * nat);
  m_by_root : list (bytes * nat);
  m_by_txid : list (bytes * nat);
  m_txs : list (bytes * tx);
  m_pending : list bytes }.
Definition empty_db : db := mkdb [] None [] [] [] [] [] [].

(* SPV.hpp 19-31 *)
Record confirmation := mkconf { c_path : path; c_height : N; c_header : header }.
(* timechain.hpp 101 *)
Definition header_default : header :=
  {| h_version := 0; h_previous := zero_digest; h_merkle_root := zero_digest; h_timestamp := 0; h_target := 0; h_nonce := 0 |}.
(* SPV.hpp 265 *)
Definition no_conf : confirmation := mkconf (mkpath 0 []) 0 header_default.
(* SPV.hpp 278-280 *)
Definition conf_valid (c : confirmation) : bool := negb (h_timestamp (c_header c) =? 0).
(* SPV.hpp 127-142 *)
Record dbtx := mkdbtx { x_tx : option tx; x_conf : confirmation }.
Definition dbtx_valid (x : dbtx) : bool := match x_tx x with Some _ => true | None => false end.
Definition dbtx_confirmed (x : dbtx) : bool := dbtx_valid x && conf_valid (x_conf x).

(* timechain.hpp 334-337 *)
Definition header_eqb (a b : header) : bool :=
  (h_version a =? h_version b)%Z && bytes_eqb (h_previous a) (h_previous b) && bytes_eqb (h_merkle_root a) (h_merkle_root b) &&
  (h_timestamp a =? h_timestamp b) && (h_target a =? h_target b) && (h_nonce a =? h_nonce b).

(* never used: all pointers are valid *)
Definition no_entry : entry := mkentry 0 header_default [] None.
Definition deref (m : db) (i : nat) : entry := nth i (m_heap m) no_entry.
Fixpoint update {A} (i : nat) (f : A -> A) (l : list A) : list A :=
  match l, i with
  | [], _ => []
  | x :: r, O => f x :: r
  | x :: r, S j => x :: update j f r
  end.
Definition with_heap (m : db) (h : list entry) : db :=
  mkdb h (m_latest m) (m_by_height m) (m_by_hash m) (m_by_root m) (m_by_txid m) (m_txs m) (m_pending m).
Definition set_paths (m : db) (i : nat) (ps : path_map) : db :=
  with_heap m (update i (fun e => mkentry (e_height e) (e_header e) ps (e_prev e)) (m_heap m)).
Definition set_prev (i : nat) (p : nat) (h : list entry) : list entry :=
  update i (fun e => mkentry (e_height e) (e_header e) (e_paths e) (Some p)) h.

Section Spv.
Variable H : bytes -> bytes.     (* the double SHA-256 *)
(* the parameters of the sum of duals, see MerkleModel *)
Variable ins : branch -> list branch -> list branch.
Variable ord : list branch -> list branch.
Variable dup : option (path -> path -> path).
Variable fuel : nat.

(* timechain.hpp: header::hash; the cached value is taken to be up to date *)
Definition header_hash (h : header) : bytes := H (header_write h).

(* SPV.hpp 282-288 *)
Definition path_valid (t : tx) (p : path) (h : header) : bool :=
  header_valid H h && bytes_eqb (derive_root H p (tx_id H t)) (h_merkle_root h).
(* SPV.hpp 335-338 *)
Definition dbtx_validate (x : dbtx) : bool :=
  dbtx_confirmed x && match x_tx x with Some t => path_valid t (c_path (x_conf x)) (c_header (x_conf x)) | None => false end.

(* ---------------------------------------------------------------- look-ups *)
(* SPV.cpp 26-30 *)
Definition header_at (m : db) (n : N) : option (N * header) :=
  option_map (fun i => (e_height (deref m i), e_header (deref m i))) (get N.eqb (m_by_height m) n).
(* the entry found by SPV.cpp 33-38 and 44-49 *)
Definition by_digest (m : db) (d : bytes) : option nat :=
  match get bytes_eqb (m_by_hash m) d with Some i => Some i | None => get bytes_eqb (m_by_root m) d end.
(* SPV.cpp 32-41 *)
Definition header_by (m : db) (d : bytes) : option (N * header) :=
  option_map (fun i => (e_height (deref m i), e_header (deref m i))) (by_digest m d).
(* SPV.cpp 43-52, SPV.hpp 348-350 *)
Definition entry_dual (e : entry) : dual := mkdual (e_paths e) (h_merkle_root (e_header e)).
Definition dual_tree (m : db) (d : bytes) : dual :=
  match by_digest m d with Some i => entry_dual (deref m i) | None => empty_dual end.
(* SPV.hpp 222-225: None dereferences a null pointer *)
Definition latest (m : db) : option (N * header) :=
  option_map (fun i => (e_height (deref m i), e_header (deref m i))) (m_latest m).
(* SPV.cpp 100-109 *)
Definition transaction (m : db) (t : bytes) : dbtx :=
  match get bytes_eqb (m_by_txid m) t with
  | None => mkdbtx (get bytes_eqb (m_txs m) t) no_conf
  | Some i =>
    let e := deref m i in
    let b := pr_branch (dual_at (entry_dual e) t) in
    mkdbtx (get bytes_eqb (m_txs m) t) (mkconf (mkpath (l_index (b_leaf b)) (b_digests b)) (e_height e) (e_header e))
  end.
(* SPV.hpp 290-292 *)
Definition unconfirmed (m : db) : list bytes := m_pending m.

(* ---------------------------------------------------------------- headers *)
(* one turn of the loop SPV.cpp 64-76, without the erasure from ByHeight *)
Definition drop_entry (m : db) (i : nat) : db :=
  let e := deref m i in
  let keys := map fst (e_paths e) in
  mkdb (m_heap m) (m_latest m) (m_by_height m)
       (del bytes_eqb (m_by_hash m) (header_hash (e_header e)))
       (del bytes_eqb (m_by_root m) (h_merkle_root (e_header e)))
       (fold_left (fun t k => del bytes_eqb t k) keys (m_by_txid m))
       (m_txs m)
       (fold_left (fun p k => set_add k p) keys (m_pending m)).
(* SPV.cpp 63-79: everything from the height on goes *)
Definition reorg (m : db) (height : N) : db :=
  let m' := fold_left drop_entry (map snd (filter (fun e => height <=? fst e) (m_by_height m))) m in
  mkdb (m_heap m') None (filter (fun e => fst e <? height) (m_by_height m)) (m_by_hash m') (m_by_root m') (m_by_txid m')
       (m_txs m') (m_pending m').
(* SPV.cpp 82-97 *)
Definition add_header (m : db) (height : N) (h : header) : db :=
  let i := length (m_heap m) in
  let prev := if 0 <? height then get N.eqb (m_by_height m) (height - 1) else None in
  let heap := m_heap m ++ [mkentry height h [] prev] in
  let newest := match m_latest m with None => true | Some l => (height =? 0) || (e_height (deref m l) <? height) end in
  mkdb (match get N.eqb (m_by_height m) (height + 1) with Some j => set_prev j i heap | None => heap end)
       (if newest then Some i else m_latest m)
       (put N.eqb (m_by_height m) height i)
       (put bytes_eqb (m_by_hash m) (header_hash h) i)
       (put bytes_eqb (m_by_root m) (h_merkle_root h) i)
       (m_by_txid m) (m_txs m) (m_pending m).
(* SPV.cpp 54-98 *)
Definition insert_header (m : db) (height : N) (h : header) : db * option (N * header) :=
  if negb (header_valid H h) then (m, None)
  else match get N.eqb (m_by_height m) height with
       | Some i => if header_eqb (e_header (deref m i)) h then (m, Some (e_height (deref m i), e_header (deref m i)))
                   else (add_header (reorg m height) height h, Some (height, h))
       | None => (add_header m height h, Some (height, h))
       end.

(* SPV.cpp 329-340: [l] is Latest *)
Definition remove_latest (m : db) (l : nat) : db :=
  let e := deref m l in
  mkdb (m_heap m) (e_prev e) (del N.eqb (m_by_height m) (e_height e))
       (del bytes_eqb (m_by_hash m) (header_hash (e_header e)))
       (del bytes_eqb (m_by_root m) (h_merkle_root (e_header e)))
       (m_by_txid m) (m_txs m)
       (fold_left (fun p k => set_add k p) (map fst (e_paths e)) (m_pending m)).
(* SPV.cpp 342-352: None dereferences a null pointer *)
Definition remove_height (m : db) (n : N) : option db :=
  match m_latest m with
  | None => None
  | Some l => Some (if e_height (deref m l) =? n then remove_latest m l else m)
  end.
Definition remove_hash (m : db) (d : bytes) : option db :=
  match m_latest m with
  | None => None
  | Some l => Some (if bytes_eqb (header_hash (e_header (deref m l))) d then remove_latest m l else m)
  end.

(* ---------------------------------------------------------------- transactions and proofs *)
Definition with_txs (m : db) (t : list (bytes * tx)) (p : list bytes) : db :=
  mkdb (m_heap m) (m_latest m) (m_by_height m) (m_by_hash m) (m_by_root m) (m_by_txid m) t p.
(* SPV.cpp 272-281 *)
Definition insert_tx (m : db) (t : tx) : db :=
  let id := tx_id H t in
  match get bytes_eqb (m_txs m) id with
  | Some _ => m
  | None => with_txs m (put bytes_eqb (m_txs m) id t)
              (match get bytes_eqb (m_by_txid m) id with None => set_add id (m_pending m) | Some _ => m_pending m end)
  end.
(* SPV.cpp 292-298, for one path *)
Definition confirm (i : nat) (m : db) (k : bytes) : db :=
  mkdb (m_heap m) (m_latest m) (m_by_height m) (m_by_hash m) (m_by_root m) (put bytes_eqb (m_by_txid m) k i) (m_txs m)
       (match get bytes_eqb (m_txs m) k with Some _ => set_del k (m_pending m) | None => m_pending m end).
(* SPV.cpp 283-301 *)
Definition insert_dual (m : db) (p : dual) : run (db * bool) :=
  match dual_valid H ins fuel p with
  | Bad => Bad
  | More => More
  | Done false => Done (m, false)
  | Done true =>
    match get bytes_eqb (m_by_root m) (d_root p) with
    | None => Done (m, false)
    | Some i =>
      match dual_plus H ins ord dup fuel (entry_dual (deref m i)) p with
      | Bad => Bad
      | More => More
      | Done d => Done (fold_left (confirm i) (map fst (d_paths p)) (set_paths m i (d_paths d)), true)
      end
    end
  end.
(* SPV.cpp 303-321 *)
Definition insert_tx_path (m : db) (t : tx) (p : path) : run (db * bool) :=
  let id := tx_id H t in
  match get bytes_eqb (m_txs m) id with
  | Some _ => Done (m, false)
  | None =>
    let root := derive_root H p id in
    match get bytes_eqb (m_by_root m) root with
    | None => Done (m, false)
    | Some i =>
      match dual_plus H ins ord dup fuel (entry_dual (deref m i)) (mkdual [(id, p)] root) with
      | Bad => Bad
      | More => More
      | Done d => let m' := set_paths m i (d_paths d) in
                  Done (with_txs m' (put bytes_eqb (m_txs m') id t) (m_pending m'), true)
      end
    end
  end.
(* SPV.cpp 323-327 *)
Definition remove_tx (m : db) (id : bytes) : db :=
  if digest_in id (m_pending m) then with_txs m (del bytes_eqb (m_txs m) id) (set_del id (m_pending m)) else m.

(* SPV.hpp 216-220 *)
Definition new_db (h : header) : db := fst (insert_header empty_db 0 h).

(* ---------------------------------------------------------------- histories *)
Inductive op :=
| InsertHeader (height : N) (h : header)
| InsertTx (t : tx)
| InsertDual (d : dual)
| InsertTxPath (t : tx) (p : path)
| RemoveTx (id : bytes)
| RemoveHeight (n : N)
| RemoveHash (d : bytes).
Definition apply (m : db) (o : op) : run db :=
  let fst_of r := match r with Done (x, _) => Done x | Bad => Bad | More => More end in
  match o with
  | InsertHeader n h => Done (fst (insert_header m n h))
  | InsertTx t => Done (insert_tx m t)
  | InsertDual d => fst_of (insert_dual m d)
  | InsertTxPath t p => fst_of (insert_tx_path m t p)
  | RemoveTx id => Done (remove_tx m id)
  | RemoveHeight n => match remove_height m n with Some x => Done x | None => Bad end
  | RemoveHash d => match remove_hash m d with Some x => Done x | None => Bad end
  end.
Fixpoint history (m : db) (l : list op) : run db :=
  match l with
  | [] => Done m
  | o :: r => match apply m o with Done x => history x r | y => y end
  end.
End Spv.
