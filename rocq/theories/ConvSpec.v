(* What conversions between BEEF and SPV proofs should do. *)
From Verif Require Import Base WireModel MerkleModel BumpModel WorkModel SighashModel BeefModel BeefSpec SpvModel AncModel AncSpec.
Local Open Scope N_scope.

Section Spec.
Variable H : bytes -> bytes.
Variable ins : forall A, (A -> N) -> A -> list A -> list A.
Variable dup : option (path -> path -> path).
Variable miss : option path.
Variable by_height : N -> option header.

(* an unproven transaction of the list refers to d *)
Definition spent_in (l : list btx) (d : bytes) : bool :=
  existsb (fun u => match bt_index u with
                    | None => existsb (fun i => bytes_eqb (op_digest (in_ref i)) d) (tx_inputs (bt_tx u))
                    | Some _ => false
                    end) l.
(* the unproven transactions that no unproven one spends *)
Definition payments (b : beef) : list tx :=
  map bt_tx (filter (fun t => match bt_index t with None => negb (spent_in (bf_txs b) (tx_id H (bt_tx t))) | Some _ => false end) (bf_txs b)).
(* the confirmation that the i-th BUMP and the database give to the transaction *)
Definition leaf_conf (b : beef) (t : tx) (i : N) (c : confirmation) : Prop :=
  exists x m h p, nth_error (bf_bumps b) (N.to_nat i) = Some x /\ bump_paths H ins dup x = Some m /\ by_height (bp_height x) = Some h /\
    (get bytes_eqb m (tx_id H t) = Some p \/ get bytes_eqb m (tx_id H t) = None /\ miss = Some p) /\ c = mkconf p (bp_height x) h.
(* everything that is needed is there *)
Definition readable (b : beef) : Prop :=
  (forall x, In x (bf_bumps b) -> exists m, bump_paths H ins dup x = Some m) /\
  NoDup (ids H (bf_txs b)) /\ supported_by_earlier H (bf_txs b) /\
  (forall t i, In t (bf_txs b) -> bt_index t = Some i -> exists c, leaf_conf b (bt_tx t) i c).

Variable ovf : Z -> Z.
Variable eval : bool -> bytes -> bytes -> itx -> N -> Z -> bool.
Variable known : bytes -> bool.
Variable upgrade : time_limit.
(* t spends outputs of transactions of the BEEF correctly, and those that come with a Merkle proof are mined *)
Definition beef_spends (b : beef) (t : tx) : Prop :=
  exists os, length os = length (tx_inputs t) /\ funded ovf t os /\
    forall n i, nth_error (tx_inputs t) n = Some i ->
      exists u o, nth_error os n = Some o /\ In u (bf_txs b) /\ tx_id H (bt_tx u) = op_digest (in_ref i) /\
        match bt_index u with
        | None => unlocks eval upgrade t n i (bt_tx u) PosInf o
        | Some k => exists c, leaf_conf b (bt_tx u) k c /\ mined H known (bt_tx u) c /\
                              unlocks eval upgrade t n i (bt_tx u) (At (h_timestamp (c_header c))) o
        end.
End Spec.

(* ---- round trips *)
(* the maps have exactly the transactions that are spent from, and there are no null pointers *)
Definition keys_match (m : amap) (l : list input) : Prop :=
  forall k, get bytes_eqb m k <> None <-> exists i, In i l /\ op_digest (in_ref i) = k.
Definition tight (p : aproof) : Prop :=
  keys_match (ap_map p) (concat (map tx_inputs (ap_payment p))) /\
  (forall k t m, node_in (ap_map p) k (mkanode t (Antecedents m)) -> keys_match m (tx_inputs t)) /\
  (forall s k v, submap (ap_map p) s -> In (k, v) s -> v <> None).
(* the payments are different and none is also an antecedent *)
Definition separate (H : bytes -> bytes) (p : aproof) : Prop :=
  NoDup (map (tx_id H) (ap_payment p)) /\ forall t a, In t (ap_payment p) -> ~ node_in (ap_map p) (tx_id H t) a.
(* the same tree up to the order in the maps *)
Inductive same_node : anode -> anode -> Prop :=
| same_conf t c : same_node (mkanode t (Confirmed c)) (mkanode t (Confirmed c))
| same_tree t m m' :
    (forall k a, get bytes_eqb m k = Some (Some a) -> exists b, get bytes_eqb m' k = Some (Some b) /\ same_node a b) ->
    (forall k, get bytes_eqb m' k <> None -> get bytes_eqb m k <> None) ->
    same_node (mkanode t (Antecedents m)) (mkanode t (Antecedents m')).
Definition same_proof (p q : aproof) : Prop :=
  ap_payment p = ap_payment q /\
  (forall k a, get bytes_eqb (ap_map p) k = Some (Some a) -> exists b, get bytes_eqb (ap_map q) k = Some (Some b) /\ same_node a b) /\
  (forall k, get bytes_eqb (ap_map q) k <> None -> get bytes_eqb (ap_map p) k <> None).
(* the BUMPs and the database give back the confirmations *)
Definition faithful (H : bytes -> bytes) (ins : forall A, (A -> N) -> A -> list A -> list A) (dup : option (path -> path -> path))
    (miss : option path) (by_height : N -> option header) (b : beef) (p : aproof) : Prop :=
  (forall x, In x (bf_bumps b) -> exists m, bump_paths H ins dup x = Some m) /\
  forall k t c i, node_in (ap_map p) k (mkanode t (Confirmed c)) -> In (mkbtx t (Some i)) (bf_txs b) -> leaf_conf H ins dup miss by_height b t i c.
(* confirmations that survive: one transaction for each root, with a path that has siblings, all written out, and
   the header that the database has *)
Definition lone_confirmations (by_height : N -> option header) (p : aproof) : Prop :=
  (forall k t c, node_in (ap_map p) k (mkanode t (Confirmed c)) ->
     p_index (c_path c) < 2 ^ 32 /\ p_digests (c_path c) <> [] /\ Forall (fun d => d <> None) (p_digests (c_path c)) /\
     c_height c < 2 ^ 64 /\ by_height (c_height c) = Some (c_header c)) /\
  (forall k t c k' t' c', node_in (ap_map p) k (mkanode t (Confirmed c)) -> node_in (ap_map p) k' (mkanode t' (Confirmed c')) ->
     h_merkle_root (c_header c) = h_merkle_root (c_header c') -> k = k').
