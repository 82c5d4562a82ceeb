(* What SPV proofs should establish. *)
From Verif Require Import Base WireModel MerkleModel WorkModel SighashModel BeefModel ExtModel SpvModel AncModel.
Local Open Scope N_scope.

(* ---- the shape of a proof *)
(* the maps in a map *)
Inductive submap (m : amap) : amap -> Prop :=
| sub_refl : submap m m
| sub_step k t s m' : submap m s -> In (k, Some (mkanode t (Antecedents m'))) s -> submap m m'.
(* a has the key k somewhere *)
Definition node_in (m : amap) (k : bytes) (a : anode) : Prop := exists s, submap m s /\ In (k, Some a) s.
(* every transaction is under its own id *)
Definition well_keyed (H : bytes -> bytes) (m : amap) : Prop := forall k a, node_in m k a -> tx_id H (n_tx a) = k.
(* what is under a key is the same everywhere *)
Definition coherent (m : amap) : Prop := forall k a b, node_in m k a -> node_in m k b -> a = b.
(* two different transactions in the proof have one id *)
Definition confused (H : bytes -> bytes) (m : amap) : Prop :=
  exists k a l b, node_in m k a /\ node_in m l b /\ n_tx a <> n_tx b /\ tx_id H (n_tx a) = tx_id H (n_tx b).

Section Spec.
Variable H : bytes -> bytes.
Variable ovf : Z -> Z.
Variable eval : bool -> bytes -> bytes -> itx -> N -> Z -> bool.
Variable known : bytes -> bool.
Variable upgrade : time_limit.

(* the outputs os, in this order, pay for the transaction; the sums are those of the 64 bit numbers *)
Definition funded (t : tx) (os : list output) : Prop :=
  (fold_left (satoshi_add ovf) (map out_value (tx_outputs t)) 0 <= fold_left (satoshi_add ovf) (map out_value os) 0)%Z.
(* the input i at position n of t unlocks the output o of the transaction a, which is of the given time *)
Definition unlocks (t : tx) (n : nat) (i : input) (a : tx) (time : time_limit) (o : output) : Prop :=
  at_index (tx_outputs a) (op_index (in_ref i)) = Some o /\
  eval (limit_gt upgrade time) (in_script i) (out_script o) (itx_of t) (N.of_nat n mod 2 ^ 32) (out_value o) = true.
(* a header in the database commits to the transaction *)
Definition mined (t : tx) (c : confirmation) : Prop :=
  known (h_merkle_root (c_header c)) = true /\ header_valid H (c_header c) = true /\
  derive_root H (c_path c) (tx_id H t) = h_merkle_root (c_header c).

(* ---- transactions that the network accepts: mined ones and those that spend accepted ones correctly.
   This does not mention proofs *)
Inductive genuine : tx -> time_limit -> Prop :=
| genuine_mined t c : mined t c -> genuine t (At (h_timestamp (c_header c)))
| genuine_spends t os : length os = length (tx_inputs t) -> funded t os ->
    (forall n i, nth_error (tx_inputs t) n = Some i ->
       exists a time o, nth_error os n = Some o /\ tx_id H a = op_digest (in_ref i) /\ genuine a time /\ unlocks t n i a time o) ->
    genuine t PosInf.

(* ---- what a proof says *)
Definition time_of (a : anode) : time_limit :=
  match n_proof a with Confirmed c => At (h_timestamp (c_header c)) | Antecedents _ => PosInf end.
Inductive stands : anode -> Prop :=
| stands_mined t c : mined t c -> stands (mkanode t (Confirmed c))
| stands_spends t m : spends t m -> stands (mkanode t (Antecedents m))
with spends : tx -> amap -> Prop :=
| spends_intro t m os : length os = length (tx_inputs t) -> funded t os ->
    (forall n i, nth_error (tx_inputs t) n = Some i ->
       exists a o, nth_error os n = Some o /\ get bytes_eqb m (op_digest (in_ref i)) = Some (Some a) /\ stands a /\
                   unlocks t n i (n_tx a) (time_of a) o) ->
    spends t m.
End Spec.

(* ---- generation *)
Section Look.
Variable look : bytes -> dbtx.
(* the transactions that a proof of the payment must have without a Merkle proof *)
Inductive unproved (payment : list tx) : tx -> Prop :=
| unproved_pays t : In t payment -> unproved payment t
| unproved_spends t i a : unproved payment t -> In i (tx_inputs t) -> x_tx (look (op_digest (in_ref i))) = Some a ->
    dbtx_confirmed (look (op_digest (in_ref i))) = false -> unproved payment a.
(* all transactions that it spends from are there *)
Definition known_inputs (payment : list tx) : Prop := forall t i, unproved payment t -> In i (tx_inputs t) -> dbtx_valid (look (op_digest (in_ref i))) = true.
Definition look_time (x : dbtx) : time_limit := if dbtx_confirmed x then At (h_timestamp (c_header (x_conf x))) else PosInf.
(* t spends outputs of transactions in the database correctly *)
Definition spends_known (ovf : Z -> Z) (eval : bool -> bytes -> bytes -> itx -> N -> Z -> bool) (upgrade : time_limit) (t : tx) : Prop :=
  exists os, length os = length (tx_inputs t) /\ funded ovf t os /\
    forall n i, nth_error (tx_inputs t) n = Some i ->
      exists a o, nth_error os n = Some o /\ x_tx (look (op_digest (in_ref i))) = Some a /\
        unlocks eval upgrade t n i a (look_time (look (op_digest (in_ref i)))) o.
(* transactions are looked up by their ids; confirmed ones are in a known block *)
Definition look_keyed (H : bytes -> bytes) : Prop := forall x t, x_tx (look x) = Some t -> tx_id H t = x.
Definition look_mined (H : bytes -> bytes) (known : bytes -> bool) : Prop := forall x t, x_tx (look x) = Some t ->
  dbtx_confirmed (look x) = true -> mined H known t (x_conf (look x)).
(* no unconfirmed transaction is its own ancestor, and lines of ancestors are shorter than n *)
Definition ranked (n : nat) : Prop := exists rank : bytes -> nat, (forall x, (rank x < n)%nat) /\
  forall x t i, x_tx (look x) = Some t -> dbtx_confirmed (look x) = false -> In i (tx_inputs t) -> (rank (op_digest (in_ref i)) < rank x)%nat.
End Look.
(* the database has a header under the digest *)
Definition db_knows (m : db) (d : bytes) : bool := match header_by m d with Some _ => true | None => false end.

(* ---- the keys in a tree *)
Inductive mentions (d : bytes) : atree -> Prop :=
| mentions_here m o : In (d, o) m -> mentions d (Antecedents m)
| mentions_deep m k t p : In (k, Some (mkanode t p)) m -> mentions d p -> mentions d (Antecedents m).
(* a null pointer somewhere in a tree *)
Inductive has_null : atree -> Prop :=
| null_here m k : In (k, None) m -> has_null (Antecedents m)
| null_deep m k t p : In (k, Some (mkanode t p)) m -> has_null p -> has_null (Antecedents m).

(* ---- extended transactions *)
(* os are the outputs that the inputs refer to *)
Definition prevouts (look : bytes -> option tx) (l : list input) (os : list output) : Prop :=
  Forall2 (fun i o => exists a, look (op_digest (in_ref i)) = Some a /\ at_index (tx_outputs a) (op_index (in_ref i)) = Some o) l os.
Definition with_prevouts (l : list input) (os : list output) : list xinput := map2 (fun i o => {| xi_input := i; xi_prevout := o |}) l os.
Definition xtx_of (t : tx) (l : list xinput) : xtx :=
  {| xt_version := tx_version t; xt_inputs := l; xt_outputs := tx_outputs t; xt_locktime := tx_locktime t |}.
Definition tx_under (m : amap) (d : bytes) : option tx := match get bytes_eqb m d with Some (Some a) => Some (n_tx a) | _ => None end.
