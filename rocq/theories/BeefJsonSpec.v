(* What the JSON form of a BEEF is. *)
From Coq Require Import String.
From Verif Require Import Base WireModel WireSpec TextModel TextSpec JsonModel TscModel BumpModel BumpSpec BumpJsonModel BumpJsonSpec BeefModel BeefSpec.
Local Open Scope list_scope.
Local Open Scope N_scope.

Section BeefJson.
Variable u1 u2 : bool.
Definition bump_object (b : bump) : json :=
  JObject [(text "blockHeight", JUint (bp_height b));
           (text "path", JArray (map (fun l => JArray (map (node_object u2) l)) (bp_path b)))].
Definition input_object (i : input) : json :=
  JObject [(text "prevout", JObject [(text "index", JUint (op_index (in_ref i)));
                                     (text "txid", JString (text "0x" ++ digest_text u2 (op_digest (in_ref i))))]);
           (text "script", JString (hex_of u1 (in_script i)));
           (text "sequence", JUint (in_seq i))].
Definition output_object (o : output) : json :=
  JObject [(text "script", JString (hex_of u1 (out_script o)));
           (text "value", JUint (Z.to_N (out_value o mod 2 ^ 64)))].
Definition btx_object (t : btx) : json :=
  JObject (match bt_index t with Some i => [(text "BUMPIndex", JUint i)] | None => [] end ++
           [(text "inputs", JArray (map input_object (tx_inputs (bt_tx t))));
            (text "lockTime", JUint (tx_locktime (bt_tx t)));
            (text "outputs", JArray (map output_object (tx_outputs (bt_tx t))));
            (text "version", JUint (Z.to_N (tx_version (bt_tx t) mod 2 ^ 32)))]).
Definition beef_object (b : beef) : json :=
  JObject [(text "BUMPs", JArray (map bump_object (bf_bumps b)));
           (text "Transactions", JArray (map btx_object (bf_txs b)));
           (text "version", JUint (bf_version b))].
End BeefJson.

Definition nodes_valid (b : bump) : Prop := Forall (Forall (fun n => node_valid n = true)) (bp_path b).
(* the fields that a C++ object can have *)
Definition tx_ranges (t : tx) : Prop :=
  (- 2 ^ 31 <= tx_version t < 2 ^ 31)%Z /\ Forall (fun o => (- 2 ^ 63 <= out_value o < 2 ^ 63)%Z) (tx_outputs t).
Definition beef_ranges (b : beef) : Prop := Forall (fun t => tx_ranges (bt_tx t)) (bf_txs b).
(* flags of nodes that are not known are taken for zero *)
Definition beef_clean (b : beef) : beef := mkbeef (bf_version b) (map clean (bf_bumps b)) (bf_txs b).
