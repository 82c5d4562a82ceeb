(* The JSON form of BEEF.
   Source: pay/BEEF.cpp 223-257.
   External and left as parameters: the case of hexadecimal digits [u1] [u2] as in TscModel.  There is no reader. *)
From Coq Require Import String.
From Verif Require Import Base WireModel TextModel JsonModel TscModel BumpModel BumpJsonModel BeefModel.
Local Open Scope list_scope.
Local Open Scope N_scope.

(* JSON::object_t {{k, v}, ..}: a std::map; of members with the same key the first stays *)
Definition object_of (l : list (bytes * json)) : json := JObject (fold_left obj_add l []).

Section BeefJson.
Variable u1 u2 : bool.

(* encoding::hexidecimal::write of a digest: write_reverse_hex (hash.hpp 18-21) is this without the
   first two characters *)
Definition digest_hexidecimal (d : bytes) : bytes := text "0x" ++ digest_text u2 d.
(* 233-238 *)
Definition input_json (i : input) : json :=
  object_of [(text "prevout", object_of [(text "txid", JString (digest_hexidecimal (op_digest (in_ref i))));
                                         (text "index", JUint (op_index (in_ref i)))]);
             (text "script", JString (hex_of u1 (in_script i)));
             (text "sequence", JUint (in_seq i))].
(* 241-244: the value, a signed number of 64 bits, becomes unsigned *)
Definition output_json (o : output) : json :=
  object_of [(text "value", JUint (Z.to_N (out_value o mod 2 ^ 64)));
             (text "script", JString (hex_of u1 (out_script o)))].
(* 230-253; the version is signed and becomes unsigned *)
Definition btx_json (t : btx) : json :=
  let x := bt_tx t in
  let o := object_of [(text "version", JUint (Z.to_N (tx_version x mod 2 ^ 32)));
                      (text "inputs", JArray (map input_json (tx_inputs x)));
                      (text "outputs", JArray (map output_json (tx_outputs x)));
                      (text "lockTime", JUint (tx_locktime x))] in
  match bt_index t with Some i => j_set (text "BUMPIndex") (JUint i) o | None => o end.
(* 223-257; a BUMP with an invalid node throws *)
Definition beef_json (b : beef) : outcome unit json :=
  and_then (each (bump_json u2) (bf_bumps b)) (fun bumps =>
  Ret (object_of [(text "version", JUint (bf_version b)); (text "BUMPs", JArray bumps);
                  (text "Transactions", JArray (map btx_json (bf_txs b)))])).
End BeefJson.
