(* The JSON form of BEEF. *)
From Coq Require Import String.
From Verif Require Import Base BaseProofs WireModel WireSpec MerkleModel MerkleExamples TextModel TextSpec JsonModel TscModel BumpModel BumpSpec BumpJsonModel BumpJsonSpec
  ScriptModel MachineModel SighashModel BeefModel BeefSpec BeefExamples BeefJsonModel BeefJsonSpec BeefJsonProofs.
Local Open Scope list_scope.
Local Open Scope N_scope.

(* C130 *)
Theorem C130_written : forall u1 u2 b j, beef_json u1 u2 b = Ret j <-> Forall nodes_valid (bf_bumps b) /\ j = beef_object u1 u2 b.
Proof. exact beef_json_exact. Qed.
Print Assumptions C130_written.
Theorem C130_throws : forall u1 u2 b, beef_json u1 u2 b = Throw tt <-> ~ Forall nodes_valid (bf_bumps b).
Proof. exact beef_json_throws. Qed.
Print Assumptions C130_throws.
Theorem C130_defined : forall u1 u2 b, beef_json u1 u2 b <> Undef.
Proof. exact beef_json_defined. Qed.
Print Assumptions C130_defined.
Theorem C130_valid : forall u1 u2 H b, beef_valid H b = Ret true -> exists j, beef_json u1 u2 b = Ret j.
Proof. exact beef_valid_json. Qed.
Print Assumptions C130_valid.
(* nothing is lost but flags of nodes that are not known *)
Theorem C130_determines : forall u1 u2 a b j, Forall nodes_valid (bf_bumps b) -> beef_ranges a -> beef_ranges b -> beef_json u1 u2 a = Ret j ->
  (beef_json u1 u2 b = Ret j <-> beef_clean a = beef_clean b).
Proof. exact beef_json_same. Qed.
Print Assumptions C130_determines.
(* the text of a transaction id is never the text the BUMPs have for it *)
Theorem C130_names_refuted : forall u2 d e, digest_hexidecimal u2 d <> digest_text u2 e.
Proof. exact names_differ. Qed.
Print Assumptions C130_names_refuted.
Example C130_example :
  let j := JObject [
    (text "BUMPs", JArray [JObject [(text "blockHeight", JUint 9); (text "path", JArray [JArray [
       JObject [(text "hash", JString (digest_text false ex_id_a)); (text "offset", JUint 0); (text "txid", JBool true)];
       JObject [(text "hash", JString (digest_text false (ex_digest 4))); (text "offset", JUint 1)]]])]]);
    (text "Transactions", JArray [
       JObject [(text "BUMPIndex", JUint 0);
         (text "inputs", JArray [JObject [(text "prevout", JObject [(text "index", JUint 0); (text "txid", JString (text "0x1111111111111111111111111111111111111111111111111111111111111111"))]);
                                          (text "script", JString (text "51")); (text "sequence", JUint 7)]]);
         (text "lockTime", JUint 0); (text "outputs", JArray [JObject [(text "script", JString (text "51")); (text "value", JUint 5000)]]); (text "version", JUint 2)];
       JObject [
         (text "inputs", JArray [JObject [(text "prevout", JObject [(text "index", JUint 0); (text "txid", JString (text "0x" ++ digest_text false ex_id_a))]);
                                          (text "script", JString (text "51")); (text "sequence", JUint 7)]]);
         (text "lockTime", JUint 0); (text "outputs", JArray [JObject [(text "script", JString (text "51")); (text "value", JUint 4000)]]); (text "version", JUint 2)]]);
    (text "version", JUint 0xEFBE0001)] in
  beef_json false false ex_beef = Ret j /\ beef_valid ex_hash32 ex_beef = Ret true /\ beef_ranges ex_beef /\
  (* two that are equal as far as == goes are told apart *)
  beef_json false false (mkbeef 0xEFBE0002 [ex_bump_a] (bf_txs ex_beef)) <> Ret j /\
  (* a value of -1 is written as a large number; a node without digest that is not a duplicate throws *)
  output_json false {| out_value := -1; out_script := [] |} = JObject [(text "script", JString []); (text "value", JUint 18446744073709551615)] /\
  beef_json false false (mkbeef 0xEFBE0001 [mkbump 0 [[mknode 0 flag_client None]]] []) = Throw tt.
Proof.
  split; [vm_compute; reflexivity|]. split; [vm_compute; reflexivity|]. split.
  { constructor; [|constructor; [|constructor]]; (split; [split; vm_compute; (reflexivity || discriminate)|constructor; [split; vm_compute; (reflexivity || discriminate)|constructor]]). }
  split; [vm_compute; discriminate|]. split; vm_compute; reflexivity.
Qed.
