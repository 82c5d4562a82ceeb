(* Sample data for the TSC proofs. *)
From Coq Require Import String.
From Verif Require Import Base WireModel WireSpec MerkleModel MerkleExamples TextModel JsonModel BeefModel BeefExamples SpvModel SpvExamples TscModel TscSpec.
Local Open Scope list_scope.
Local Open Scope N_scope.

Definition ex_no_odd (s : bytes) : option digest := None.
(* the first of two transactions in ex_block *)
Definition ex_tsc_id : tsc := mktsc None (Some ex_id_a) ex_path_a None None (Some ex_block).
Definition ex_tsc_tx : tsc := mktsc (Some (tx_write ex_tx_a)) None ex_path_a (Some (header_hash ex_hash32 ex_block)) None None.
(* 32 bytes in place of a transaction *)
Definition ex_tsc_short : tsc := mktsc (Some (ex_digest 5)) None (mkpath 7 [Some (ex_digest 6); None]) None (Some (ex_digest 8)) None.
Definition ex_tsc_far : tsc := mktsc None (Some ex_id_a) (mkpath (2 ^ 32 + 5) [None]) None (Some (ex_digest 8)) None.
(* a value with a target type but no target *)
Definition ex_json_no_target : json :=
  JObject [(text "index", JUint 0); (text "nodes", JArray []); (text "targetType", JString (text "hash")); (text "txOrId", JString (hex_write (ex_digest 1)))].
Definition ex_json_number : json :=
  JObject [(text "index", JUint 0); (text "nodes", JArray [JString (text "*")]); (text "target", JUint 5); (text "targetType", JString (text "hash")); (text "txOrId", JString (hex_write (ex_digest 1)))].
