(* SPV envelopes: what their validity means, what they are made of, and what comes back from them. *)
From Coq Require Import String.
From Verif Require Import Base BaseProofs WireModel WireSpec MerkleModel MerkleExamples TextModel JsonModel StratumConfigSpec BeefModel BeefExamples SpvModel SpvExamples AncModel AncExamples TscModel TscSpec TscExamples EnvelopeSpec MapiModel MapiSpec
  SpvEnvModel SpvEnvSpec SpvEnvProofs SpvEnvBack SpvEnvJson SpvEnvExamples.
Local Open Scope list_scope.
Local Open Scope N_scope.

(* C103 *)
Theorem C103_valid : forall H e, envel_valid H e = true <-> envel_sound H e.
Proof. exact envel_valid_exact. Qed.
Print Assumptions C103_valid.
(* validate (database) does not use the database *)
Theorem C103_validate_refuted : forall H m e, envel_validate H m e = envel_valid H e.
Proof. exact validate_ignores. Qed.
Print Assumptions C103_validate_refuted.
(* what the check of a node would mean if it were given the database *)
Theorem C103_node_checked : forall H m k n,
  (exists s, validate_node H (Some m) k n Unknown = Some s) <-> exists b, node_sound H (fun p => tsc_validate H m p = true) b k n.
Proof. exact node_validate_exact. Qed.
Print Assumptions C103_node_checked.
(* any transaction with any proof, whatever it proves *)
Theorem C103_forged_refuted : forall H m root raw p, identified p -> targeted p ->
  envel_validate H m (mkspv None root [] [(rev (H raw), mkenode raw [] (Some p) [])]) = true.
Proof. exact forged_valid. Qed.
Print Assumptions C103_forged_refuted.
(* the inputs need not be those of the transaction *)
Theorem C103_inputs_refuted : forall H m r1 r2 mapi ins, envel_validate H m (mkspv None r1 mapi ins) = envel_validate H m (mkspv None r2 mapi ins).
Proof. exact root_unrelated. Qed.
Print Assumptions C103_inputs_refuted.
Example C103_example : envel_valid ex_hash32 ex_envel = true /\ envel_valid ex_hash32 ex_answered = true /\ envel_validate ex_hash32 empty_db ex_forged = true /\
  identified ex_other_proof /\ targeted ex_other_proof /\ tsc_validate ex_hash32 empty_db ex_other_proof = false /\ ts_id ex_other_proof <> Some ex_id_a /\
  envel_validate ex_hash32 empty_db (mkspv None (tx_write ex_pay) [] []) = true /\
  envel_valid ex_hash32 (mkspv (Some ex_id_a) (tx_write ex_pay) [] []) = false.
Proof.
  split; [vm_compute; reflexivity|]. split; [vm_compute; reflexivity|]. split; [vm_compute; reflexivity|]. split; [right; exists (ex_digest 1); split; reflexivity|].
  split; [right; left; exists (ex_digest 2); repeat split; reflexivity|]. split; [vm_compute; reflexivity|]. split; [vm_compute; discriminate|]. split; vm_compute; reflexivity.
Qed.
(* from SPV proofs *)
Theorem C103_from_proof : forall keep p e, envel_of_proof keep p = Ret e <-> proof_converted keep p e.
Proof. exact envel_of_proof_exact. Qed.
Print Assumptions C103_from_proof.
Theorem C103_from_proof_defined : forall keep p,
  (ap_payment p = [] \/ (exists a b l, ap_payment p = a :: b :: l)) /\ envel_of_proof keep p = Throw tt \/
  (exists t, ap_payment p = [t]) /\ (forall e, envel_of_proof keep p <> Throw e) /\
    ((exists e, envel_of_proof keep p = Ret e) <-> Forall (fun x => exists a, snd x = Some a /\ solid a) (ap_map p)).
Proof. exact envel_of_proof_total. Qed.
Print Assumptions C103_from_proof_defined.
Theorem C103_from_proof_valid : forall H keep p e, id_sorted (ap_map p) -> Forall (fun x => forall a, snd x = Some a -> ordered a) (ap_map p) -> envel_of_proof keep p = Ret e ->
  (envel_valid H e = true <-> Forall (fun x => exists a, snd x = Some a /\ named H (fst x) a) (ap_map p)).
Proof. exact from_proof_valid. Qed.
Print Assumptions C103_from_proof_valid.
Example C103_from_proof_example : (id_sorted (ap_map ex_spv_proof) /\ Forall (fun x => forall a, snd x = Some a -> ordered a) (ap_map ex_spv_proof)) /\
  envel_of_proof true ex_spv_proof = Ret ex_envel /\ Forall (fun x => exists a, snd x = Some a /\ named ex_hash32 (fst x) a) (ap_map ex_spv_proof) /\
  envel_of_proof true (mkaproof [ex_pay] [(ex_id_b, None)]) = Undef /\ envel_of_proof true (mkaproof [ex_pay; ex_pay] []) = Throw tt.
Proof. split; [exact ex_proof_ordered|]. split; [apply ex_converted|]. split; [exact ex_proof_named|]. split; reflexivity. Qed.

(* C104 *)
(* to SPV proofs *)
Theorem C104_to_proof : forall H m e p, spv_of_envel H m e = Some p <-> proof_returned m e p.
Proof. exact spv_of_envel_exact. Qed.
Print Assumptions C104_to_proof.
Theorem C104_there_and_back : forall H m keep p e, id_sorted (ap_map p) -> Forall tx_wf (ap_payment p) -> Forall (fun x => forall a, snd x = Some a -> ordered a /\ writable a) (ap_map p) ->
  envel_of_proof keep p = Ret e -> (spv_of_envel H m e = Some p <-> Forall (fun x => forall a, snd x = Some a -> placed m a) (ap_map p)).
Proof. exact there_and_back. Qed.
Print Assumptions C104_there_and_back.
Example C104_there_and_back_example : id_sorted (ap_map ex_spv_proof) /\ (Forall tx_wf (ap_payment ex_spv_proof) /\ Forall (fun x => forall a, snd x = Some a -> ordered a /\ writable a) (ap_map ex_spv_proof)) /\
  envel_of_proof false ex_spv_proof = Ret ex_envel /\
  (exists m, ex_run ex_db ex_spv_history = Done m /\ Forall (fun x => forall a, snd x = Some a -> placed m a) (ap_map ex_spv_proof)) /\
  spv_of_envel ex_hash32 empty_db ex_envel = None.
Proof. split; [apply ex_proof_ordered|]. split; [exact ex_proof_writable|]. split; [apply ex_converted|]. split; [exact ex_placed|vm_compute; reflexivity]. Qed.
(* a header in a proof is not compared with the one in the database *)
Theorem C104_header_refuted : exists m c, ex_run ex_db ex_spv_history = Done m /\ read_confirmation ex_hash32 m (mktsc None (Some ex_id_a) ex_path_a None None (Some ex_block')) = Some c /\
  c_header c = ex_block' /\ header_by m ex_root_ab = Some (c_height c, ex_block) /\ ex_block <> ex_block'.
Proof. exact other_header_kept. Qed.
Print Assumptions C104_header_refuted.
(* JSON *)
Theorem C104_node_read : forall keep odd dump parse j n, enode_read keep odd dump parse j = Ret (Some n) <-> jnode_says keep odd j n.
Proof. exact enode_read_exact. Qed.
Print Assumptions C104_node_read.
Theorem C104_read : forall keep odd dump parse j e, e <> envel_none -> (envel_read keep odd dump parse j = Ret e <-> envel_says keep odd j e).
Proof. exact envel_read_exact. Qed.
Print Assumptions C104_read.
Theorem C104_round_trip : forall keep u1 u2 odd dump parse answer e, envel_restorable e ->
  exists j, envel_write u1 u2 answer e = Ret j /\ envel_read keep odd dump parse j = Ret e.
Proof. exact envel_round_trip. Qed.
Print Assumptions C104_round_trip.
Example C104_round_trip_example : envel_restorable ex_envel /\ envel_restorable (mkspv (Some ex_id_b) (tx_write ex_tx_b) [] [(rev ex_id_a, ex_envel_a)]).
Proof. exact ex_envel_restorable. Qed.
Theorem C104_sent : forall keep u1 u2 odd dump parse answer p e, id_sorted (ap_map p) -> Forall (fun x => id_ok (fst x) /\ forall a, snd x = Some a -> ordered a /\ sendable a) (ap_map p) ->
  envel_of_proof keep p = Ret e -> exists j, envel_write u1 u2 answer e = Ret j /\ envel_read keep odd dump parse j = Ret e.
Proof. exact sent_and_read. Qed.
Print Assumptions C104_sent.
Example C104_sent_example : id_sorted (ap_map ex_spv_proof) /\ Forall (fun x => id_ok (fst x) /\ forall a, snd x = Some a -> ordered a /\ sendable a) (ap_map ex_spv_proof) /\ envel_of_proof false ex_spv_proof = Ret ex_envel.
Proof. split; [apply ex_proof_ordered|]. split; [exact ex_proof_sendable|apply ex_converted]. Qed.
(* answers of miners are never read *)
Theorem C104_answers_refuted : forall keep odd dump parse e j, ~ (sv_mapi e = [] /\ Forall (fun x => bare (snd x)) (sv_inputs e)) -> envel_read keep odd dump parse j <> Ret e.
Proof. exact answers_not_back. Qed.
Print Assumptions C104_answers_refuted.
(* what cannot be read is a valid envelope *)
Example C104_unread_example : envel_valid ex_hash32 ex_answered = true /\ sv_mapi ex_answered <> [] /\
  envel_read true ex_no_odd ex_dump ex_parse JNull = Ret envel_none /\ envel_validate ex_hash32 empty_db envel_none = true /\
  envel_read true ex_no_odd ex_dump ex_parse (JObject [(text "inputs", JObject []); (text "mapiResponses", JArray [JNull]); (text "rawTx", JString [])]) = Ret envel_none /\
  envel_read true ex_no_odd ex_dump ex_parse (JObject [(text "inputs", JObject [(text "zz", JObject [(text "inputs", JObject []); (text "rawTx", JString [])])]); (text "rawTx", JString [])]) = Throw tt.
Proof. split; [vm_compute; reflexivity|]. split; [discriminate|]. repeat (split; [vm_compute; reflexivity|]). vm_compute. reflexivity. Qed.
