(* C33, C47, C95, C106, C134: edges of properties stated elsewhere. *)
From Coq Require Import String.
From Verif Require Import Base TextModel EdgeProofs.
From Verif Require WireModel ExtModel ExtExamples ArcModel TscModel WorkModel MerkleModel MerkleExamples BoostModel BoostSpec BoostExamples MapiRequestModel StratumModel StratumSessionModel JsonModel.
Local Open Scope N_scope.

(* The bytes of a transaction are undefined exactly when they are more than announced. *)
Theorem C106_undefined :
  (forall dump u1 c t, ArcModel.tx_body dump u1 c t = Undef <-> c <> ArcModel.COther /\ ExtModel.xtx_size t < len (ExtModel.xtx_write t)) /\
  (forall dump u1 base t s, ArcModel.submit_tx dump u1 base t s = Undef <->
     (exists l, ArcModel.headers s = Ret l) /\ ExtModel.xtx_size t < len (ExtModel.xtx_write t)).
Proof. exact (conj body_undefined submit_undefined). Qed.
Print Assumptions C106_undefined.
Theorem C106_words : 
  (forall u2 base, ArcModel.policy_path base = base ++ text "/v1/policy" /\ ArcModel.health_path base = base ++ text "/v1/health" /\
     forall d, ArcModel.status_path u2 base d = base ++ text "/v1/tx/" ++ TscModel.hex_of u2 (rev d)) /\
  map ArcModel.wait_text [2; 3; 4; 5; 6; 7; 8] =
  map Ret [text "RECEIVED"; text "STORED"; text "ANNOUNCED_TO_NETWORK"; text "REQUESTED_BY_NETWORK"; text "SENT_TO_NETWORK"; text "ACCEPTED_BY_NETWORK"; text "SEEN_ON_NETWORK"].
Proof. exact (conj paths_exact waits_exact). Qed.
Print Assumptions C106_words.

Theorem C134_words : forall get,
  MapiRequestModel.policy_request get = MapiRequestModel.mkrequest false (get (text "/mapi/policyQuote")) None MapiRequestModel.BNone /\
  MapiRequestModel.fee_request get = MapiRequestModel.mkrequest false (get (text "/mapi/feeQuote")) None MapiRequestModel.BNone.
Proof. exact mapi_paths. Qed.
Print Assumptions C134_words.

(* A proof made from a work string has the fields of the string, no path and no version bits. *)
Theorem C33_rebuild_fields : forall H w mp h n1 n2 b, WireModel.h_merkle_root w = H (h ++ be 4 n1 ++ n2 ++ b) ->
  WorkModel.wproof_of_string H w mp h n1 n2 b =
  {| WorkModel.wp_puzzle := {| WorkModel.pz_candidate := {| WorkModel.ca_category := WireModel.h_version w; WorkModel.ca_digest := WireModel.h_previous w;
                                                            WorkModel.ca_target := WireModel.h_target w; WorkModel.ca_path := MerkleModel.mkpath 0 [] |};
                               WorkModel.pz_header := h; WorkModel.pz_body := b; WorkModel.pz_mask := -1 |};
     WorkModel.wp_solution := {| WorkModel.so_share := {| WorkModel.sh_timestamp := WireModel.h_timestamp w; WorkModel.sh_nonce := WireModel.h_nonce w;
                                                          WorkModel.sh_extra2 := n2; WorkModel.sh_bits := None |};
                                 WorkModel.so_extra1 := n1 |} |}.
Proof. exact rebuilt_fields. Qed.
Print Assumptions C33_rebuild_fields.
Example C33_rebuild_fields_example : exists w, WireModel.h_merkle_root w = MerkleExamples.ex_hash32 ([x01] ++ be 4 2 ++ repeat x03 8 ++ [x04]) /\ WireModel.h_version w = 5%Z.
Proof.
  exists {| WireModel.h_version := 5; WireModel.h_previous := repeat x00 32; WireModel.h_merkle_root := MerkleExamples.ex_hash32 ([x01] ++ be 4 2 ++ repeat x03 8 ++ [x04]);
            WireModel.h_timestamp := 1; WireModel.h_target := 0x207fffff; WireModel.h_nonce := 7 |}. split; reflexivity.
Qed.

(* The version of a script is 1 for a bounty, 2 for a contract and 0 for any other script that can be read. *)
Theorem C47_version : forall neg1 s, len neg1 < 4 ->
  (BoostModel.output_version neg1 s = Ret 1%Z <-> exists o, BoostSpec.sound_output o /\ BoostSpec.output_form neg1 o s /\ BoostModel.bo_type o = BoostModel.Bounty) /\
  (BoostModel.output_version neg1 s = Ret 2%Z <-> exists o, BoostSpec.sound_output o /\ BoostSpec.output_form neg1 o s /\ BoostModel.bo_type o = BoostModel.Contract) /\
  (BoostModel.output_version neg1 s = Ret 0%Z <-> (exists o, BoostModel.output_read neg1 s = Ret o) /\ ~ exists o, BoostSpec.sound_output o /\ BoostSpec.output_form neg1 o s).
Proof. exact version_exact. Qed.
Print Assumptions C47_version.
Example C47_version_example : BoostModel.output_version [x81] BoostExamples.ex_script1 = Ret 1%Z /\ BoostModel.output_version [x81] [] = Ret 0%Z /\
  exists s, BoostModel.output_write BoostExamples.ex_contract = Some s /\ BoostModel.output_version [x81] s = Ret 2%Z.
Proof. split; [vm_compute; reflexivity|]. split; [vm_compute; reflexivity|]. eexists. split; vm_compute; reflexivity. Qed.

(* With a subscription, which a server never has, an extranonce and a difficulty are announced when they are new. *)
Theorem C95_announced_extranonce : forall x s, StratumSessionModel.sv_subscriptions s <> [] ->
  (StratumSessionModel.sv_next_extranonce s = x \/ StratumSessionModel.sv_next_extranonce s = StratumModel.mkextra 0 0 /\ StratumSessionModel.sv_extranonce s = x ->
     StratumSessionModel.send_set_extranonce x s = (s, [], StratumSessionModel.Done)) /\
  (StratumSessionModel.sv_next_extranonce s <> x -> StratumSessionModel.sv_next_extranonce s <> StratumModel.mkextra 0 0 \/ StratumSessionModel.sv_extranonce s <> x ->
     StratumSessionModel.send_set_extranonce x s =
     (StratumSessionModel.sv_set_next_extranonce x s, [StratumModel.notification StratumModel.mining_set_extranonce (StratumModel.set_extranonce_write x)], StratumSessionModel.Done)).
Proof. exact extranonce_announced. Qed.
Print Assumptions C95_announced_extranonce.
Theorem C95_announced_difficulty : forall less same d s, StratumSessionModel.sv_subscriptions s <> [] ->
  StratumSessionModel.send_set_difficulty less same d s =
  if match StratumSessionModel.sv_minimum s with Some m => less d m | None => false end || same d (StratumSessionModel.sv_next_difficulty s)
  then (s, [], StratumSessionModel.Done)
  else (StratumSessionModel.sv_set_next d s, [StratumModel.notification StratumModel.mining_set_difficulty (StratumModel.set_difficulty_write d)], StratumSessionModel.Done).
Proof. exact difficulty_announced. Qed.
Print Assumptions C95_announced_difficulty.
Example C95_announced_example : exists s, StratumSessionModel.sv_subscriptions s <> [] /\ StratumSessionModel.sv_next_extranonce s <> StratumModel.mkextra 7 8 /\
  StratumSessionModel.sv_next_extranonce s <> StratumModel.mkextra 0 0.
Proof.
  exists (StratumSessionModel.mkserver StratumSessionModel.remote_new (StratumSessionModel.sv_masks StratumSessionModel.server_new) None None None [StratumModel.mksub StratumModel.mining_notify []]
            (StratumModel.mkextra 1 8) (StratumModel.mkextra 0 0) JsonModel.JNull). split; [discriminate|]. split; discriminate.
Qed.
