(* Sample data and counterexamples for envelopes. *)
From Coq Require Import String Lia ZifyBool ZifyNat ZifyN.
From Verif Require Import Base BaseProofs WireModel WireSpec MerkleModel MerkleExamples TextModel JsonModel StratumConfigSpec BeefModel BeefExamples SpvModel SpvExamples AncModel AncExamples TscModel TscSpec TscExamples MapiModel MapiSpec SpvEnvModel SpvEnvSpec SpvEnvProofs SpvEnvBack SpvEnvJson.
Local Open Scope list_scope.
Local Open Scope N_scope.

(* ex_spv_proof as an envelope *)
Definition ex_envel_a : enode := mkenode (tx_write ex_tx_a) [] (Some ex_tsc_id) [].
Definition ex_envel_b : enode := mkenode (tx_write ex_tx_b) [] None [(rev ex_id_a, Some ex_envel_a)].
Definition ex_envel : envel := mkspv None (tx_write ex_pay) [] [(rev ex_id_b, ex_envel_b)].
(* a proof of another transaction, for a block that nobody knows *)
Definition ex_other_proof : tsc := mktsc None (Some (ex_digest 1)) (mkpath 0 []) None (Some (ex_digest 2)) None.
Definition ex_forged : envel := mkspv None (tx_write ex_pay) [] [(rev ex_id_a, mkenode (tx_write ex_tx_a) [] (Some ex_other_proof) [])].
Definition ex_answer_ok : response tx_status := mkresponse _ (mktxstatus status_none (text "1.4.0") (text "now") [x02] 0 None None None) None None.
Definition ex_answered : envel := mkspv (Some ex_id_b) (tx_write ex_tx_b) [ex_answer_ok] [(rev ex_id_a, mkenode (tx_write ex_tx_a) [ex_answer_ok] (Some ex_tsc_id) [])].
Definition ex_dump (j : json) : bytes := [].
Definition ex_parse (b : bytes) : option json := None.
Definition ex_shown_answer (r : response tx_status) : json := JNull.

Lemma ex_one {A} k (v : A) : sorted [(k, v)].
Proof. repeat (apply Sorted.SSorted_cons || apply Sorted.SSorted_nil || apply Forall_cons || apply Forall_nil). Qed.
Lemma ex_tx_wfs : tx_wf ex_tx_a /\ tx_wf ex_tx_b /\ tx_wf ex_pay.
Proof. split; [|split]; repeat (constructor; try easy). Qed.
Lemma ex_proof_ordered : id_sorted (ap_map ex_spv_proof) /\ Forall (fun x => forall a, snd x = Some a -> ordered a) (ap_map ex_spv_proof).
Proof.
  split; [apply ex_one|]. repeat (apply Forall_cons || apply Forall_nil). cbn [snd]. intros a E. assert (a = ex_node_b) as -> by congruence. constructor; [apply ex_one|]. repeat (apply Forall_cons || apply Forall_nil). cbn [snd]. intros b E'. assert (b = ex_node_a) as -> by congruence. constructor.
Qed.
Lemma ex_proof_writable : Forall tx_wf (ap_payment ex_spv_proof) /\ Forall (fun x => forall a, snd x = Some a -> ordered a /\ writable a) (ap_map ex_spv_proof).
Proof.
  destruct ex_tx_wfs as (A & B & C). split; [repeat (apply Forall_cons || apply Forall_nil); exact C|]. repeat (apply Forall_cons || apply Forall_nil). cbn [snd]. intros a E. assert (a = ex_node_b) as -> by congruence. split.
  - pose proof (proj2 ex_proof_ordered) as F. apply Forall_inv in F. apply F. reflexivity.
  - constructor; [exact B|]. repeat (apply Forall_cons || apply Forall_nil). cbn [snd]. intros b E'. assert (b = ex_node_a) as -> by congruence. constructor. exact A.
Qed.
Lemma ex_proof_named : Forall (fun x => exists a, snd x = Some a /\ named ex_hash32 (fst x) a) (ap_map ex_spv_proof).
Proof.
  repeat (apply Forall_cons || apply Forall_nil). exists ex_node_b. split; [reflexivity|]. apply named_antecedents; [discriminate|]. repeat (apply Forall_cons || apply Forall_nil). exists ex_node_a. split; [reflexivity|]. apply named_confirmed.
Qed.
Lemma ex_converted : forall keep, envel_of_proof keep ex_spv_proof = Ret ex_envel.
Proof. intros []; vm_compute; reflexivity. Qed.
Lemma ex_placed : exists m, ex_run ex_db ex_spv_history = Done m /\ Forall (fun x => forall a, snd x = Some a -> placed m a) (ap_map ex_spv_proof).
Proof.
  assert (E : exists m, ex_run ex_db ex_spv_history = Done m) by (eexists; vm_compute; reflexivity). destruct E as [m E]. exists m. split; [exact E|].
  assert (K : exists h, header_by m ex_root_ab = Some (1, h)).
  { assert (X : match ex_run ex_db ex_spv_history with Done m => match header_by m ex_root_ab with Some (n, _) => N.eqb n 1 | None => false end | _ => false end = true) by (vm_compute; reflexivity).
    rewrite E in X. destruct (header_by m ex_root_ab) as [[n h]|]; [|discriminate X]. apply N.eqb_eq in X. subst n. eauto. }
  repeat (apply Forall_cons || apply Forall_nil). cbn [snd]. intros a Ea. assert (a = ex_node_b) as -> by congruence. constructor. repeat (apply Forall_cons || apply Forall_nil). cbn [snd]. intros b Eb. assert (b = ex_node_a) as -> by congruence. constructor. exact K.
Qed.
Lemma ex_ids_ok : id_ok ex_id_a /\ id_ok ex_id_b.
Proof. split; (split; [vm_compute; reflexivity|vm_compute; discriminate]). Qed.
Lemma ex_proof_sendable : Forall (fun x => id_ok (fst x) /\ forall a, snd x = Some a -> ordered a /\ sendable a) (ap_map ex_spv_proof).
Proof.
  destruct ex_ids_ok as [A B]. repeat (apply Forall_cons || apply Forall_nil). split; [exact B|]. cbn [snd]. intros a E. assert (a = ex_node_b) as -> by congruence. split.
  - pose proof (proj2 ex_proof_ordered) as F. apply Forall_inv in F. apply F. reflexivity.
  - constructor. repeat (apply Forall_cons || apply Forall_nil). split; [exact A|]. cbn [snd]. intros b E'. assert (b = ex_node_a) as -> by congruence. constructor; [|reflexivity|reflexivity|repeat (apply Forall_cons || apply Forall_nil); vm_compute; reflexivity].
    repeat split; vm_compute; (discriminate || reflexivity).
Qed.
Lemma ex_envel_restorable : envel_restorable ex_envel /\ envel_restorable (mkspv (Some ex_id_b) (tx_write ex_tx_b) [] [(rev ex_id_a, ex_envel_a)]).
Proof.
  destruct ex_ids_ok as [A B]. assert (R : restorable ex_envel_a).
  { constructor; [|right; exists ex_id_a; split; reflexivity|right; right; exists ex_block; repeat split; reflexivity|reflexivity|reflexivity]. unfold tsc_wf. cbn [ex_tsc_id ts_tx ts_id ts_path ts_hash ts_root ts_header opt_wf].
    repeat split; try (vm_compute; (discriminate || reflexivity)). repeat (apply Forall_cons || apply Forall_nil). vm_compute. reflexivity. }
  split.
  - split; [reflexivity|]. split; [discriminate|]. split; [apply ex_one|]. repeat (apply Forall_cons || apply Forall_nil). cbn [fst snd]. rewrite rev_involutive. split; [exact B|]. constructor; [apply ex_one|]. repeat (apply Forall_cons || apply Forall_nil). cbn [fst snd]. rewrite rev_involutive. split; [exact A|]. exists ex_envel_a. auto.
  - split; [reflexivity|]. split; [intros d E; cbn [sv_txid] in E; assert (d = ex_id_b) as -> by congruence; exact B|]. split; [apply ex_one|]. repeat (apply Forall_cons || apply Forall_nil). cbn [fst snd]. rewrite rev_involutive. split; [exact A|exact R].
Qed.
(* the header in a proof is kept although the database has another one for the same root *)
Lemma other_header_kept : exists m c, ex_run ex_db ex_spv_history = Done m /\ read_confirmation ex_hash32 m (mktsc None (Some ex_id_a) ex_path_a None None (Some ex_block')) = Some c /\
  c_header c = ex_block' /\ header_by m ex_root_ab = Some (c_height c, ex_block) /\ ex_block <> ex_block'.
Proof.
  assert (E : exists m, ex_run ex_db ex_spv_history = Done m) by (eexists; vm_compute; reflexivity). destruct E as [m E]. exists m, (mkconf ex_path_a 1 ex_block').
  assert (K : header_by m ex_root_ab = Some (1, ex_block)).
  { assert (X : match ex_run ex_db ex_spv_history with Done m => header_by m ex_root_ab | _ => None end = Some (1, ex_block)) by (vm_compute; reflexivity). rewrite E in X. exact X. }
  split; [exact E|]. split; [|split; [reflexivity|split; [exact K|]]].
  - apply read_confirmation_exact. split; [left; discriminate|]. split; [reflexivity|]. left. exists ex_block', 1, ex_block. repeat split. exact K.
  - unfold ex_block, ex_block', ex_header. intros X. assert (Y : 1 = 2) by congruence. discriminate Y.
Qed.
