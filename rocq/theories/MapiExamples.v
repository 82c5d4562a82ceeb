(* Concrete messages of the Merchant API for the examples beside the properties. *)
From Coq Require Import String Lia ZifyBool ZifyNat ZifyN.
From Verif Require Import Base BaseProofs MerkleModel TextModel JsonModel StratumConfigSpec DictProofs ExtModel TscModel TscSpec EnvelopeModel EnvelopeSpec EnvelopeExamples MapiModel MapiSpec.
Local Open Scope list_scope.
Local Open Scope N_scope.

Definition ex_no_odd (s : bytes) : option digest := None.
Definition ex_any (k : bytes) : bool := true.
Definition ex_shown (d : digest) : bytes := text "0x" ++ digest_text false d.
Definition ex_id : digest := repeat x07 32.
Definition ex_conflict : conflict := mkconflict ex_id 3 [x01; x02; x03].
Definition ex_fee (m r : Z) : fee := mkfee {| rt_satoshis := m; rt_bytes := 1000 |} {| rt_satoshis := r; rt_bytes := 1000 |}.
Definition ex_quote : fee_quote :=
  mkquote (text "1.4.0") (text "2021-11-12T13:17:47Z") (text "2021-11-12T13:27:47Z") [x02; x03] ex_id 151
          [(text "data", ex_fee 500 250); (text "standard", ex_fee 500 250)].
Definition ex_quote_negative : fee_quote :=
  mkquote (fq_version ex_quote) (fq_time ex_quote) (fq_expiry ex_quote) (fq_miner ex_quote) (fq_hash ex_quote) (fq_height ex_quote) [(text "data", ex_fee (-1) 250)].
Definition ex_status : status := mkstatus ex_id true (text "ok") [ex_conflict].
(* a status with both names of the description *)
Definition ex_status_json : json := j_set (text "returnDescription") (JString []) (status_write false false ex_status).
(* a status with the name that is looked for, but not the one that is read *)
Definition ex_status_bad : json :=
  JObject [(text "returnDescription", JString []); (text "returnResult", JString (text "failure")); (text "txid", JString (digest_text false ex_id))].
(* the status of a transaction *)
Definition ex_tx_json : json :=
  j_set (text "apiVersion") (JString (text "1.4.0")) (j_set (text "timestamp") (JString (text "now")) (j_set (text "blockHash") (JString (digest_text false ex_id))
  (j_set (text "blockHeight") (JUint 151) (j_set (text "minerId") (JString (text "0203")) (j_set (text "txSecondMempoolExpiry") (JUint 5) ex_status_json))))).
Definition ex_tx_status : tx_status := mktxstatus status_none (text "1.4.0") (text "now") [x02; x03] 5 (Some ex_id) (Some 151) None.
(* many submissions *)
Definition ex_all_json : json :=
  JObject [(text "apiVersion", JString (text "1.4.0")); (text "blockHash", JString (digest_text false ex_id)); (text "currentHighestBlockHash", JString (text "x"));
           (text "currentHighestBlockHeight", JUint 151); (text "failureCount", JUint 0); (text "minerId", JString (text "0203"));
           (text "timestamp", JString (text "now")); (text "txSecondMempoolExpiry", JUint 5); (text "txs", JArray [ex_status_json])].
Definition ex_all : submitted_all := mksubmittedall (text "1.4.0") (text "now") [x02; x03] ex_id 151 5 [ex_status] 0.
Definition ex_submission : submission := mksubmission [xab; xcd] (mkparameters (Some (text "url")) None (Some true) None (Some false) None).
(* answers: parsing knows one text *)
Definition ex_answer : json :=
  JObject [(text "encoding", JString (text "UTF-8")); (text "mimetype", JString (text "application/json")); (text "payload", JString (text "{}"))].
Definition ex_answer_signed : json := env_write false ex_signed.
Definition ex_parse (b : bytes) : option json := if bytes_eqb b (text "signed") then Some ex_answer_signed else Some ex_answer.
Definition ex_json : bytes := text "application/json".

Lemma ex_shown_ok : forall d, exists a b, ex_shown d = a :: b :: digest_text false d.
Proof. intros d. exists x30, x78. reflexivity. Qed.
Lemma ex_sorted : sorted (fq_fees ex_quote).
Proof. unfold sorted. cbn [fq_fees ex_quote]. repeat (apply Sorted.SSorted_cons || apply Sorted.SSorted_nil || apply Forall_cons || apply Forall_nil); reflexivity. Qed.
Lemma ex_quote_wf : quote_wf ex_quote /\ quote_sound ex_any ex_quote /\ payable ex_quote.
Proof.
  split; [|split].
  - split; [reflexivity|]. split; [exact ex_sorted|]. repeat (apply Forall_cons || apply Forall_nil); unfold rate_wf; cbn; lia.
  - repeat split; try (cbn; discriminate). cbn [fq_fees ex_quote]. repeat (apply Forall_cons || apply Forall_nil); cbn; split; discriminate.
  - unfold payable. cbn [fq_fees ex_quote]. repeat (apply Forall_cons || apply Forall_nil); cbn; lia.
Qed.
Lemma ex_negative_wf : quote_wf ex_quote_negative /\ quote_sound ex_any ex_quote_negative /\ ~ payable ex_quote_negative.
Proof.
  split; [|split].
  - split; [reflexivity|]. split; [unfold sorted; repeat (apply Sorted.SSorted_cons || apply Sorted.SSorted_nil || apply Forall_cons || apply Forall_nil)|]. repeat (apply Forall_cons || apply Forall_nil); unfold rate_wf; cbn; lia.
  - repeat split; try (cbn; discriminate). cbn [fq_fees ex_quote_negative]. repeat (apply Forall_cons || apply Forall_nil); cbn; split; discriminate.
  - unfold payable. intros F. apply Forall_inv in F. cbn in F. lia.
Qed.
Lemma ex_all_sound : submitted_all_sound ex_any ex_all.
Proof. repeat split; try (cbn; discriminate). cbn [sa_txs ex_all]. apply Forall_cons; [discriminate|apply Forall_nil]. Qed.
