(* The Merchant API: what its messages say, which of them survive, and what the client makes of answers. *)
From Coq Require Import String.
From Verif Require Import Base BaseProofs MerkleModel TextModel JsonModel StratumConfigSpec ExtModel TscModel TscSpec EnvelopeModel EnvelopeSpec EnvelopeExamples MapiModel MapiSpec MapiProofs MapiWrite MapiMore MapiExamples.
Local Open Scope list_scope.
Local Open Scope N_scope.

(* C101 *)
(* conflicts *)
Theorem C101_conflict : forall odd j c, conflict_read odd j = Ret c <-> conflict_entry odd j c.
Proof. exact conflict_read_exact. Qed.
Print Assumptions C101_conflict.
Theorem C101_conflict_valid : forall c, conflict_valid c = true <-> conflict_sound c.
Proof. exact conflict_valid_exact. Qed.
Print Assumptions C101_conflict_valid.
Theorem C101_conflict_back : forall u1 u2 odd c, length (cw_txid c) = 32%nat -> conflict_read odd (conflict_write u1 u2 c) = Ret c.
Proof. exact conflict_round_trip. Qed.
Print Assumptions C101_conflict_back.
Example C101_conflict_example : length (cw_txid ex_conflict) = 32%nat /\ conflict_valid ex_conflict = true /\ conflict_read ex_no_odd (conflict_write true true ex_conflict) = Ret ex_conflict.
Proof. vm_compute. repeat split; reflexivity. Qed.
(* statuses *)
Theorem C101_status : forall odd j s, status_read odd j = Ret s /\ status_valid s = true <-> status_says odd j s.
Proof. exact status_exact. Qed.
Print Assumptions C101_status.
Theorem C101_status_none : forall odd j s, status_read odd j = Ret s -> status_valid s = false -> s = status_none.
Proof. exact status_invalid_none. Qed.
Print Assumptions C101_status_none.
Theorem C101_status_undefined : forall odd j, status_read odd j = Undef <-> (exists s, status_front odd j s) /\ absent (text "resultDescription") j.
Proof. exact status_undefined. Qed.
Print Assumptions C101_status_undefined.
Theorem C101_status_written : forall u1 u2 s, let j := status_write u1 u2 s in
  has_text "txid" j (digest_text u2 (st_txid s)) /\ has_text "returnResult" j (text (if st_success s then "success" else "failure")) /\ has_text "resultDescription" j (st_description s) /\
  (st_conflicts s = [] -> absent (text "conflictedWith") j) /\ (st_conflicts s <> [] -> has_list "conflictedWith" j (map (conflict_write u1 u2) (st_conflicts s))).
Proof. exact status_written. Qed.
Print Assumptions C101_status_written.
Theorem C101_status_back_refuted : forall u1 u2 odd s,
  status_read odd (status_write u1 u2 s) = Ret status_none /\ status_read odd (reparsed (status_write u1 u2 s)) = Ret status_none.
Proof. exact status_not_back. Qed.
Print Assumptions C101_status_back_refuted.
Example C101_status_example : status_read ex_no_odd ex_status_json = Ret ex_status /\ status_valid ex_status = true /\ status_read ex_no_odd ex_status_bad = Undef /\ ex_status <> status_none.
Proof. split; [vm_compute; reflexivity|]. split; [vm_compute; reflexivity|]. split; [vm_compute; reflexivity|discriminate]. Qed.
(* quotes of fees *)
Theorem C101_quote : forall odd keep j q, quote_read odd keep j = Ret q /\ q <> quote_none <-> quote_says odd keep j q.
Proof. exact quote_exact. Qed.
Print Assumptions C101_quote.
Theorem C101_quote_valid : forall point q, quote_valid point q = true <-> quote_sound point q.
Proof. exact quote_valid_exact. Qed.
Print Assumptions C101_quote_valid.
Theorem C101_quote_defined : forall odd keep j, (exists q, quote_read odd keep j = Ret q) \/ quote_read odd keep j = Throw tt.
Proof. exact quote_total. Qed.
Print Assumptions C101_quote_defined.
Theorem C101_quote_back : forall u1 u2 odd point shown keep, (forall d, exists a b, shown d = a :: b :: digest_text u2 d) ->
  forall q, quote_wf q -> quote_sound point q ->
  quote_read odd keep (reparsed (quote_write u1 point shown q)) = Ret q /\ payable q \/
  quote_read odd keep (reparsed (quote_write u1 point shown q)) = Ret quote_none /\ ~ payable q.
Proof. exact quote_round_trip. Qed.
Print Assumptions C101_quote_back.
Theorem C101_quote_direct_refuted : forall u1 u2 odd point shown keep, (forall d, exists a b, shown d = a :: b :: digest_text u2 d) ->
  forall q, quote_wf q -> quote_sound point q ->
  quote_read odd keep (quote_write u1 point shown q) = Ret (match fq_fees q with [] => q | _ => quote_none end).
Proof. exact quote_direct. Qed.
Print Assumptions C101_quote_direct_refuted.
Theorem C101_quote_unsound : forall u1 point shown q, ~ quote_sound point q -> quote_write u1 point shown q = JNull.
Proof. exact quote_unsound_written. Qed.
Print Assumptions C101_quote_unsound.
Example C101_quote_example :
  (forall d, exists a b, ex_shown d = a :: b :: digest_text false d) /\ (quote_wf ex_quote /\ quote_sound ex_any ex_quote /\ payable ex_quote) /\
  (quote_wf ex_quote_negative /\ quote_sound ex_any ex_quote_negative /\ ~ payable ex_quote_negative) /\
  quote_read ex_no_odd true (reparsed (quote_write true ex_any ex_shown ex_quote)) = Ret ex_quote /\
  quote_read ex_no_odd true (reparsed (quote_write true ex_any ex_shown ex_quote_negative)) = Ret quote_none.
Proof. split; [exact ex_shown_ok|]. split; [exact ex_quote_wf|]. split; [exact ex_negative_wf|]. split; vm_compute; reflexivity. Qed.
(* policies and single submissions lose the message they extend *)
Theorem C101_policy_refuted : forall odd point keep j p, policy_read odd point keep j = Ret p -> pq_quote p = quote_none /\ policy_valid point p = false.
Proof. exact policy_lost. Qed.
Print Assumptions C101_policy_refuted.
Theorem C101_submitted_refuted : forall odd j s, submitted_read odd j = Ret s -> sb_status s = status_none /\ submitted_valid s = false.
Proof. exact submitted_lost. Qed.
Print Assumptions C101_submitted_refuted.
Example C101_lost_example :
  policy_read ex_no_odd ex_any true (policy_write true ex_any ex_shown (mkpolicy ex_quote [] JNull)) = Ret policy_none /\
  policy_read ex_no_odd ex_any true (reparsed (policy_write true ex_any ex_shown (mkpolicy ex_quote [] (JBool true)))) = Ret (mkpolicy quote_none [] (JBool true)) /\
  submitted_read ex_no_odd (j_set (text "currentHighestBlockHash") (JString (digest_text true ex_id)) (j_set (text "currentHighestBlockHeight") (JUint 7) ex_tx_json)) =
    Ret (mksubmitted status_none (text "1.4.0") (text "now") [x02; x03] 5 ex_id 7).
Proof. vm_compute. repeat split; reflexivity. Qed.
(* the status of a transaction *)
Theorem C101_tx_status : forall odd j t, tx_status_read odd j = Ret t /\ t <> tx_status_none <-> tx_status_says odd j t.
Proof. exact tx_status_exact. Qed.
Print Assumptions C101_tx_status.
Theorem C101_tx_status_valid : forall t, tx_status_valid t = true <-> tt_version t <> [] /\ tt_time t <> [] /\ tt_miner t <> [].
Proof. exact tx_status_valid_exact. Qed.
Print Assumptions C101_tx_status_valid.
Theorem C101_tx_status_back_refuted : forall u1 u2 odd t,
  tx_status_read odd (tx_status_write u1 u2 t) = Ret tx_status_none /\ tx_status_read odd (reparsed (tx_status_write u1 u2 t)) = Ret tx_status_none.
Proof. exact tx_status_not_back. Qed.
Print Assumptions C101_tx_status_back_refuted.
Example C101_tx_status_example : tx_status_read ex_no_odd ex_tx_json = Ret ex_tx_status /\ tx_status_valid ex_tx_status = true /\ status_valid (tt_status ex_tx_status) = false /\ ex_tx_status <> tx_status_none.
Proof. split; [vm_compute; reflexivity|]. split; [vm_compute; reflexivity|]. split; [vm_compute; reflexivity|discriminate]. Qed.
(* many submissions *)
Theorem C101_submitted_all : forall odd point j s,
  submitted_all_read odd j = Ret s /\ submitted_all_valid point s = true <-> submitted_all_says odd j s /\ submitted_all_sound point s.
Proof. exact submitted_all_exact. Qed.
Print Assumptions C101_submitted_all.
Theorem C101_submitted_all_back_refuted : forall u1 u2 odd point s, submitted_all_sound point s ->
  submitted_all_read odd (submitted_all_write u1 u2 point s) = match sa_txs s with [] => Undef | _ => Ret submitted_all_none end.
Proof. exact submitted_all_not_back. Qed.
Print Assumptions C101_submitted_all_back_refuted.
Example C101_submitted_all_example : submitted_all_read ex_no_odd ex_all_json = Ret ex_all /\ submitted_all_sound ex_any ex_all.
Proof. split; [vm_compute; reflexivity|exact ex_all_sound]. Qed.
(* what is asked for *)
Theorem C101_submission : forall u1 s, submission_says s (submission_write u1 s).
Proof. exact submission_written. Qed.
Print Assumptions C101_submission.
Example C101_submission_example : j_get (text "merkleProof") (submission_write true ex_submission) = Some (JString (text "1")) /\ j_get (text "callbackToken") (submission_write true ex_submission) = None.
Proof. vm_compute. split; reflexivity. Qed.
(* what is kept of policies and single submissions, and what is written of all messages *)
Theorem C101_policy : forall odd point keep j p, policy_read odd point keep j = Ret p /\ p <> policy_none <-> policy_says odd point keep j p /\ pq_policies p <> JNull.
Proof. exact policy_exact. Qed.
Print Assumptions C101_policy.
Theorem C101_submitted : forall odd j s, submitted_read odd j = Ret s /\ s <> submitted_none <-> submitted_says odd j s.
Proof. exact submitted_exact. Qed.
Print Assumptions C101_submitted.
Theorem C101_quote_written : forall u1 point shown q, quote_sound point q ->
  adds [("apiVersion", JString (fq_version q)); ("timestamp", JString (fq_time q)); ("expiryTime", JString (fq_expiry q)); ("minerId", JString (hex_of u1 (fq_miner q)));
        ("currentHighestBlockHash", JString (skipn 2 (shown (fq_hash q)))); ("currentHighestBlockHeight", JUint (fq_height q)); ("fees", JArray (map fee_write (fq_fees q)))]%string
       JNull (quote_write u1 point shown q).
Proof. exact quote_written. Qed.
Print Assumptions C101_quote_written.
Theorem C101_policy_written : forall u1 point shown p, (quote_sound point (pq_quote p) ->
    adds [("policies", pq_policies p); ("callbacks", JArray (map JString (pq_callbacks p)))]%string (quote_write u1 point shown (pq_quote p)) (policy_write u1 point shown p)) /\
  (~ quote_sound point (pq_quote p) -> policy_write u1 point shown p = JNull).
Proof. exact policy_written. Qed.
Print Assumptions C101_policy_written.
Theorem C101_submitted_written : forall u1 u2 s, (nonzero (st_txid (sb_status s)) ->
    adds [("txSecondMempoolExpiry", JUint (sb_expiry s)); ("currentHighestBlockHeight", JUint (sb_height s)); ("currentHighestBlockHash", JString (digest_text u2 (sb_hash s)));
          ("minerId", JString (hex_of u1 (sb_miner s))); ("timestamp", JString (sb_time s)); ("apiVersion", JString (sb_version s))]%string (status_write u1 u2 (sb_status s)) (submitted_write u1 u2 s)) /\
  (~ nonzero (st_txid (sb_status s)) -> submitted_write u1 u2 s = JNull).
Proof. exact submitted_written. Qed.
Print Assumptions C101_submitted_written.
Theorem C101_tx_status_written : forall u1 u2 t, (tt_version t <> [] /\ tt_time t <> [] /\ tt_miner t <> [] ->
    adds (match tt_confirmations t with Some n => [("confirmations", JUint n)]%string | None => [] end ++
          [("txSecondMempoolExpiry", JUint (tt_expiry t)); ("minerId", JString (hex_of u1 (tt_miner t))); ("timestamp", JString (tt_time t)); ("apiVersion", JString (tt_version t))]%string)
      (status_json u1 u2 (tt_status t)) (tx_status_write u1 u2 t)) /\
  (~ (tt_version t <> [] /\ tt_time t <> [] /\ tt_miner t <> []) -> tx_status_write u1 u2 t = JNull).
Proof. exact tx_status_written. Qed.
Print Assumptions C101_tx_status_written.
Theorem C101_status_json : forall u1 u2 s, (nonzero (st_txid s) -> status_json u1 u2 s = status_write u1 u2 s) /\ (~ nonzero (st_txid s) -> status_json u1 u2 s = JNull).
Proof. exact status_json_exact. Qed.
Print Assumptions C101_status_json.
Theorem C101_submitted_all_written : forall u1 u2 point s, (submitted_all_sound point s ->
    adds [("apiVersion", JString (sa_version s)); ("timestamp", JString (sa_time s)); ("minerId", JString (hex_of u1 (sa_miner s))); ("currentHighestBlockHash", JString (digest_text u2 (sa_hash s)));
          ("currentHighestBlockHeight", JUint (sa_height s)); ("txSecondMempoolExpiry", JUint (sa_expiry s)); ("txs", JArray (map (status_write u1 u2) (sa_txs s))); ("failureCount", JUint (sa_failures s))]%string
      JNull (submitted_all_write u1 u2 point s)) /\
  (~ submitted_all_sound point s -> submitted_all_write u1 u2 point s = JNull).
Proof. exact submitted_all_written. Qed.
Print Assumptions C101_submitted_all_written.
Example C101_written_example :
  policy_says ex_no_odd ex_any true (reparsed (policy_write true ex_any ex_shown (mkpolicy ex_quote [] (JBool true)))) (mkpolicy quote_none [] (JBool true)) /\
  j_get (text "callbacks") (policy_write true ex_any ex_shown (mkpolicy ex_quote [text "1.2.3.4"] (JBool true))) = Some (JArray [JString (text "1.2.3.4")]) /\
  tx_status_write true true ex_tx_status <> JNull /\ submitted_all_write true true ex_any ex_all <> JNull.
Proof.
  split; [|split; [vm_compute; reflexivity|split; vm_compute; discriminate]].
  apply (proj1 (policy_exact ex_no_odd ex_any true _ (mkpolicy quote_none [] (JBool true)))). split; [vm_compute; reflexivity|discriminate].
Qed.

(* C102 *)
(* which answers are accepted *)
Theorem C102_call : forall sha b64r verify parse code content body j, call sha b64r verify parse code content body = Ret j <->
  200 <= code < 300 /\ content = Some (text "application/json") /\ parse body = Some j /\
  exists e, describes j e /\ (unsigned e \/ signed sha b64r verify e).
Proof. exact call_exact. Qed.
Print Assumptions C102_call.
Theorem C102_call_defined : forall sha b64r verify parse code content body,
  (exists j, call sha b64r verify parse code content body = Ret j) \/ call sha b64r verify parse code content body = Throw tt.
Proof. exact call_total. Qed.
Print Assumptions C102_call_defined.
Example C102_call_example :
  call (fun b => b) toy_text toy_verify ex_parse 200 (Some ex_json) (text "signed") = Ret ex_answer_signed /\
  call (fun b => b) toy_text (fun _ _ _ => false) ex_parse 200 (Some ex_json) (text "signed") = Throw tt /\
  call (fun b => b) toy_text (fun _ _ _ => false) ex_parse 200 (Some ex_json) (text "unsigned") = Ret ex_answer /\
  call (fun b => b) toy_text toy_verify ex_parse 200 (Some (text "application/json; charset=utf-8")) (text "signed") = Throw tt.
Proof. vm_compute. repeat split; reflexivity. Qed.
(* whatever was answered, what the caller is given is empty *)
Theorem C102_response_refuted : forall parse dump (T : Type) (none : T) read j r,
  response_read dump parse none read j = Ret r -> r = mkresponse T none None None.
Proof. exact response_lost. Qed.
Print Assumptions C102_response_refuted.
Theorem C102_request_refuted : forall sha b64r verify parse dump (T : Type) (none : T) read code content body r,
  request sha b64r verify dump parse none read code content body = Ret r -> r = mkresponse T none None None.
Proof. exact request_lost. Qed.
Print Assumptions C102_request_refuted.
(* the envelope, not what it carries, is what is read *)
Theorem C102_response : forall parse dump (T : Type) (none : T) read j, parse (dump j) = Some j ->
  response_read dump parse none read j = match read j with Ret _ => Ret (mkresponse T none None None) | Throw e => Throw e | Undef => Undef end.
Proof. exact response_exact. Qed.
Print Assumptions C102_response.
Theorem C102_request : forall sha b64r verify parse dump (T : Type) (none : T) read code content body, (forall j, parse (dump j) = Some j) ->
  request sha b64r verify dump parse none read code content body = Ret (mkresponse T none None None) <->
  exists j x, call sha b64r verify parse code content body = Ret j /\ read j = Ret x.
Proof. exact request_exact. Qed.
Print Assumptions C102_request.
Example C102_request_example :
  request (fun b => b) toy_text toy_verify (fun _ => text "signed") ex_parse quote_none (quote_read ex_no_odd true) 200 (Some ex_json) (text "signed") =
  Ret (mkresponse fee_quote quote_none None None).
Proof. vm_compute. reflexivity. Qed.
