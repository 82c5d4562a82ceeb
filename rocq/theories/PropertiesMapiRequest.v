(* C134: requests of a client of MAPI. *)
From Coq Require Import String.
From Verif Require Import Base MerkleModel TextModel JsonModel TscModel MapiModel MapiSpec MapiWrite MapiRequestModel MapiRequestSpec MapiRequestProofs MapiExamples.
Local Open Scope list_scope.

(* What is sent for a transaction and its parameters. *)
Theorem C134_submit : forall u1 base as_json s,
  (submit_request u1 base as_json s = Throw tt <-> sm_tx s = []) /\
  (forall r, submit_request u1 base as_json s = Ret r -> rq_post r = true /\ rq_path r = base ++ text "/mapi/tx" /\
    if as_json then rq_query r = None /\ exists j, rq_body r = BJson j /\ submission_says s j
    else rq_body r = BRaw (sm_tx s) /\ exists q, rq_query r = Some q /\ query_says (sm_parameters s) q).
Proof. exact submit_exact. Qed.
Print Assumptions C134_submit.
Example C134_submit_example : submit_request false (text "/x") false ex_submission = Ret (mkrequest true (text "/x/mapi/tx")
  (Some [(text "callbackUrl", text "url"); (text "merkleProof", text "1"); (text "dsCheck", text "0")]) (BRaw [xab; xcd])).
Proof. vm_compute. reflexivity. Qed.

(* Nothing is lost: the request determines the transaction, the parameters and the form. *)
Theorem C134_submit_determines : forall u1 base c c' s s' r,
  submit_request u1 base c s = Ret r -> submit_request u1 base c' s' = Ret r -> c = c' /\ s = s'.
Proof. exact submit_determines. Qed.
Print Assumptions C134_submit_determines.
Theorem C134_query : forall p, query_says p (parameters_list p) /\ forall p' q, query_says p q -> query_says p' q -> p = p'.
Proof. exact (fun p => conj (query_written p) (fun p' q => query_determines p p' q)). Qed.
Print Assumptions C134_query.

(* The same for many transactions; there must be one at least. *)
Theorem C134_submit_all : forall u1 base l p,
  (submit_all_request u1 base l p = Throw tt <-> l = [] \/ exists s, In s l /\ sm_tx s = []) /\
  (forall r, submit_all_request u1 base l p = Ret r -> rq_post r = true /\ rq_path r = base ++ text "/mapi/txs" /\
    (exists q, rq_query r = Some q /\ query_says p q) /\ exists js, rq_body r = BJson (JArray js) /\ Forall2 submission_says l js).
Proof. exact submit_all_exact. Qed.
Print Assumptions C134_submit_all.
Theorem C134_submit_all_determines : forall u1 base l l' p p' r,
  submit_all_request u1 base l p = Ret r -> submit_all_request u1 base l' p' = Ret r -> l = l' /\ p = p'.
Proof. exact submit_all_determines. Qed.
Print Assumptions C134_submit_all_determines.
Theorem C134_apart : forall u1 base c s l p r r', submit_request u1 base c s = Ret r -> submit_all_request u1 base l p = Ret r' -> rq_path r <> rq_path r'.
Proof. exact requests_apart. Qed.
Print Assumptions C134_apart.
Example C134_submit_all_example : exists r, submit_all_request true [] [ex_submission; ex_submission] (sm_parameters ex_submission) = Ret r.
Proof. eexists. vm_compute. reflexivity. Qed.

(* The questions. *)
Theorem C134_status : forall shown get d, (status_request shown get d = Throw tt <-> d = zero_digest) /\
  (d <> zero_digest -> status_request shown get d = Ret (mkrequest false (get (text "/mapi/tx/" ++ shown d)) None BNone)).
Proof. exact status_exact. Qed.
Print Assumptions C134_status.
Theorem C134_quotes : forall get, (forall a b, get a = get b -> a = b) -> rq_path (policy_request get) <> rq_path (fee_request get) /\
  (forall shown d r, status_request shown get d = Ret r -> rq_path r <> rq_path (policy_request get) /\ rq_path r <> rq_path (fee_request get)).
Proof. exact questions_apart. Qed.
Print Assumptions C134_quotes.
(* A digest is written in the path as the stream writes it, and in a quote without the first two characters of
   that: one of the two is not the hexadecimal form of the digest, however the stream writes. *)
Theorem C134_status_refuted : forall shown u2 d, (2 <= length (shown d))%nat ->
  ~ (skipn 2 (shown d) = digest_text u2 d /\ text "/mapi/tx/" ++ shown d = text "/mapi/tx/" ++ digest_text u2 d).
Proof. exact status_or_quote. Qed.
Print Assumptions C134_status_refuted.
Example C134_status_example : ex_id <> zero_digest /\ skipn 2 (ex_shown ex_id) = digest_text false ex_id /\ (2 <= length (ex_shown ex_id))%nat.
Proof. split; [discriminate|]. split; [reflexivity|]. apply (PeanoNat.Nat.leb_le 2). vm_compute. reflexivity. Qed.
