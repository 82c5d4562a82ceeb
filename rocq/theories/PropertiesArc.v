(* C105 - C107: ARC. *)
From Coq Require Import String.
From Verif Require Import Base WireModel MerkleModel TextModel TextSpec JsonModel ScriptModel MachineModel SighashModel ExtModel ExtSpec ExtExamples TscModel ArcModel ArcSpec ArcProofs ArcRequests ArcBodies ArcPolicy ArcExamples.
Local Open Scope list_scope.
Local Open Scope N_scope.

(* ---------------------------------------------------------------- C105: responses *)
(* When a response is valid.  The content type is enough, and so is a body. *)
Theorem C105_valid : forall parse r, arc_valid parse r = true <->
  (ht_status r = 401 /\ ht_body r = []) \/ ht_type r = Some (text "application/json") \/ exists j, parse (ht_body r) = Some j.
Proof. exact valid_exact. Qed.
Print Assumptions C105_valid.
(* When the response to each of the calls is valid. *)
Theorem C105_kinds : forall parse error_ok r,
  (health_response_valid parse r = true <->
    arc_valid parse r = true /\ forall j, parse (ht_body r) = Some j -> exists h v s, health_says j h v s) /\
  (policy_response_valid parse r = true <->
    arc_valid parse r = true /\ forall j, parse (ht_body r) = Some j -> stamped j /\ exists p a b c m, holds "policy" j p /\ policy_says p a b c m) /\
  (status_response_valid parse error_ok r = true <->
    arc_valid parse r = true /\ forall j, parse (ht_body r) = Some j ->
      (ht_status r = 200 /\ stamped j /\ a_status j) \/ (ht_status r = 404 /\ error_ok j = true) \/ ht_status r = 409) /\
  (submit_response_valid parse error_ok r = true <->
    arc_valid parse r = true /\ forall j, parse (ht_body r) = Some j ->
      (ht_status r = 200 /\ stamped j /\ a_status j) \/ (ht_status r = 400 /\ error_ok j = true) \/ In (ht_status r) error_statuses) /\
  (submit_txs_response_valid parse error_ok r = true <->
    arc_valid parse r = true /\ forall j, parse (ht_body r) = Some j ->
      (ht_status r = 200 /\ exists l, j = JArray l /\ forall s, In s l -> a_status s) \/ (ht_status r = 400 /\ error_ok j = true) \/
      (In (ht_status r) error_statuses /\ ht_status r <> 422)).
Proof.
  exact (fun parse error_ok r => conj (health_response_exact parse r) (conj (policy_response_exact parse r)
    (conj (status_response_exact parse error_ok r) (conj (submit_response_exact parse error_ok r) (submit_txs_response_exact parse error_ok r))))).
Qed.
Print Assumptions C105_kinds.
Example C105_kinds_example : forall error_ok,
  health_response_valid ex_parse (mkhttp 200 None (text "h")) = true /\ policy_response_valid ex_parse (mkhttp 200 None (text "p")) = true /\
  status_response_valid ex_parse error_ok (mkhttp 200 None (text "s")) = true /\ submit_txs_response_valid ex_parse error_ok (mkhttp 200 None (text "a")) = true /\
  status_response_valid ex_parse error_ok (mkhttp 409 None (text "n")) = true /\ status_response_valid ex_parse error_ok (mkhttp 200 None (text "n")) = false.
Proof. intros error_ok. vm_compute. destruct (error_ok JNull); tauto. Qed.
(* What is returned for valid responses that have a body. *)
Theorem C105_read :
  (forall parse r j, ht_status r = 200 -> parse (ht_body r) = Some j -> health_response_valid parse r = true ->
    health_of parse r = Ret j /\ exists h v s, health_says j h v s /\ health_healthy j = Ret h /\ health_version j = Ret v /\ health_reason j = Ret s) /\
  (forall parse r, ht_status r <> 200 ->
    health_of parse r = Ret JNull /\ health_healthy JNull = Throw tt /\ health_version JNull = Throw tt /\ health_reason JNull = Throw tt) /\
  (forall parse r j, parse (ht_body r) = Some j -> policy_response_valid parse r = true ->
    exists p a b c m, policy_of parse r = Ret p /\ policy_says p a b c m /\ holds "policy" j p) /\
  (forall parse error_ok r j, ht_status r = 200 -> parse (ht_body r) = Some j -> submit_txs_response_valid parse error_ok r = true ->
    exists l, j = JArray l /\ statuses_of parse r = Ret l /\ forall s, In s l -> a_status s).
Proof. exact (conj health_answer (conj health_failed (conj policy_answer statuses_answer))). Qed.
Print Assumptions C105_read.
(* A response is valid in each of the five ways and reading it is undefined, whatever body without JSON it has. *)
Theorem C105_unread_refuted : forall parse error_ok b, parse b = None ->
  let r := mkhttp 200 (Some (text "application/json")) b in
  health_response_valid parse r = true /\ policy_response_valid parse r = true /\ status_response_valid parse error_ok r = true /\
  submit_response_valid parse error_ok r = true /\ submit_txs_response_valid parse error_ok r = true /\
  health_of parse r = Undef /\ policy_of parse r = Undef /\ timestamp_of parse r = Undef /\ status_of parse r = Undef /\ statuses_of parse r = Undef.
Proof. exact unread. Qed.
Print Assumptions C105_unread_refuted.
Example C105_unread_example : ex_parse (text "<html>") = None.
Proof. vm_compute. reflexivity. Qed.
(* Exactly when reading is undefined. *)
Theorem C105_undefined : forall parse r,
  (health_of parse r = Undef <-> ht_status r = 200 /\ parse (ht_body r) = None) /\
  (status_of parse r = Undef <-> parse (ht_body r) = None) /\
  (statuses_of parse r = Undef <-> parse (ht_body r) = None) /\
  (policy_of parse r = Undef <-> parse (ht_body r) = None \/ exists o, parse (ht_body r) = Some (JObject o) /\ obj_find (text "policy") o = None) /\
  (timestamp_of parse r = Undef <-> parse (ht_body r) = None \/ exists o, parse (ht_body r) = Some (JObject o) /\ obj_find (text "timestamp") o = None).
Proof. exact read_undefined. Qed.
Print Assumptions C105_undefined.
Example C105_timestamp_example : policy_response_valid ex_parse (mkhttp 200 None (text "p")) = true /\ timestamp_of ex_parse (mkhttp 200 None (text "p")) = Throw tt.
Proof. split; vm_compute; reflexivity. Qed.
(* The error of a response is never returned. *)
Theorem C105_error_refuted : forall parse error_ok r n, arc_error parse error_ok n r = None.
Proof. exact error_never. Qed.
Print Assumptions C105_error_refuted.

(* ---------------------------------------------------------------- C106: requests *)
(* The headers are the options, all of them, and no two sets of options have the same. *)
Theorem C106_headers :
  (forall s l, headers s = Ret l -> forall k v, In (k, v) l <-> header_of s k v) /\
  (forall s, (exists l, headers s = Ret l) <-> sm_content s <> COther /\ forall n, sm_wait s = Some n -> 2 <= n <= 8) /\
  (forall s, headers s = Throw tt <-> sm_content s = COther \/ exists n, sm_wait s = Some n /\ ~ 2 <= n <= 8) /\
  (forall a b l, headers a = Ret l -> headers b = Ret l -> a = b).
Proof. exact (conj headers_exact (conj headers_defined (conj headers_thrown headers_determine))). Qed.
Print Assumptions C106_headers.
Example C106_headers_example : headers ex_submit = Ret [
  (text "Content-Type", text "text/plain"); (text "X-CallbackURL", text "http://x"); (text "X-FullStatusUpdates", text "true"); (text "X-MaxTimeout", text "-5");
  (text "X-SkipScriptValidation", text "false"); (text "X-CallbackToken", text "tok"); (text "X-WaitFor", text "SEEN_ON_NETWORK")].
Proof. vm_compute. reflexivity. Qed.
(* Whatever the content type, the body carries the transaction, and no other. *)
Theorem C106_submit :
  (forall parse dump u1 base t s, xtx_wf t -> (forall j, tx_json u1 t = Ret j -> parse (dump j) = Some j) ->
    forall p, submit_tx dump u1 base t s = Ret p -> po_path p = base ++ text "/v1/tx" /\ headers s = Ret (po_headers p) /\ carries_tx parse (sm_content s) (po_body p) t) /\
  (forall dump u1 c t, xtx_wf t -> (exists b, tx_body dump u1 c t = Ret b) <-> c <> COther) /\
  (forall parse c b t u, carries_tx parse c b t -> carries_tx parse c b u -> t = u).
Proof. exact (conj submit_exact (conj tx_body_defined carries_tx_one)). Qed.
Print Assumptions C106_submit.
Theorem C106_submit_txs :
  (forall parse dump u1 base l s, Forall xtx_wf l -> (forall a, all_of (tx_json u1) l = Ret a -> parse (dump (JArray a)) = Some (JArray a)) ->
    forall p, submit_txs dump u1 base l s = Ret p -> po_path p = base ++ text "/v1/txs" /\ headers s = Ret (po_headers p) /\ carries_txs parse (sm_content s) (po_body p) l) /\
  (forall dump u1 c l, Forall xtx_wf l -> (exists b, txs_body dump u1 c l = Ret b) <-> c <> COther) /\
  (forall parse c b l m, carries_txs parse c b l -> carries_txs parse c b m -> l = m).
Proof. exact (conj submit_txs_exact (conj txs_body_defined carries_txs_one)). Qed.
Print Assumptions C106_submit_txs.
Example C106_submit_example : xtx_wf ex_xtx /\
  (forall j, tx_json false ex_xtx = Ret j -> ex_parse (ex_dump j) = Some j) /\ (forall a, all_of (tx_json false) [ex_xtx] = Ret a -> ex_parse (ex_dump (JArray a)) = Some (JArray a)) /\
  (exists p, submit_txs ex_dump false [] [ex_xtx; ex_xtx] ex_submit = Ret p).
Proof.
  split; [exact ex_xtx_wf|]. split; [intros j E; vm_compute in E; assert (X : forall a b : json, Ret (E := unit) a = Ret b -> a = b) by congruence; apply X in E; subst j; vm_compute; reflexivity|].
  split; [intros a E; vm_compute in E; assert (X : forall a b : list json, Ret (E := unit) a = Ret b -> a = b) by congruence; apply X in E; subst a; vm_compute; reflexivity|].
  eexists. vm_compute. reflexivity.
Qed.
(* The path of a question on a transaction names it. *)
Theorem C106_status : forall u2 base a b, status_path u2 base a = status_path u2 base b -> a = b.
Proof. exact path_names. Qed.
Print Assumptions C106_status.

(* ---------------------------------------------------------------- C107: the policy *)
(* What is checked: sizes, and that the fee is that of one byte. *)
Theorem C107_satisfies : forall float_u float_i cut ovf p t script_size sigops tx_max satoshis bytes,
  policy_plain p script_size sigops tx_max satoshis bytes -> satoshis < 2 ^ 53 -> 0 < bytes <= 2 ^ 53 -> Z.abs_N (xtx_fee ovf t) <= 2 ^ 53 ->
  exists r, satisfies float_u float_i cut ovf p t = Ret r /\
  (r = true <-> tx_size (xtx_plain t) <= tx_max /\ scripts_within script_size t /\
    (if cut then (Z.of_N (satoshis / bytes) <= xtx_fee ovf t)%Z else (Z.of_N satoshis <= xtx_fee ovf t * Z.of_N bytes)%Z)).
Proof. exact satisfies_exact. Qed.
Print Assumptions C107_satisfies.
Example C107_satisfies_example : forall float_u float_i ovf,
  policy_plain (ex_policy 10 50 1000) 1000 10 100000 50 1000 /\ satisfies float_u float_i false ovf (ex_policy 10 50 1000) ex_xtx = Ret true /\
  satisfies float_u float_i false ovf (ex_policy 10 101 1) ex_xtx = Ret false /\ xtx_fee ovf ex_xtx = 100%Z.
Proof. intros float_u float_i ovf. split; [apply ex_policy_plain|]. split; [reflexivity|]. split; reflexivity. Qed.
(* The size of a transaction does not count: at a satoshi per byte, one satoshi pays for any number of bytes. *)
Theorem C107_rate_refuted : forall float_u float_i n, exists t, n <= tx_size (xtx_plain t) /\ (forall ovf, xtx_fee ovf t = 1%Z) /\
  forall cut ovf p sigops, policy_plain p 1000 sigops (tx_size (xtx_plain t)) 1 1 -> satisfies float_u float_i cut ovf p t = Ret true.
Proof. exact rate_refuted. Qed.
Print Assumptions C107_rate_refuted.
(* The number of checks of signatures does not count either. *)
Theorem C107_sigops_refuted : forall float_u float_i cut ovf p q t script_size a b tx_max satoshis bytes, satoshis < 2 ^ 63 ->
  policy_plain p script_size a tx_max satoshis bytes -> policy_plain q script_size b tx_max satoshis bytes ->
  satisfies float_u float_i cut ovf p t = satisfies float_u float_i cut ovf q t.
Proof. exact sigops_ignored. Qed.
Print Assumptions C107_sigops_refuted.
Example C107_sigops_example : forall float_u float_i ovf, satisfies float_u float_i false ovf (ex_policy 0 50 1000) ex_checks = Ret true /\ checks ex_checks = 22.
Proof. intros float_u float_i ovf. split; reflexivity. Qed.
(* Policies whose fee is for no bytes, and valid ones that do not have it. *)
Theorem C107_undefined :
  (forall float_u float_i cut ovf p t script_size sigops tx_max satoshis, policy_plain p script_size sigops tx_max satoshis 0 -> satoshis < 2 ^ 63 ->
    satisfies float_u float_i cut ovf p t = if tx_max <? tx_size (xtx_plain t) then Ret false else Throw tt) /\
  (forall float_u float_i cut ovf p t a b c m ss so ts, policy_says p a b c m -> as_u64 float_u a = Ret ss -> as_u64 float_u b = Ret so -> as_u64 float_u c = Ret ts ->
    (~ exists v, holds "satoshis" m v) -> satisfies float_u float_i cut ovf p t = Undef).
Proof. exact (conj no_bytes fee_missing). Qed.
Print Assumptions C107_undefined.
Example C107_undefined_example : forall float_u float_i cut ovf, policy_valid ex_policy_no_fee = true /\ satisfies float_u float_i cut ovf ex_policy_no_fee ex_xtx = Undef.
Proof. intros float_u float_i cut ovf. split; reflexivity. Qed.
