(* C50: Stratum messages. *)
From Coq Require Import String.
From Verif Require Import Base TextModel WireModel WireSpec MerkleModel WorkModel JsonModel StratumModel StratumSpec StratumProofs StratumFields StratumExamples.
Local Open Scope N_scope.

(* The ten methods with a name, and no others, are read from their names. *)
Theorem C50_methods_exact :
  (forall m, method_from_string (method_to_string m) = m <-> m = unset \/ has_name m) /\
  (forall s m, m <> unset -> method_from_string s = m <-> In (m, s) named).
Proof. exact (conj methods_exact method_names). Qed.
Print Assumptions C50_methods_exact.
Example C50_methods_exact_example : method_from_string (text "mining.submit") = mining_submit /\ ~ has_name mining_suggest_target.
Proof. split; [vm_compute; reflexivity|]. unfold has_name. vm_compute. intuition discriminate. Qed.

(* A request is read back as it was made, when its method has a name. *)
Theorem C50_request :
  forall id m p, identifier id ->
  msg_id (request id m p) = id /\ msg_params (request id m p) = p /\
  (msg_method (request id m p) = m <-> m = unset \/ has_name m) /\ (request_valid (request id m p) = true <-> has_name m).
Proof. exact request_back. Qed.
Print Assumptions C50_request.
Example C50_request_example : identifier (JUint 4) /\ request (JUint 4) mining_submit (msg_params ex_submit_json) = ex_submit_json.
Proof. split; [left; eexists; reflexivity|vm_compute; reflexivity]. Qed.

(* Responses, with and without an error, are read back as they were made. *)
Theorem C50_response :
  forall id r, identifier id ->
  (response_valid (response id r) = true /\ msg_id (response id r) = id /\ msg_result (response id r) = r /\ msg_error (response id r) = None) /\
  (forall e, u32 (er_code e) -> response_valid (response_error id r e) = true /\ msg_id (response_error id r e) = id /\
                                msg_result (response_error id r e) = r /\ msg_error (response_error id r e) = Some e).
Proof. exact (fun id r I => conj (response_back id r I) (fun e => response_error_back id r e I)). Qed.
Print Assumptions C50_response.
Theorem C50_boolean_response :
  (forall id b, identifier id -> boolean_valid (boolean_response id b) = true /\ boolean_result (boolean_response id b) = Ret b) /\
  (forall id e, identifier id -> u32 (er_code e) ->
     boolean_valid (boolean_error id e) = true /\ boolean_result (boolean_error id e) = Ret false /\ msg_error (boolean_error id e) = Some e) /\
  (forall j, exists b, boolean_result j = Ret b /\ (b = true <-> response_valid j = true /\ msg_result j = JBool true /\ msg_error j = None)).
Proof. exact (conj boolean_back (conj boolean_error_back boolean_total)). Qed.
Print Assumptions C50_boolean_response.
Example C50_response_example :
  identifier (JString (text "abc")) /\ msg_error (response_error (JString (text "abc")) JNull (error_of 23)) = Some (mkerror 23 (text "low difficulty")) /\
  boolean_result (boolean_error (JUint 55) (mkerror 4 (text "hi"))) = Ret false.
Proof. split; [right; eexists; reflexivity|]. split; vm_compute; reflexivity. Qed.

(* What each kind of message is, for every JSON value.  A notification is none of the other two. *)
Theorem C50_messages_exact :
  (forall j id m p, request_valid j = true /\ msg_id j = id /\ msg_method j = m /\ msg_params j = p <-> is_request j id m p) /\
  (forall j m p, notification_valid j = true /\ msg_method j = m /\ msg_params j = p <-> is_notification j m p) /\
  (forall j id r e, response_valid j = true /\ msg_id j = id /\ msg_result j = r /\ msg_error j = e <-> is_response j id r e) /\
  (forall j, notification_valid j = true -> request_valid j = false /\ response_valid j = false).
Proof. exact (conj request_exact (conj notification_exact (conj response_exact kinds_apart))). Qed.
Print Assumptions C50_messages_exact.
Example C50_messages_exact_example : is_request ex_submit_json (JUint 4) mining_submit (msg_params ex_submit_json) /\ is_notification ex_notify_json mining_notify ex_notify_params.
Proof.
  split; [apply request_exact; vm_compute; repeat split; reflexivity|apply notification_exact; vm_compute; repeat split; reflexivity].
Qed.

(* The notifications this library makes have no method, and so are not valid messages of any kind. *)
Theorem C50_notification_refuted :
  forall m p,
  notification_valid (notification m p) = false /\ request_valid (notification m p) = false /\ response_valid (notification m p) = false /\
  msg_method (notification m p) = unset /\ msg_params (notification m p) = [].
Proof. exact notification_lost. Qed.
Print Assumptions C50_notification_refuted.

(* Every code of the list of errors has its own text; no other has one. *)
Theorem C50_errors :
  (forall c, error_message c = [] <-> ~ In c error_codes) /\
  (forall a b, In a error_codes -> In b error_codes -> error_message a = error_message b -> a = b).
Proof. exact (conj messages_exact messages_differ). Qed.
Print Assumptions C50_errors.
Example C50_errors_example : In 37 error_codes /\ error_message 37 = text "stale share" /\ error_message 20 = [].
Proof. split; [unfold error_codes, In; tauto|split; vm_compute; reflexivity]. Qed.

(* Session ids. *)
Theorem C50_session_id :
  (forall v, u32 v -> session_read (session_json v) = Some v) /\
  (forall j v, session_read j = Some v <-> exists s, j = JString s /\ hex_u32 v s).
Proof. exact (conj session_round_trip session_exact). Qed.
Print Assumptions C50_session_id.
Example C50_session_id_example : u32 134217730 /\ session_json 134217730 = js "08000002" /\ session_read (js "08000002") = Some 134217730.
Proof. split; [reflexivity|split; vm_compute; reflexivity]. Qed.

(* Digests: what is read, what a digest that was written comes back as, and which ones survive. *)
Theorem C50_digest_exact : forall j d, digest_read j = Some d <-> exists s, j = JString s /\ hex_digest d s.
Proof. exact digest_read_exact. Qed.
Print Assumptions C50_digest_exact.
Theorem C50_digest_refuted :
  forall d, length d = 32%nat ->
  digest_read (JString (digest_text d)) = Some (rotated d) /\ (digest_read (JString (digest_text d)) = Some d <-> uniform d).
Proof. exact (fun d L => conj (digest_back d L) (digest_survives d L)). Qed.
Print Assumptions C50_digest_refuted.
Example C50_digest_example :
  length (nt_digest ex_notify) = 32%nat /\ digest_read (JString (digest_text (nt_digest ex_notify))) <> Some (nt_digest ex_notify) /\
  digest_read (js "4d16b6f85af6e2198f44ae2a6de67f78487ae5611b77c6c0440b921e00000000") = Some (nt_digest ex_notify).
Proof. split; [reflexivity|]. split; [vm_compute; discriminate|vm_compute; reflexivity]. Qed.

(* Numbers: versions and masks survive when hexadecimal digits are written most significant first, and
   otherwise exactly when they read the same from both ends. *)
Theorem C50_int_refuted :
  forall mem z, i32 z ->
  int_read (JString (int_text mem z)) = Some (if mem then swapped z else z) /\ (swapped z = z <-> palindrome z) /\
  (forall j, int_read j = Some z <-> exists s, j = JString s /\ hex_i32 z s).
Proof. exact (fun mem z R => conj (int_back mem z R) (conj (swapped_fixed z R) (fun j => int_read_exact j z))). Qed.
Print Assumptions C50_int_refuted.
Example C50_int_example : i32 536870912 /\ swapped 536870912 = 32%Z /\ int_read (js "20000000") = Some 536870912%Z.
Proof. split; [split; vm_compute; (discriminate || reflexivity)|split; vm_compute; reflexivity]. Qed.

(* mining.notify: which lists are read as which parameters. *)
Theorem C50_notify_exact : forall n p, p <> notify_none -> notify_read n = p <-> says_notify n p.
Proof. exact notify_exact. Qed.
Print Assumptions C50_notify_exact.
Example C50_notify_exact_example :
  notify_read ex_notify_params = ex_notify /\ notify_valid ex_notify_json = true /\ ex_notify <> notify_none /\
  path_read ex_branch = Some [Some (hx "1100000012000000130000001400000015000000160000001700000018000000");
                              Some (hx "0100000002000000030000000400000005000000060000000700000008000000")].
Proof. split; [vm_compute; reflexivity|]. split; [vm_compute; reflexivity|]. split; [vm_compute; discriminate|vm_compute; reflexivity]. Qed.

(* Only those with no Merkle branch are written at all, and of these exactly the ones with a uniform digest
   (and a symmetrical version, if numbers are written as they lie in memory) are read back unchanged. *)
Theorem C50_notify_refuted :
  (forall mem p, (exists n, notify_write mem p = Some n) <-> nt_path p = []) /\
  (forall mem p n, notify_fields p -> notify_write mem p = Some n ->
     notify_read n = mknotify (nt_job p) (rotated (nt_digest p)) (nt_tx1 p) (nt_tx2 p) [] (if mem then swapped (nt_version p) else nt_version p) (nt_target p) (nt_now p) (nt_clean p) /\
     (notify_read n = p <-> uniform (nt_digest p) /\ (mem = true -> palindrome (nt_version p)))).
Proof. exact (conj notify_written (fun mem p n F E => conj (notify_back mem p n F E) (notify_survives mem p n F E))). Qed.
Print Assumptions C50_notify_refuted.
Example C50_notify_refuted_example : notify_fields ex_notify /\ (exists n, notify_write false ex_notify = Some n /\ notify_read n <> ex_notify).
Proof. split; [repeat split; vm_compute; (discriminate || reflexivity)|]. eexists. split; [vm_compute; reflexivity|]. vm_compute. discriminate. Qed.

(* mining.submit: which lists are read as which shares, and on which ones the result is undefined. *)
Theorem C50_submit_exact :
  (forall n s, s <> sshare_none -> submit_read n = Ret s <-> says_share n s) /\
  (forall n, submit_read n = Undef <->
     exists name job e t k bits, n = [JString name; JString job; JString e; JString t; JString k] ++ bits /\ (length bits <= 1)%nat /\
       (exists b, hex_of b e) /\ (exists v, hex_u32 v t) /\ length k = 8%nat /\ hex_read k = None).
Proof. exact (conj share_exact share_undefined). Qed.
Print Assumptions C50_submit_exact.
Theorem C50_submit :
  (forall mem s, share_fields s -> submit_read (submit_write mem s) = Ret s <-> (mem = true -> forall z, sh_bits (ss_share s) = Some z -> palindrome z)) /\
  (forall mem id s, identifier id -> share_fields s -> submit_valid (submit_request mem id s) = Ret (sshare_valid s)).
Proof. exact (conj share_survives submit_sent). Qed.
Print Assumptions C50_submit.
Example C50_submit_example :
  submit_read (msg_params ex_submit_json) = Ret ex_share /\ share_fields ex_share /\ submit_request false (JUint 4) ex_share = ex_submit_json /\
  share_fields ex_share_bits /\ submit_read (submit_write false ex_share_bits) = Ret ex_share_bits /\ submit_read (submit_write true ex_share_bits) <> Ret ex_share_bits /\
  submit_read [js "a"; js "b"; js ""; js "00000000"; js "nonsense"] = Undef.
Proof.
  split; [vm_compute; reflexivity|]. split; [repeat split; reflexivity|]. split; [vm_compute; reflexivity|]. split; [repeat split; vm_compute; (discriminate || reflexivity)|].
  split; [vm_compute; reflexivity|]. split; [vm_compute; discriminate|vm_compute; reflexivity].
Qed.

(* No version mask is ever read. *)
Theorem C50_mask_refuted :
  (forall s, (forall z, mask_read s <> Ret (Some z)) /\ (mask_read s = Undef <-> length s = 8%nat /\ hex_read s = None)) /\
  (forall mem z, set_mask_read (set_mask_write mem z) = Ret None).
Proof. exact (conj mask_never set_mask_lost). Qed.
Print Assumptions C50_mask_refuted.
Example C50_mask_example : mask_read (text "1fffe000") = Ret None /\ mask_read (text "1fffe00g") = Undef.
Proof. split; vm_compute; reflexivity. Qed.

(* mining.subscribe and its answer. *)
Theorem C50_subscribe :
  (forall p, match sr_extra1 p with Some v => u32 v | None => True end -> subscribe_read (subscribe_write p) = p) /\
  (forall p, u32 (en_1 (sd_extra p)) -> subscribed_read (subscribed_write p) = Ret p <->
     p = subscribed_none \/ (Forall (fun s => has_name (sb_method s)) (sd_subs p) /\ 0 < en_2_size (sd_extra p) < 2 ^ 32)).
Proof. exact (conj subscribe_back subscribed_survives). Qed.
Print Assumptions C50_subscribe.
Example C50_subscribe_example : u32 (en_1 (sd_extra ex_subscribed)) /\ subscribed_read (subscribed_write ex_subscribed) = Ret ex_subscribed.
Proof. split; [reflexivity|vm_compute; reflexivity]. Qed.
(* Two subscriptions to different methods with the same id compare equal. *)
Theorem C50_subscription_equality_refuted :
  forall a b, sub_eqb a b = true <-> sb_method a <> unset /\ sb_method b <> unset /\ sb_id a = sb_id b.
Proof. exact sub_equal. Qed.
Print Assumptions C50_subscription_equality_refuted.
Example C50_subscription_equality_example : sub_eqb (mksub mining_notify (text "a")) (mksub mining_set_difficulty (text "a")) = true.
Proof. vm_compute. reflexivity. Qed.

(* mining.authorize. *)
Theorem C50_authorize :
  (forall p, authorize_read (authorize_write p) = Ret p) /\
  (forall id m p, identifier id -> authorize_valid (request id m (authorize_write p)) = true) /\
  (forall l, (exists p, authorize_read l = Ret p) <-> ~ exists u j, l = [JString u; j] /\ is_string j = false).
Proof. exact (conj authorize_back (conj authorize_sent authorize_exact)). Qed.
Print Assumptions C50_authorize.
Example C50_authorize_example : authorize_read [js "user"; js "pass"] = Ret (mkauth (text "user") (Some (text "pass"))) /\ authorize_read [js "user"; JNull] = Throw tt.
Proof. split; vm_compute; reflexivity. Qed.

(* The other notifications.  A difficulty that is not a whole number is lost; an extra nonce of more than
   four bytes is written over what lies behind the session id. *)
Theorem C50_set_difficulty_refuted :
  forall d, set_difficulty_read (set_difficulty_write d) = d <-> d = JNull \/ exists n, d = JUint n.
Proof. exact difficulty_survives. Qed.
Print Assumptions C50_set_difficulty_refuted.
Example C50_set_difficulty_example : difficulty_valid (fun _ => true) (JFloat 7) = true /\ set_difficulty_read (set_difficulty_write (JFloat 7)) = JNull.
Proof. split; vm_compute; reflexivity. Qed.
Theorem C50_set_extranonce :
  (forall x, u32 (en_1 x) -> set_extranonce_read (set_extranonce_write x) = Ret (Some x)) /\
  (forall p, set_extranonce_read p = Undef <-> exists s n b, p = [JString s; JUint n] /\ hex_of b s /\ (4 < length b)%nat) /\
  (forall m, show_message_read (show_message_write m) = m).
Proof. exact (conj extranonce_back (conj extranonce_undefined show_back)). Qed.
Print Assumptions C50_set_extranonce.
Example C50_set_extranonce_example : set_extranonce_read [js "08000002"; JUint 4] = Ret (Some (mkextra 134217730 4)) /\ set_extranonce_read [js "0800000203"; JUint 4] = Undef.
Proof. split; vm_compute; reflexivity. Qed.

(* What is read from any JSON value whatever, and when a job or a request for authorization is accepted. *)
Theorem C50_fields_exact :
  (forall j id, msg_id j = id <-> (member "id" j id /\ identifier id) \/ (id = JNull /\ ~ exists i, member "id" j i /\ identifier i)) /\
  (forall j m, msg_method j = m <->
    (exists n, In (m, n) named /\ member "method" j (JString n)) \/ (m = unset /\ ~ exists m' n, In (m', n) named /\ member "method" j (JString n))) /\
  (forall j p, msg_params j = p <-> member "params" j (JArray p) \/ (p = [] /\ ~ exists l, member "params" j (JArray l))).
Proof. exact (conj any_id (conj any_method any_params)). Qed.
Print Assumptions C50_fields_exact.
Example C50_fields_example : msg_params (JObject [(text "params", JUint 1)]) = [] /\ msg_params (JObject [(text "params", JArray [JUint 1])]) = [JUint 1].
Proof. split; vm_compute; reflexivity. Qed.
Theorem C50_accepted :
  (forall j, notify_valid j = true <->
    exists n p, is_notification j mining_notify n /\ says_notify n p /\ nt_digest p <> zero_digest /\ (forall d, In (Some d) (nt_path p) -> d <> zero_digest) /\
      expand (nt_target p) <> 0 /\ nt_now p <> 0) /\
  (forall j, authorize_valid j = true <-> exists u, member "params" j (JArray [JString u]) \/ exists p, member "params" j (JArray [JString u; JString p])).
Proof. exact (conj notify_accepted authorize_accepted). Qed.
Print Assumptions C50_accepted.
Example C50_accepted_example : notify_valid ex_notify_json = true /\ authorize_valid (JObject [(text "params", JArray [JString []; JNull])]) = false.
Proof. split; vm_compute; reflexivity. Qed.
