(* C95: what a Stratum client and server do with what they receive. *)
From Coq Require Import String.
From Verif Require Import Base TextModel WireModel WireSpec MerkleModel WorkModel JsonModel StratumModel StratumSpec StratumConfigModel StratumConfigSpec StratumSessionModel StratumSessionSpec StratumSessionProofs StratumClientProofs.
Local Open Scope N_scope.

(* After every history the difficulty, extranonce and job a client has are those of the last message that says one. *)
Theorem C95_knows :
  forall mem o h,
  (forall d, cl_difficulty (fst (client_run mem o h client_new)) = Some d <-> latest says_difficulty h d) /\
  (forall x, cl_extranonce (fst (client_run mem o h client_new)) = Some x <-> latest says_extranonce h x) /\
  (forall n, cl_notify (fst (client_run mem o h client_new)) = Some n <-> latest says_job h n).
Proof. exact (fun mem o h => conj (knows_difficulty mem o h) (conj (knows_extranonce mem o h) (knows_job mem o h))). Qed.
Print Assumptions C95_knows.
Definition ex_note (m : method) (p : list json) : json := JObject [(text "id", JNull); (text "method", JString (method_to_string m)); (text "params", JArray p)].
Example C95_knows_example :
  let h := [CReceive (ex_note mining_set_difficulty [JUint 7]); CReceive (ex_note mining_set_extranonce [JString (text "08000002"); JUint 4]); CReceive (ex_note mining_set_difficulty [JUint 9]); CReceive (ex_note mining_set_difficulty [JUint 0])] in
  let c := fst (client_run false (mkcopts [] None) h client_new) in
  cl_difficulty c = Some (JUint 9) /\ cl_extranonce c = Some (mkextra 134217730 4) /\ cl_notify c = None.
Proof. split; [|split]; vm_compute; reflexivity. Qed.

(* A client is authorized exactly when a response handled as the answer to mining.authorize has the result true and no error. *)
Theorem C95_authorized :
  forall mem o h, cl_authorized (fst (client_run mem o h client_new)) = true <-> exists j, In (Handled mining_authorize j) (snd (client_run mem o h client_new)) /\ grants j.
Proof. exact authorized_new. Qed.
Print Assumptions C95_authorized.
Example C95_authorized_example :
  let h := [CAuthorize (mkauth (text "a") None); CFinish 0; CReceive (response (JUint 0) (JBool true))] in
  cl_authorized (fst (client_run false (mkcopts [] None) h client_new)) = true /\
  cl_authorized (fst (client_run false (mkcopts [] None) (CReceive (response (JUint 0) (JBool true)) :: h) client_new)) = true /\
  cl_authorized (fst (client_run false (mkcopts [] None) [CReceive (response (JUint 0) (JBool true))] client_new)) = false.
Proof. split; [|split]; vm_compute; reflexivity. Qed.

(* No history gives a client a version mask or a minimum difficulty, and it only takes the answer to mining.configure
   when it asked for no extension at all: every other answer throws. *)
Theorem C95_extensions_refuted :
  forall mem o h,
  cl_mask (fst (client_run mem o h client_new)) = None /\ cl_minimum (fst (client_run mem o h client_new)) = None /\
  (cl_results (fst (client_run mem o h client_new)) <> None -> co_configure o = Some []).
Proof. exact extensions_never. Qed.
Print Assumptions C95_extensions_refuted.
Theorem C95_configure_exact :
  (forall a q, answers_valid a q = true <-> q = []) /\
  (forall o x c, receive_configure o x c = match co_configure o with
                                           | Some [] => match answer_of x with Ret _ => (set_results x c, [], Done) | _ => (c, [], Thrown) end
                                           | _ => (c, [], Thrown)
                                           end).
Proof. exact (conj answers_valid_never receive_configure_exact). Qed.
Print Assumptions C95_configure_exact.
Example C95_extensions_example :
  let q := [(text "minimum-difficulty", [(text "value", JUint 5)])] in
  let h := [CConfigure q; CFinish 0; CReceive (response (JUint 0) (JObject [(text "minimum-difficulty", JBool true)]))] in
  let x := client_run false (mkcopts [] (Some q)) h client_new in
  In (Handled mining_configure (response (JUint 0) (JObject [(text "minimum-difficulty", JBool true)]))) (snd x) /\ cl_results (fst x) = None /\ cl_minimum (fst x) = None.
Proof. split; [vm_compute; auto|]. split; vm_compute; reflexivity. Qed.

(* A request is never only answered: error 26 is sent under its number and an exception thrown, also after a client.get_version was answered. *)
Theorem C95_requests :
  forall o j id m p c, is_request j id m p -> response_valid j = false ->
  client_receive o j c = (c, (if match m, p with client_get_version, [] => true | _, _ => false end then [Sent (response id (JString (co_version o)))] else []) ++ [Sent (response_error id JNull (error_of 26))], Thrown).
Proof. exact client_requests. Qed.
Print Assumptions C95_requests.
Example C95_requests_example :
  is_request (request (JUint 3) client_get_version []) (JUint 3) client_get_version [] /\ response_valid (request (JUint 3) client_get_version []) = false.
Proof. split; [apply StratumProofs.request_exact; repeat split|]; vm_compute; reflexivity. Qed.

(* Notifications as this library writes them are refused and change nothing; those of mining.set_version_mask are too, whatever they say;
   messages to show are shown. *)
Theorem C95_notifications :
  (forall o m p c, client_receive o (notification m p) c = (c, [], Thrown)) /\
  (forall o j p c, is_notification j mining_set_version_mask p ->
     client_receive o j c = (c, [], Thrown) \/ (client_receive o j c = (c, [], Undefined) /\ exists s, p = [JString s] /\ length s = 8%nat /\ hex_read s = None)) /\
  (forall o j s c, says_hello j s -> client_receive o j c = (c, [Shown s], Done)).
Proof. exact (conj own_notifications (conj mask_refused shown)). Qed.
Print Assumptions C95_notifications.
Example C95_notifications_example :
  let c := client_new in
  client_receive (mkcopts [] None) (ex_note mining_set_version_mask [JString (text "1fffe000")]) c = (c, [], Thrown) /\
  client_receive (mkcopts [] None) (ex_note client_show_message [JString (text "hi")]) c = (c, [Shown (text "hi")], Done).
Proof. split; vm_compute; reflexivity. Qed.

(* The messages whose effect on a client is undefined are exactly these. *)
Theorem C95_undefined :
  forall o j c, snd (client_receive o j c) = Undefined <->
  (exists s n b, is_notification j mining_set_extranonce [JString s; JUint n] /\ hex_of b s /\ (4 < length b)%nat) \/
  (exists s, is_notification j mining_set_version_mask [JString s] /\ length s = 8%nat /\ forall b, ~ hex_of b s).
Proof. exact client_undefined. Qed.
Print Assumptions C95_undefined.
Example C95_undefined_example :
  snd (client_receive (mkcopts [] None) (ex_note mining_set_extranonce [JString (text "0123456789"); JUint 4]) client_new) = Undefined /\
  snd (client_receive (mkcopts [] None) (ex_note mining_set_extranonce [JString (text "01234567"); JUint 4]) client_new) = Done.
Proof. split; vm_compute; reflexivity. Qed.

(* A server never has a subscription, so it can never set a difficulty or an extranonce. *)
Theorem C95_server_sets_refuted :
  forall mem less same check l, let s := server_run mem less same check l in
  sv_subscriptions s = [] /\ (forall d, send_set_difficulty less same d s = (s, [], Thrown)) /\ (forall x, send_set_extranonce x s = (s, [], Thrown)).
Proof. exact server_never. Qed.
Print Assumptions C95_server_sets_refuted.
Example C95_server_sets_example :
  let s := server_run false (fun _ _ => false) (fun _ _ => false) (fun _ => None) [SGetVersion; SFinish 0; SReceive (response (JUint 0) (JString (text "v")))] in
  sv_version s = Some (text "v") /\ snd (send_set_difficulty (fun _ _ => false) (fun _ _ => false) (JUint 1) s) = Thrown.
Proof. split; vm_compute; reflexivity. Qed.

(* A new mask is announced as the method mining.set_extranonce, and the effect is undefined when too few bits are left. *)
Theorem C95_server_mask :
  forall mem x s, send_set_version_mask mem x s =
  if match masks_get (sv_masks s) with Some z => (z =? x)%Z | None => false end then (s, [], Done)
  else let s' := sv_set_masks (mkmasks x (mk_requested (sv_masks s))) s in
       match mask_make x (mk_requested (sv_masks s)) with
       | Some z => (s', [notification mining_set_extranonce [JString (mask_text mem z)]], Done)
       | None => (s', [], Undefined)
       end.
Proof. exact set_version_mask_exact. Qed.
Print Assumptions C95_server_mask.
Example C95_server_mask_example :
  snd (fst (send_set_version_mask false 15 server_new)) = [notification mining_set_extranonce [JString (mask_text false 0)]].
Proof. vm_compute. reflexivity. Qed.

(* A user that is refused is authorized, and the effect of one that is not refused is undefined. *)
Theorem C95_authorize_inverted_refuted :
  (forall check j s p, authorize_valid j = true -> sv_name s = None -> authorize_read (msg_params j) = Ret p ->
   match check p with
   | Some _ => exists s', server_authorize check j s = Ret (s', boolean_response (msg_id j) true) /\ sv_name s' = Some (au_user p)
   | None => server_authorize check j s = Undef
   end) /\
  (forall check j s,
   (authorize_valid j = false -> server_authorize check j s = Ret (s, boolean_error (msg_id j) (error_of 27))) /\
   (authorize_valid j = true -> sv_name s <> None -> server_authorize check j s = Ret (s, boolean_error (msg_id j) (error_of 26)))).
Proof. exact (conj authorize_inverted authorize_refuses). Qed.
Print Assumptions C95_authorize_inverted_refuted.
Example C95_authorize_inverted_example :
  let j := request (JUint 1) mining_authorize (authorize_write (mkauth (text "mallory") None)) in
  authorize_valid j = true /\ authorize_read (msg_params j) = Ret (mkauth (text "mallory") None) /\
  exists s', server_authorize (fun _ => Some (error_of 24)) j server_new = Ret (s', boolean_response (JUint 1) true) /\ sv_name s' = Some (text "mallory").
Proof. split; [vm_compute; reflexivity|]. split; [vm_compute; reflexivity|]. eexists. split; vm_compute; reflexivity. Qed.

(* The only response a server can handle is a text that answers client.get_version; everything else it receives throws. *)
Theorem C95_server_receives :
  forall j s,
  (exists k r e v, is_response j (JUint k) r e /\ r = JString v /\ tab_find k (rm_table (sv_remote s)) = Some client_get_version /\
     server_receive j s = (sv_set_version v (sv_with (fst (receive j (sv_remote s))) s), [], Done)) \/
  (snd (server_receive j s) = Thrown /\ sv_version (fst (fst (server_receive j s))) = sv_version s).
Proof. exact server_response_exact. Qed.
Print Assumptions C95_server_receives.
Example C95_server_receives_example :
  snd (server_receive (request (JUint 1) mining_subscribe []) server_new) = Thrown /\ snd (server_receive (response (JUint 0) (JString (text "v"))) server_new) = Thrown.
Proof. split; vm_compute; reflexivity. Qed.

(* Asked for its version, a client answers, then sends an error and throws; the server takes the answer and throws at the error. *)
Theorem C95_version :
  forall o c s, rm_sending (sv_remote s) = [] ->
  let k := rm_requests (sv_remote s) in
  let q := snd (send_begin client_get_version [] (sv_remote s)) in
  let s1 := sv_with (send_finish 0 (fst (send_begin client_get_version [] (sv_remote s)))) s in
  let a := response (JUint k) (JString (co_version o)) in
  let b := response_error (JUint k) JNull (error_of 26) in
  client_receive o q c = (c, [Sent a; Sent b], Thrown) /\
  (exists s2, server_receive a s1 = (s2, [], Done) /\ sv_version s2 = Some (co_version o) /\ server_receive b s2 = (s2, [], Thrown)).
Proof. exact version_exchange. Qed.
Print Assumptions C95_version.
Example C95_version_example : rm_sending (sv_remote server_new) = [].
Proof. reflexivity. Qed.
