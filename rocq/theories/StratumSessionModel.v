(* Stratum sessions: matching of responses with requests, the client and the server.
   Source: include/gigamonkey/stratum/remote.hpp, stratum/remote.cpp,
   include/gigamonkey/stratum/client_session.hpp, stratum/client_session.cpp,
   include/gigamonkey/stratum/server_session.hpp, stratum/server_session.cpp.
   A coroutine that waits for Send->send is a step that begins and one that finishes or fails; what happens
   in between is up to the others.  The order in which steps come is a history.
   Not modelled: the text of the stream; what is printed; functions that are declared and never defined
   (client_session::receive_subscribe, pose_current_puzzle and solved; server_session::receive_request,
   configure, submit, select, state::notify and state::find; parts of these are commented out), whose calls
   are recorded. *)
From Coq Require Import String.
From Verif Require Import Base TextModel WireModel MerkleModel WorkModel JsonModel StratumModel StratumConfigModel.
Local Open Scope N_scope.

(* ---------------------------------------------------------------- remote.hpp 33-54 *)
(* std::map<request_id, method> *)
Fixpoint tab_find (k : N) (t : list (N * method)) : option method :=
  match t with [] => None | (k', m) :: r => if k =? k' then Some m else tab_find k r end.
Fixpoint tab_del (k : N) (t : list (N * method)) : list (N * method) :=
  match t with [] => [] | (k', m) :: r => if k =? k' then tab_del k r else (k', m) :: tab_del k r end.
Definition tab_set (k : N) (m : method) (t : list (N * method)) : list (N * method) := (k, m) :: tab_del k t.
(* rm_sending: the coroutines in send_request that wait for Send->send, each with its id and method *)
Record remote := mkremote { rm_requests : N; rm_table : list (N * method); rm_sending : list (N * method) }.
Definition remote_new : remote := mkremote 0 [] [].

(* remote.cpp 36-41 *)
Definition send_begin (m : method) (p : list json) (r : remote) : remote * json :=
  (mkremote (rm_requests r) (rm_table r) (rm_sending r ++ [(rm_requests r, m)]), request (JUint (rm_requests r)) m p).
Fixpoint remove_nth {A} (i : nat) (l : list A) : list A :=
  match i, l with
  | _, [] => []
  | O, _ :: r => r
  | S i', a :: r => a :: remove_nth i' r
  end.
Definition send_finish (i : nat) (r : remote) : remote :=
  match nth_error (rm_sending r) i with
  | None => r
  | Some (k, m) => mkremote ((rm_requests r + 1) mod 2 ^ 32) (tab_set k m (rm_table r)) (remove_nth i (rm_sending r))
  end.
(* Send->send throws *)
Definition send_fail (i : nat) (r : remote) : remote := mkremote (rm_requests r) (rm_table r) (remove_nth i (rm_sending r)).

(* remote.cpp 8-34.  A string is not a request_id: the conversion throws *)
Inductive reaction := RNotification (j : json) | RResponse (m : method) (j : json) | RRequest (j : json) | RThrow.
Definition receive (j : json) (r : remote) : remote * reaction :=
  if notification_valid j then (r, RNotification j)
  else if response_valid j then
    match msg_id j with
    | JUint k => match tab_find k (rm_table r) with
                 | Some m => (mkremote (rm_requests r) (tab_del k (rm_table r)) (rm_sending r), RResponse m j)
                 | None => (r, RThrow)
                 end
    | _ => (r, RThrow)
    end
  else if request_valid j then (r, RRequest j)
  else (r, RThrow).

(* histories of a remote *)
Inductive event := Begin (m : method) (p : list json) | Finish (i : nat) | Fail (i : nat) | Receive (j : json).
Definition step (e : event) (r : remote) : remote * list reaction :=
  match e with
  | Begin m p => (fst (send_begin m p r), [])
  | Finish i => (send_finish i r, [])
  | Fail i => (send_fail i r, [])
  | Receive j => let x := receive j r in (fst x, [snd x])
  end.
Fixpoint run (h : list event) (r : remote) : remote * list reaction :=
  match h with
  | [] => (r, [])
  | e :: t => let x := step e r in let y := run t (fst x) in (fst y, snd x ++ snd y)
  end.

(* ---------------------------------------------------------------- version masks over time *)
Inductive mask_op := MConfigure (r : rolling) | MSet (x : Z).
Definition mask_step (p : masks) (o : mask_op) : masks := match o with MConfigure r => masks_configure r p | MSet x => masks_set x p end.
Definition mask_run (l : list mask_op) : masks := fold_left mask_step l masks_none.

(* ---------------------------------------------------------------- client_session.hpp 25-83 *)
Record client_options := mkcopts { co_version : bytes; co_configure : option requests }.
Record client := mkclient { cl_remote : remote; cl_results : option results; cl_authorized : bool; cl_minimum : option json;
  cl_difficulty : option json; cl_extranonce : option extranonce; cl_mask : option Z; cl_notify : option notify;
  cl_submitted : N; cl_accepted : N }.
Definition client_new : client := mkclient remote_new None false None None None None None 0 0.
(* what a step does besides changing the state; Handled is not an effect of the code but says that
   receive_response was called *)
Inductive effect :=
| Sent (j : json) | Handled (m : method) (j : json) | Pose | Shown (s : bytes) | Subscribed (p : subscribed)
| ConfigureError (e : error) | AuthorizeError (e : error) | SubscribeError (e : error).
Inductive ending := Done | Thrown | Undefined.
Definition reply : Type := client * list effect * ending.

Definition with_remote (r : remote) (c : client) : client :=
  mkclient r (cl_results c) (cl_authorized c) (cl_minimum c) (cl_difficulty c) (cl_extranonce c) (cl_mask c) (cl_notify c) (cl_submitted c) (cl_accepted c).
Definition set_results (x : results) (c : client) : client :=
  mkclient (cl_remote c) (Some x) (cl_authorized c) (cl_minimum c) (cl_difficulty c) (cl_extranonce c) (cl_mask c) (cl_notify c) (cl_submitted c) (cl_accepted c).
Definition set_authorized (c : client) : client :=
  mkclient (cl_remote c) (cl_results c) true (cl_minimum c) (cl_difficulty c) (cl_extranonce c) (cl_mask c) (cl_notify c) (cl_submitted c) (cl_accepted c).
Definition set_difficulty (d : json) (c : client) : client :=
  mkclient (cl_remote c) (cl_results c) (cl_authorized c) (cl_minimum c) (Some d) (cl_extranonce c) (cl_mask c) (cl_notify c) (cl_submitted c) (cl_accepted c).
Definition set_extranonce (x : extranonce) (c : client) : client :=
  mkclient (cl_remote c) (cl_results c) (cl_authorized c) (cl_minimum c) (cl_difficulty c) (Some x) (cl_mask c) (cl_notify c) (cl_submitted c) (cl_accepted c).
Definition set_mask (z : Z) (c : client) : client :=
  mkclient (cl_remote c) (cl_results c) (cl_authorized c) (cl_minimum c) (cl_difficulty c) (cl_extranonce c) (Some z) (cl_notify c) (cl_submitted c) (cl_accepted c).
Definition set_notify (n : notify) (c : client) : client :=
  mkclient (cl_remote c) (cl_results c) (cl_authorized c) (cl_minimum c) (cl_difficulty c) (cl_extranonce c) (cl_mask c) (Some n) (cl_submitted c) (cl_accepted c).
Definition count_submitted (c : client) : client :=
  mkclient (cl_remote c) (cl_results c) (cl_authorized c) (cl_minimum c) (cl_difficulty c) (cl_extranonce c) (cl_mask c) (cl_notify c) ((cl_submitted c + 1) mod 2 ^ 32) (cl_accepted c).
Definition count_accepted (c : client) : client :=
  mkclient (cl_remote c) (cl_results c) (cl_authorized c) (cl_minimum c) (cl_difficulty c) (cl_extranonce c) (cl_mask c) (cl_notify c) (cl_submitted c) ((cl_accepted c + 1) mod 2 ^ 32).

(* client_session.cpp 6-13; mining_set_difficulty.hpp 31-33, mining_set_extranonce.hpp 33-35,
   mining_set_version_mask.hpp 20-22, client_show_message.hpp 31-33 *)
Definition whole_difficulty_valid (d : json) : bool := match d with JUint n => 0 <? n | _ => false end.
Definition receive_notification (j : json) (c : client) : reply :=
  if notify_valid j then (set_notify (notify_read (msg_params j)) c, [Pose], Done)
  else match msg_method j with
  | mining_set_difficulty =>
    let d := set_difficulty_read (msg_params j) in
    if whole_difficulty_valid d then (set_difficulty d c, [], Done) else (c, [], Thrown)
  | mining_set_extranonce =>
    match set_extranonce_read (msg_params j) with
    | Ret (Some x) => (set_extranonce x c, [], Done)
    | Ret None => (c, [], Thrown)
    | Throw _ => (c, [], Thrown)
    | Undef => (c, [], Undefined)
    end
  | mining_set_version_mask =>
    match set_mask_read (msg_params j) with
    | Ret (Some z) => (set_mask z c, [Pose], Done)
    | Ret None => (c, [], Thrown)
    | Throw _ => (c, [], Thrown)
    | Undef => (c, [], Undefined)
    end
  | client_show_message =>
    match msg_params j with [JString s] => (c, [Shown s], Done) | _ => (c, [], Thrown) end
  | _ => (c, [], Thrown)
  end.

(* client_get_version.hpp 17-19 *)
Definition get_version_valid (j : json) : bool :=
  request_valid j && match msg_method j with client_get_version => true | _ => false end && match msg_params j with [] => true | _ => false end.
(* client_session.cpp 15-22: a request for the version is answered, and refused as well *)
Definition receive_request (o : client_options) (j : json) (c : client) : reply :=
  (c, (if get_version_valid j then [Sent (response (msg_id j) (JString (co_version o)))] else []) ++ [Sent (response_error (msg_id j) JNull (error_of 26))], Thrown).

(* client_session.cpp 51-104.  After the test of line 57 the code asks for each extension that was requested
   and, when there is no answer, looks at it *)
Definition asked_minimum (q : requests) (x : results) (c : client) : reply :=
  match obj_find (extension_to_string minimum_difficulty) q with
  | Some p => match minimum_read p with
              | Some d => match obj_find (text "minimum-difficulty") x with Some _ => (c, [], Done) | None => (c, [], Undefined) end
              | None => (c, [], Done)
              end
  | None => (c, [], Done)
  end.
Definition asked_rolling (q : requests) (x : results) (c : client) : reply :=
  match obj_find (extension_to_string version_rolling) q with
  | Some p => match rolling_read p with
              | Ret (Some _) => match obj_find (text "version-rolling") x with Some _ => (c, [], Done) | None => (c, [], Undefined) end
              | Ret None => (c, [], Done)
              | Throw _ => (c, [], Thrown)
              | Undef => (c, [], Undefined)
              end
  | None => (c, [], Done)
  end.
Definition asked_subscribe (q : requests) (x : results) (c : client) : reply :=
  match obj_find (extension_to_string subscribe_extranonce) q with
  | Some _ => match obj_find (text "subscribe-extranonce") q with
              | None => (c, [], Thrown)
              | Some _ => match obj_find (text "subscribe-extranonce") x with Some _ => (c, [], Done) | None => (c, [], Undefined) end
              end
  | None => (c, [], Done)
  end.
Definition asked_info (q : requests) (x : results) (c : client) : reply :=
  match obj_find (extension_to_string ext_info) q with
  | Some p => match about_read p with
              | Ret (Some _) => match obj_find (text "info") x with Some _ => (c, [], Done) | None => (c, [], Undefined) end
              | Ret None => (c, [], Done)
              | Throw _ => (c, [], Thrown)
              | Undef => (c, [], Undefined)
              end
  | None => (c, [], Done)
  end.
Definition after (x : reply) (f : client -> reply) : reply :=
  match x with
  | (c, es, Done) => let y := f c in (fst (fst y), es ++ snd (fst y), snd y)
  | _ => x
  end.
Definition receive_configure (o : client_options) (x : results) (c : client) : reply :=
  match co_configure o with
  | None => (c, [], Thrown)
  | Some q =>
    match answer_of x with
    | Throw _ => (c, [], Thrown)
    | Undef => (c, [], Undefined)
    | Ret a =>
      if negb (answers_valid a q) then (c, [], Thrown)
      else after (asked_rolling q x c) (fun c => after (asked_minimum q x c) (fun c => after (asked_subscribe q x c) (fun c =>
           after (asked_info q x c) (fun c => (set_results x c, [], Done)))))
    end
  end.

(* client_session.cpp 24-49 *)
Definition receive_response (o : client_options) (m : method) (j : json) (c : client) : reply :=
  match m with
  | mining_configure =>
    match msg_error j with
    | Some e => (c, [ConfigureError e], Done)
    | None => match msg_result j with
              | JObject a => match results_of a with
                             | Ret x => receive_configure o x c
                             | Throw _ => (c, [], Thrown)
                             | Undef => (c, [], Undefined)
                             end
              | _ => (c, [], Thrown)
              end
    end
  | mining_authorize =>
    match msg_error j with
    | Some e => (c, [AuthorizeError e], Done)
    | None => if negb (boolean_valid j) then (c, [], Thrown)
              else match boolean_result j with Ret true => (set_authorized c, [], Done) | Ret false => (c, [], Done) | Throw _ => (c, [], Thrown) | Undef => (c, [], Undefined) end
    end
  | mining_subscribe =>
    match msg_error j with
    | Some e => (c, [SubscribeError e], Done)
    | None => match msg_result j with
              | JArray l => match subscribed_read l with Ret p => (c, [Subscribed p], Done) | Throw _ => (c, [], Thrown) | Undef => (c, [], Undefined) end
              | _ => (c, [], Thrown)
              end
    end
  | mining_submit =>
    match msg_error j with
    | Some _ => (c, [], Done)
    | None => match msg_result j with JBool true => (count_accepted c, [], Done) | JBool false => (c, [], Done) | _ => (c, [], Thrown) end
    end
  | _ => (c, [], Thrown)
  end.

(* remote.cpp 8-34 for a client *)
Definition client_receive (o : client_options) (j : json) (c : client) : reply :=
  let x := receive j (cl_remote c) in
  let c := with_remote (fst x) c in
  match snd x with
  | RNotification j => receive_notification j c
  | RResponse m j => let y := receive_response o m j c in (fst (fst y), Handled m j :: snd (fst y), snd y)
  | RRequest j => receive_request o j c
  | RThrow => (c, [], Thrown)
  end.

(* client_session.hpp 87-102 *)
Section Order.
Variable mem : bool.
Inductive client_event :=
| CConfigure (q : requests) | CAuthorize (p : authorize_params) | CSubscribe (p : subscribe_params) | CSubmit (s : sshare)
| CFinish (i : nat) | CFail (i : nat) | CReceive (j : json).
Definition client_send (m : method) (p : list json) (c : client) : reply :=
  let x := send_begin m p (cl_remote c) in (with_remote (fst x) c, [Sent (snd x)], Done).
Definition client_step (o : client_options) (e : client_event) (c : client) : reply :=
  match e with
  | CConfigure q => client_send mining_configure (configure_write (configure_of q)) c
  | CAuthorize p => client_send mining_authorize (authorize_write p) c
  | CSubscribe p => client_send mining_subscribe (subscribe_write p) c
  | CSubmit s => client_send mining_submit (submit_write mem s) (count_submitted c)
  | CFinish i => (with_remote (send_finish i (cl_remote c)) c, [], Done)
  | CFail i => (with_remote (send_fail i (cl_remote c)) c, [], Thrown)
  | CReceive j => client_receive o j c
  end.
Fixpoint client_run (o : client_options) (h : list client_event) (c : client) : client * list effect :=
  match h with
  | [] => (c, [])
  | e :: t => let x := client_step o e c in let y := client_run o t (fst (fst x)) in (fst y, snd (fst x) ++ snd y)
  end.
End Order.

(* ---------------------------------------------------------------- server_session.hpp 106-234, the parts that are defined *)
Record server := mkserver { sv_remote : remote; sv_masks : masks; sv_minimum : option json; sv_version : option bytes; sv_name : option bytes;
  sv_subscriptions : list subscription; sv_next_extranonce : extranonce; sv_extranonce : extranonce; sv_next_difficulty : json }.
(* difficulty {} is JSON null, extranonce {} is zero *)
Definition server_new : server := mkserver remote_new masks_none None None None [] extra_none extra_none JNull.
Definition sv_with (r : remote) (s : server) : server :=
  mkserver r (sv_masks s) (sv_minimum s) (sv_version s) (sv_name s) (sv_subscriptions s) (sv_next_extranonce s) (sv_extranonce s) (sv_next_difficulty s).
Definition sv_set_name (n : bytes) (s : server) : server :=
  mkserver (sv_remote s) (sv_masks s) (sv_minimum s) (sv_version s) (Some n) (sv_subscriptions s) (sv_next_extranonce s) (sv_extranonce s) (sv_next_difficulty s).
Definition sv_set_version (v : bytes) (s : server) : server :=
  mkserver (sv_remote s) (sv_masks s) (sv_minimum s) (Some v) (sv_name s) (sv_subscriptions s) (sv_next_extranonce s) (sv_extranonce s) (sv_next_difficulty s).
Definition sv_set_masks (m : masks) (s : server) : server :=
  mkserver (sv_remote s) m (sv_minimum s) (sv_version s) (sv_name s) (sv_subscriptions s) (sv_next_extranonce s) (sv_extranonce s) (sv_next_difficulty s).
Definition sv_set_next (d : json) (s : server) : server :=
  mkserver (sv_remote s) (sv_masks s) (sv_minimum s) (sv_version s) (sv_name s) (sv_subscriptions s) (sv_next_extranonce s) (sv_extranonce s) d.
Definition sv_set_next_extranonce (x : extranonce) (s : server) : server :=
  mkserver (sv_remote s) (sv_masks s) (sv_minimum s) (sv_version s) (sv_name s) (sv_subscriptions s) x (sv_extranonce s) (sv_next_difficulty s).

Definition server_reply : Type := server * list json * ending.
Definition extra_eqb (a b : extranonce) : bool := (en_1 a =? en_1 b) && (en_2_size a =? en_2_size b).
(* server_session.cpp 8-14, server_session.hpp 268-271; [less] and [same] compare difficulties *)
Definition send_set_difficulty (less same : json -> json -> bool) (d : json) (s : server) : server_reply :=
  if match sv_subscriptions s with [] => true | _ => false end then (s, [], Thrown)
  else if match sv_minimum s with Some m => less d m | None => false end then (s, [], Done)
  else if same d (sv_next_difficulty s) then (s, [], Done)
  else (sv_set_next d s, [notification mining_set_difficulty (set_difficulty_write d)], Done).
(* server_session.cpp 16-21, server_session.hpp 248-252 *)
Definition send_set_extranonce (x : extranonce) (s : server) : server_reply :=
  if match sv_subscriptions s with [] => true | _ => false end then (s, [], Thrown)
  else if extra_eqb (sv_next_extranonce s) x || (extra_eqb (sv_next_extranonce s) extra_none && extra_eqb (sv_extranonce s) x) then (s, [], Done)
  else (sv_set_next_extranonce x s, [notification mining_set_extranonce (set_extranonce_write x)], Done).
(* server_session.cpp 23-29, server_session.hpp 259-262: the method is that of another notification, and the
   mask is looked at although there may be none *)
Definition send_set_version_mask (mem : bool) (x : Z) (s : server) : server_reply :=
  if match masks_get (sv_masks s) with Some z => (z =? x)%Z | None => false end then (s, [], Done)
  else let s := sv_set_masks (masks_set x (sv_masks s)) s in
       match masks_get (sv_masks s) with
       | Some z => (s, [notification mining_set_extranonce (set_mask_write mem z)], Done)
       | None => (s, [], Undefined)
       end.
(* server_session.cpp 31-41, client_get_version.hpp 32-34 *)
Definition server_receive_response (m : method) (j : json) (s : server) : server_reply :=
  match m with
  | client_get_version =>
    if negb (response_valid j) then (s, [], Thrown)
    else match msg_result j with JString v => (sv_set_version v s, [], Done) | _ => (s, [], Thrown) end
  | _ => (s, [], Thrown)
  end.
(* remote.cpp 8-34 for a server; receive_request is not defined *)
Definition server_receive (j : json) (s : server) : server_reply :=
  let x := receive j (sv_remote s) in
  let s := sv_with (fst x) s in
  match snd x with
  | RResponse m j => server_receive_response m j s
  | _ => (s, [], Thrown)
  end.
(* server_session.cpp 45-58; [check] is the database of users, which gives an error for who is not authorized *)
Definition server_authorize (check : authorize_params -> option error) (j : json) (s : server) : res (server * json) :=
  if negb (authorize_valid j) then Ret (s, boolean_error (msg_id j) (error_of 27))
  else match sv_name s with
  | Some _ => Ret (s, boolean_error (msg_id j) (error_of 26))
  | None =>
    bind (authorize_read (msg_params j)) (fun p =>
      match check p with
      | Some _ => Ret (sv_set_name (au_user p) s, boolean_response (msg_id j) true)
      | None => Undef
      end)
  end.
