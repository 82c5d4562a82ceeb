(* What histories of a Stratum session say. *)
From Coq Require Import String.
From Verif Require Import Base TextModel WireModel MerkleModel WorkModel JsonModel StratumModel StratumSpec StratumConfigModel StratumSessionModel.
Local Open Scope N_scope.

(* a response to the request with number k *)
Definition answers (k : N) (j : json) : Prop := exists r e, is_response j (JUint k) r e.

Fixpoint finishes (h : list event) : N :=
  match h with [] => 0 | Finish _ :: t => 1 + finishes t | _ :: t => finishes t end.
(* what can happen: only what is being sent can finish or fail *)
Fixpoint possible (n : nat) (h : list event) : Prop :=
  match h with
  | [] => True
  | Begin _ _ :: t => possible (S n) t
  | Finish i :: t | Fail i :: t => (i < n)%nat /\ possible (pred n) t
  | Receive _ :: t => possible n t
  end.
(* a request is sent when the last one has been sent *)
Fixpoint sequential (busy : bool) (h : list event) : Prop :=
  match h with
  | [] => True
  | Begin _ _ :: t => busy = false /\ sequential true t
  | Finish i :: t | Fail i :: t => i = O /\ busy = true /\ sequential false t
  | Receive _ :: t => sequential busy t
  end.

Definition only_receives (h : list event) : Prop := forall e, In e h -> exists j, e = Receive j.
(* request k, of method m, has been sent completely and no response to it came since *)
Definition waiting (h : list event) (k : N) (m : method) : Prop :=
  exists h1 p h2 h3, h = h1 ++ Begin m p :: h2 ++ Finish 0 :: h3 /\ only_receives h2 /\ finishes h1 = k /\
                     forall j, In (Receive j) h3 -> ~ answers k j.

(* requests in a history whose number and method are in a set, when n were sent before *)
Fixpoint begun (f : N -> method -> bool) (n : N) (h : list event) : nat :=
  match h with
  | [] => O
  | Begin m _ :: t => (if f (n mod 2 ^ 32) m then 1 else 0) + begun f n t
  | Finish _ :: t => begun f (n + 1) t
  | _ :: t => begun f n t
  end.
(* responses handed on whose number and method are in a set *)
Fixpoint handed (f : N -> method -> bool) (l : list reaction) : nat :=
  match l with
  | [] => O
  | RResponse m j :: t => (match msg_id j with JUint k => if f k m then 1 else 0 | _ => 0 end) + handed f t
  | _ :: t => handed f t
  end.

(* the last mask that was set, the last request that was made *)
Definition last_set (l : list mask_op) (x : Z) : Prop :=
  (exists a b, l = a ++ MSet x :: b /\ forall y, ~ In (MSet y) b) \/ (x = 0%Z /\ forall y, ~ In (MSet y) l).
Definition last_request (l : list mask_op) (r : rolling) : Prop :=
  (exists a b, l = a ++ MConfigure r :: b /\ forall q, ~ In (MConfigure q) b) \/ (r = mkrolling 0 0 /\ forall q, ~ In (MConfigure q) l).

(* ---------------------------------------------------------------- the client *)
Fixpoint submits (h : list client_event) : N :=
  match h with [] => 0 | CSubmit _ :: t => 1 + submits t | _ :: t => submits t end.
(* responses that accept a share *)
Fixpoint shares_accepted (l : list effect) : N :=
  match l with
  | [] => 0
  | Handled mining_submit j :: t =>
    (match msg_error j, msg_result j with None, JBool true => 1 | _, _ => 0 end) + shares_accepted t
  | _ :: t => shares_accepted t
  end.
(* the last message that says something *)
Definition latest {A} (says : json -> A -> Prop) (h : list client_event) (x : A) : Prop :=
  exists a j b, h = a ++ CReceive j :: b /\ says j x /\ forall j' x', In (CReceive j') b -> ~ says j' x'.
Definition says_difficulty (j d : json) : Prop := exists n, is_notification j mining_set_difficulty [d] /\ d = JUint n /\ 0 < n.
(* up to four bytes in hexadecimal are the first bytes of the number; what is not hexadecimal is zero *)
Definition session_bytes (s : bytes) (v : N) : Prop :=
  (exists b, hex_of b s /\ (length b <= 4)%nat /\ v = be_val b * 256 ^ N.of_nat (4 - length b)) \/ ((forall b, ~ hex_of b s) /\ v = 0).
Definition says_extranonce (j : json) (x : extranonce) : Prop :=
  exists s n, is_notification j mining_set_extranonce [JString s; JUint n] /\ session_bytes s (en_1 x) /\ en_2_size x = n.
Definition says_job (j : json) (p : notify) : Prop :=
  exists n, is_notification j mining_notify n /\ says_notify n p /\ notify_params_valid p = true.
Definition says_hello (j : json) (s : bytes) : Prop := is_notification j client_show_message [JString s].

(* what the client's events do to its connection *)
Definition as_event (mem : bool) (e : client_event) : event :=
  match e with
  | CConfigure q => Begin mining_configure (configure_write (configure_of q))
  | CAuthorize p => Begin mining_authorize (authorize_write p)
  | CSubscribe p => Begin mining_subscribe (subscribe_write p)
  | CSubmit s => Begin mining_submit (submit_write mem s)
  | CFinish i => Finish i
  | CFail i => Fail i
  | CReceive j => Receive j
  end.
(* a response that authorizes *)
Definition grants (j : json) : Prop := msg_result j = JBool true /\ msg_error j = None.

(* ---------------------------------------------------------------- the server *)
Inductive server_op := SGetVersion | SFinish (i : nat) | SFail (i : nat) | SReceive (j : json) | SMask (x : Z) | SDifficulty (d : json) | SExtranonce (x : extranonce) | SAuthorize (j : json).
Section Server.
Variables (mem : bool) (less same : json -> json -> bool) (check : authorize_params -> option error).
Definition server_step (s : server) (o : server_op) : server :=
  match o with
  | SGetVersion => sv_with (fst (send_begin client_get_version [] (sv_remote s))) s
  | SFinish i => sv_with (send_finish i (sv_remote s)) s
  | SFail i => sv_with (send_fail i (sv_remote s)) s
  | SReceive j => fst (fst (server_receive j s))
  | SMask x => fst (fst (send_set_version_mask mem x s))
  | SDifficulty d => fst (fst (send_set_difficulty less same d s))
  | SExtranonce x => fst (fst (send_set_extranonce x s))
  | SAuthorize j => match server_authorize check j s with Ret (s', _) => s' | _ => s end
  end.
Definition server_run (l : list server_op) : server := fold_left server_step l server_new.
End Server.
