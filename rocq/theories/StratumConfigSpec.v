(* What the messages of mining.configure say. *)
From Coq Require Import String Sorted.
From Verif Require Import Base TextModel WireModel WireSpec JsonModel StratumModel StratumConfigModel.
Local Open Scope N_scope.

(* a map: keys in strictly increasing order *)
Definition sorted {A} (o : dict A) : Prop := StronglySorted (fun a b => text_lt (fst a) (fst b) = true) o.
Definition maps {A} (o : dict A) (k : bytes) (v : A) : Prop := obj_find k o = Some v.
(* without dots *)
Definition plain (s : bytes) : Prop := ~ In dot s.

Definition requests_ok (r : requests) : Prop := sorted r /\ Forall (fun e => sorted (snd e)) r.
Definition results_ok (r : results) : Prop := sorted r /\ Forall (fun e => sorted (rs_params (snd e))) r.

(* "n.k": v in the object is parameter k of extension n, and nothing else is there *)
Definition says_requests (c : configure) (m : requests) : Prop :=
  (forall n, In n (cf_supported c) <-> exists q, maps m n q) /\
  (forall n k v, (exists q, maps m n q /\ maps q k v) <-> In n (cf_supported c) /\ plain n /\ plain k /\ maps (cf_params c) (dotted n k) v) /\
  (forall p v, maps (cf_params c) p v -> exists n k, p = dotted n k /\ plain n /\ plain k /\ In n (cf_supported c)).
Definition says_results (o : dict json) (m : results) : Prop :=
  (forall n a, (exists x, maps m n x /\ rs_accepted x = a) <-> plain n /\ exists j, maps o n j /\ acc_read j = a) /\
  (forall n k v, (exists x, maps m n x /\ maps (rs_params x) k v) <-> plain n /\ plain k /\ maps o (dotted n k) v) /\
  (forall p v, maps o p v -> plain p \/ exists n k j, p = dotted n k /\ plain n /\ plain k /\ maps o n j).

(* bits of a mask *)
Definition bit (z : Z) (i : nat) : Prop := Z.testbit z (Z.of_nat i) = true.

(* a request survives when every parameter has the name of its extension *)
Definition self_named (e : bytes * ext_request) : Prop := snd e = [] \/ (plain (fst e) /\ exists v, snd e = [(fst e, v)]).

Definition good (x : result) : Prop := rs_accepted x = AccBool true.

(* a result that can be told from what is written *)
Definition told (e : bytes * result) : Prop :=
  plain (fst e) /\ ((good (snd e) /\ Forall (fun p => plain (fst p)) (rs_params (snd e))) \/ rs_params (snd e) = []).
