(* Requests that a client of MAPI sends.
   Source: pay/MAPI.cpp 29-50, 72-78, 193-213, include/gigamonkey/pay/MAPI.hpp 241-264, 296-304, 348-354, 443-476.
   External: the hexadecimal form [u1]; how std::ostream writes digests [shown]; what REST.GET makes of a path [get];
   the form encoding of the query, which is kept as a list; the headers that go with a body. *)
From Coq Require Import String.
From Verif Require Import Base MerkleModel TextModel TscModel JsonModel MapiModel.
Local Open Scope N_scope.

Inductive request_body := BNone | BJson (j : json) | BRaw (b : bytes).
Record request := mkrequest { rq_post : bool; rq_path : bytes; rq_query : option (list (bytes * bytes)); rq_body : request_body }.

Section Requests.
Variable u1 : bool.
Variable shown : digest -> bytes.
Variable get : bytes -> bytes.
(* REST.Path *)
Variable base : bytes.

(* MAPI.hpp 348-354 *)
Definition policy_request : request := mkrequest false (get (text "/mapi/policyQuote")) None BNone.
Definition fee_request : request := mkrequest false (get (text "/mapi/feeQuote")) None BNone.
(* MAPI.cpp 29-34 *)
Definition status_request (d : digest) : outcome unit request :=
  if digest_valid d then Ret (mkrequest false (get (text "/mapi/tx/" ++ shown d)) None BNone) else Throw tt.
(* MAPI.cpp 193-204; as_json: the content type is application_JSON *)
Definition submit_request (as_json : bool) (s : submission) : outcome unit request :=
  if submission_valid s then
    Ret (if as_json then mkrequest true (base ++ text "/mapi/tx") None (BJson (submission_write u1 s))
         else mkrequest true (base ++ text "/mapi/tx") (Some (parameters_list (sm_parameters s))) (BRaw (sm_tx s)))
  else Throw tt.
(* MAPI.cpp 206-213, 72-78, MAPI.hpp 474-476; data::valid of a list is that of all its elements *)
Definition submit_all_request (l : list submission) (p : parameters) : outcome unit request :=
  if negb (Nat.eqb (length l) 0) && forallb submission_valid l then
    Ret (mkrequest true (base ++ text "/mapi/txs") (Some (parameters_list p)) (BJson (JArray (map (submission_write u1) l))))
  else Throw tt.
End Requests.
