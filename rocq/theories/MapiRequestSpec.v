(* What the query of a request is meant to say. *)
From Coq Require Import String.
From Verif Require Import Base TextModel MapiModel MapiRequestModel.
Local Open Scope list_scope.

Definition one_or_zero (b : bool) : bytes := text (if b then "1" else "0").
(* the query has an entry for each parameter that is set, and no other *)
Definition query_says (p : parameters) (q : list (bytes * bytes)) : Prop :=
  forall k v, In (k, v) q <->
    (k = text "callbackUrl" /\ pm_url p = Some v) \/
    (k = text "callbackToken" /\ pm_token p = Some v) \/
    (k = text "merkleProof" /\ option_map one_or_zero (pm_proof p) = Some v) \/
    (k = text "merkleFormat" /\ pm_format p = Some v) \/
    (k = text "dsCheck" /\ option_map one_or_zero (pm_check p) = Some v) \/
    (k = text "callbackEncryption" /\ pm_encryption p = Some v).
