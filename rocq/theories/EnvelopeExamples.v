(* Concrete envelopes for the examples beside the properties: a toy signature scheme in which a signature
   is the key followed by the digest. *)
From Coq Require Import String.
From Verif Require Import Base BaseProofs TextModel JsonModel EnvelopeModel EnvelopeSpec.

Definition toy_sign (s d : bytes) : bytes := s ++ d.
Definition toy_verify (k d x : bytes) : bool := bytes_eqb x (k ++ d).
Definition toy_text (e : bytes) : option bytes := Some e.
Definition ex_secret : bytes := text "key".
Definition ex_payload : bytes := text "{""fee"": 500}".
Definition ex_signed : envelope := env_bytes_signed (fun b => b) (fun b => b) bytes (fun s => s) toy_sign ex_payload (text "application/json") ex_secret.
Definition ex_text : envelope := env_text_signed (fun b => b) bytes (fun s => s) toy_sign ex_payload (text "application/json") ex_secret.

Lemma toy_scheme : forall t d, toy_verify t d (toy_sign t d) = true.
Proof. intros t d. apply bytes_eqb_eq. reflexivity. Qed.
