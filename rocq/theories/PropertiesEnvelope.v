(* C52: signed JSON envelopes. *)
From Coq Require Import String.
From Verif Require Import Base TextModel JsonModel EnvelopeModel EnvelopeSpec EnvelopeProofs EnvelopeExamples.

(* Whatever is signed verifies, for every payload, type, key and correct signature scheme. *)
Theorem C52_signed_verifies :
  forall sha b64w b64r (secret : Type) to_public sign verify,
  (forall t d, verify (to_public t) d (sign t d) = true) -> (forall b, b64r (b64w b) = Some b) ->
  forall pl m (s : secret),
  env_verify sha b64r verify (env_text_signed sha secret to_public sign pl m s) = true /\
  env_verify sha b64r verify (env_bytes_signed sha b64w secret to_public sign pl m s) = true.
Proof. exact (fun sha b64w b64r secret to_public sign verify V B pl m s => signed_verifies sha b64w b64r secret to_public sign verify pl m s V B). Qed.
Print Assumptions C52_signed_verifies.
Example C52_signed_verifies_example :
  (forall t d, toy_verify t d (toy_sign t d) = true) /\ env_verify (fun b => b) toy_text toy_verify ex_signed = true /\
  env_verify (fun b => b) toy_text toy_verify (mkenv (text "other") EncBase64 (ev_mime ex_signed) (ev_key ex_signed) (ev_sig ex_signed)) = false.
Proof. split; [exact toy_scheme|]. split; vm_compute; reflexivity. Qed.

(* The payload that was put in is the content that comes out. *)
Theorem C52_content :
  forall sha b64w b64r (secret : Type) to_public sign, (forall b, b64r (b64w b) = Some b) ->
  forall pl m (s : secret),
  content b64r (env_text pl m) = Some pl /\ content b64r (env_bytes b64w pl m) = Some pl /\
  content b64r (env_text_signed sha secret to_public sign pl m s) = Some pl /\
  content b64r (env_bytes_signed sha b64w secret to_public sign pl m s) = Some pl.
Proof. exact (fun sha b64w b64r secret to_public sign B pl m s => content_made sha b64w b64r secret to_public sign pl m s B). Qed.
Print Assumptions C52_content.
Example C52_content_example : content toy_text ex_signed = Some ex_payload.
Proof. vm_compute. reflexivity. Qed.

(* verify holds exactly of envelopes with no signature at all and of those with a signature of the content. *)
Theorem C52_verify_exact :
  forall sha b64r verify e,
  env_verify sha b64r verify e = true <-> ev_encoding e <> EncNone /\ (unsigned e \/ signed sha b64r verify e).
Proof. exact verify_exact. Qed.
Print Assumptions C52_verify_exact.
Example C52_verify_exact_example : signed (fun b => b) toy_text toy_verify ex_signed /\ unsigned (env_text (text "x") (text "y")).
Proof. split; [|split; reflexivity]. exists ex_secret, (ex_secret ++ ex_payload), ex_payload. vm_compute. repeat split; reflexivity. Qed.

(* The type is not signed, and an envelope whose key and signature are taken away still verifies. *)
Theorem C52_mimetype_refuted :
  forall sha b64r verify m e, env_verify sha b64r verify (retyped m e) = env_verify sha b64r verify e.
Proof. exact retyped_verify. Qed.
Print Assumptions C52_mimetype_refuted.
Theorem C52_stripped_refuted :
  forall sha b64r verify e, env_verify sha b64r verify (stripped e) = true <-> ev_encoding e <> EncNone.
Proof. exact stripped_verify. Qed.
Print Assumptions C52_stripped_refuted.
Example C52_stripped_example : env_verify (fun b => b) toy_text toy_verify (stripped ex_signed) = true /\ stripped ex_signed <> ex_signed.
Proof. split; [vm_compute; reflexivity|discriminate]. Qed.

(* Which JSON values are read as which envelopes. *)
Theorem C52_reads_exact : forall j e, env_read j = e /\ e <> empty_envelope <-> describes j e.
Proof. exact reads_exact. Qed.
Print Assumptions C52_reads_exact.
Example C52_reads_exact_example : env_read (env_write true ex_signed) = ex_signed /\ ex_signed <> empty_envelope.
Proof. split; [vm_compute; reflexivity|discriminate]. Qed.

(* Writing and reading back: exactly the valid base64 envelopes survive.  Envelopes of text are written
   with the encoding UTF_8 and read with the encoding UTF-8, so that none of them does. *)
Theorem C52_round_trip :
  forall upper e, env_read (env_write upper e) = e <-> e = empty_envelope \/ (ev_encoding e = EncBase64 /\ env_valid e = true).
Proof. exact round_trip_exact. Qed.
Print Assumptions C52_round_trip.
Theorem C52_text_refuted :
  forall upper e, ev_encoding e = EncUtf8 -> env_read (env_write upper e) = empty_envelope.
Proof. exact write_utf8. Qed.
Print Assumptions C52_text_refuted.
Example C52_text_example : ev_encoding ex_text = EncUtf8 /\ env_valid ex_text = true /\ env_valid_json (env_write false ex_text) = false.
Proof. vm_compute. repeat split; reflexivity. Qed.

(* What the other side makes of an envelope sent as JSON. *)
Theorem C52_sent :
  forall upper sha b64r verify e,
  env_verify_json sha b64r verify (env_write upper e) = true <-> ev_encoding e = EncBase64 /\ env_verify sha b64r verify e = true.
Proof. exact sent_verifies. Qed.
Print Assumptions C52_sent.
Example C52_sent_example : env_verify_json (fun b => b) toy_text toy_verify (env_write true ex_signed) = true.
Proof. vm_compute. reflexivity. Qed.

(* Envelopes around JSON values: they hold the value and verify where they were made, and none of them
   verifies after it was sent. *)
Theorem C52_json :
  forall sha b64r (secret : Type) to_public sign verify dump parse,
  forall (j : json) (s : secret),
  (forall t d, verify (to_public t) d (sign t d) = true) -> (forall v, parse (dump v) = Some v) ->
  jj_valid parse (jj_signed sha secret to_public sign dump j s) = true /\
  jj_payload parse (jj_signed sha secret to_public sign dump j s) = Some j /\
  jj_valid parse (jj_plain dump j) = true /\ jj_payload parse (jj_plain dump j) = Some j /\
  env_verify sha b64r verify (jj_signed sha secret to_public sign dump j s) = true.
Proof. exact json_envelope. Qed.
Print Assumptions C52_json.
Theorem C52_json_valid : forall parse e, jj_valid parse e = true <-> env_valid e = true /\ exists j, parse (ev_payload e) = Some j.
Proof. exact jj_valid_exact. Qed.
Print Assumptions C52_json_valid.
Theorem C52_json_refuted :
  forall sha b64r (secret : Type) to_public sign verify dump upper,
  forall (j : json) (s : secret),
  env_read (env_write upper (jj_signed sha secret to_public sign dump j s)) = empty_envelope /\
  env_verify_json sha b64r verify (env_write upper (jj_signed sha secret to_public sign dump j s)) = false.
Proof. exact json_envelope_sent. Qed.
Print Assumptions C52_json_refuted.
Example C52_json_example :
  env_verify (fun b => b) toy_text toy_verify (jj_signed (fun b => b) bytes (fun s => s) toy_sign (fun _ => ex_payload) (JUint 5) ex_secret) = true.
Proof. vm_compute. reflexivity. Qed.
