(* What a signed JSON envelope is, said without the library's functions. *)
From Coq Require Import String.
From Verif Require Import Base TextModel JsonModel EnvelopeModel.

(* the bytes that an envelope carries *)
Definition content (b64r : bytes -> option bytes) (e : envelope) : option bytes :=
  match ev_encoding e with EncNone => None | EncUtf8 => Some (ev_payload e) | EncBase64 => b64r (ev_payload e) end.

(* either nothing claims to sign the envelope, or there is a key and a signature by it of the content *)
Definition unsigned (e : envelope) : Prop := ev_key e = None /\ ev_sig e = None.
Definition signed (sha : bytes -> bytes) (b64r : bytes -> option bytes) (verify : bytes -> bytes -> bytes -> bool) (e : envelope) : Prop :=
  exists k s c, ev_key e = Some k /\ ev_sig e = Some s /\ content b64r e = Some c /\ verify k (sha c) s = true.

(* the names of the encodings in the specification of JSON envelopes *)
Definition encoding_name (c : payload_encoding) : option bytes :=
  match c with EncNone => None | EncUtf8 => Some (text "UTF-8") | EncBase64 => Some (text "base64") end.

Definition member (k : bytes) (j v : json) : Prop := j_get k j = Some v.
Definition absent (k : bytes) (j : json) : Prop := j_get k j = None.

(* a JSON object that describes an envelope *)
Definition describes (j : json) (e : envelope) : Prop :=
  member (text "payload") j (JString (ev_payload e)) /\
  member (text "mimetype") j (JString (ev_mime e)) /\
  (exists n, encoding_name (ev_encoding e) = Some n /\ member (text "encoding") j (JString n)) /\
  match ev_key e, ev_sig e with
  | None, None => absent (text "publicKey") j /\ absent (text "signature") j
  | Some k, Some s =>
    exists hk hs, member (text "publicKey") j (JString hk) /\ hex_read hk = Some k /\
                  member (text "signature") j (JString hs) /\ hex_read hs = Some s
  | _, _ => False
  end.

(* the same envelope with another type, and without its signature *)
Definition retyped (m : bytes) (e : envelope) : envelope := mkenv (ev_payload e) (ev_encoding e) m (ev_key e) (ev_sig e).
Definition stripped (e : envelope) : envelope := mkenv (ev_payload e) (ev_encoding e) (ev_mime e) None None.
