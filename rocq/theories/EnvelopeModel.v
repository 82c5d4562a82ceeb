(* Signed JSON envelopes.
   Source: pay/envelope.cpp, include/gigamonkey/pay/envelope.hpp.
   External and left as parameters: SHA2_256 [sha], base64 [b64w] [b64r], the signature scheme [to_public]
   [sign] [verify], the text form of JSON [dump] [parse] and the case of the hexadecimal digits that
   encoding::hex::write uses when none is given [upper].  Public keys and signatures are byte strings
   (secp256k1.hpp).  hex_read takes both cases.  Not modelled: de_escape (commented out). *)
From Coq Require Import String.
From Verif Require Import Base TextModel TextSpec JsonModel.
Local Open Scope N_scope.

(* envelope.hpp 22-26 *)
Inductive payload_encoding := EncNone | EncUtf8 | EncBase64.
(* envelope.hpp 28-33 *)
Record envelope := mkenv { ev_payload : bytes; ev_encoding : payload_encoding; ev_mime : bytes; ev_key : option bytes; ev_sig : option bytes }.
(* envelope.hpp 62 *)
Definition empty_envelope : envelope := mkenv [] EncNone [] None None.

Definition k_payload := text "payload".
Definition k_encoding := text "encoding".
Definition k_mimetype := text "mimetype".
Definition k_key := text "publicKey".
Definition k_signature := text "signature".
(* the three names of encodings in envelope.cpp 47-48 and 62 *)
Definition n_base64 := text "base64".
Definition n_utf_read := text "UTF-8".
Definition n_utf_write := text "UTF_8".

Section Envelope.
Variable sha : bytes -> bytes.
Variable b64w : bytes -> bytes.
Variable b64r : bytes -> option bytes.
Variable secret : Type.
Variable to_public : secret -> bytes.
Variable sign : secret -> bytes -> bytes.
Variable verify : bytes -> bytes -> bytes -> bool.
Variable dump : json -> bytes.
Variable parse : bytes -> option json.
Variable upper : bool.

(* encoding::hex::write (x) *)
Definition hex_default (b : bytes) : bytes := if upper then hex_write_upper b else hex_write b.

(* envelope.hpp 104-124 *)
Definition env_bytes (pl mime : bytes) : envelope := mkenv (b64w pl) EncBase64 mime None None.
Definition env_text (pl mime : bytes) : envelope := mkenv pl EncUtf8 mime None None.
Definition env_bytes_signed (pl mime : bytes) (s : secret) : envelope :=
  mkenv (b64w pl) EncBase64 mime (Some (to_public s)) (Some (sign s (sha pl))).
Definition env_text_signed (pl mime : bytes) (s : secret) : envelope :=
  mkenv pl EncUtf8 mime (Some (to_public s)) (Some (sign s (sha pl))).
Definition env_bytes_with (pl mime k x : bytes) : envelope := mkenv (b64w pl) EncBase64 mime (Some k) (Some x).
Definition env_text_with (pl mime k x : bytes) : envelope := mkenv pl EncUtf8 mime (Some k) (Some x).

(* envelope.hpp 91-93 *)
Definition env_valid (e : envelope) : bool :=
  match ev_encoding e with
  | EncNone => false
  | _ => match ev_sig e, ev_key e with Some _, Some _ => true | None, None => true | _, _ => false end
  end.

(* envelope.cpp 9-27 *)
Definition env_verify (e : envelope) : bool :=
  if negb (env_valid e) then false
  else match ev_key e, ev_sig e with
  | Some k, Some s =>
    match ev_encoding e with
    | EncNone => false
    | EncBase64 => match b64r (ev_payload e) with Some d => verify k (sha d) s | None => false end
    | EncUtf8 => verify k (sha (ev_payload e)) s
    end
  | _, _ => true
  end.

(* envelope.cpp 34-45: the key and the signature; [None]: the envelope stays empty *)
Definition read_signature (j : json) : option (option bytes * option bytes) :=
  if j_has k_key j || j_has k_signature j then
    match j_get k_key j, j_get k_signature j with
    | Some (JString k), Some (JString s) =>
      match hex_read s, hex_read k with Some s', Some k' => Some (Some k', Some s') | _, _ => None end
    | _, _ => None
    end
  else Some (None, None).
(* envelope.cpp 47-50 *)
Definition read_encoding (n : bytes) : option payload_encoding :=
  if bytes_eqb n n_base64 then Some EncBase64 else if bytes_eqb n n_utf_read then Some EncUtf8 else None.
(* envelope.cpp 29-57 *)
Definition env_read (j : json) : envelope :=
  match j_get k_payload j, j_get k_encoding j, j_get k_mimetype j with
  | Some (JString p), Some (JString n), Some (JString m) =>
    match read_signature j with
    | None => empty_envelope
    | Some (k, s) => match read_encoding n with None => empty_envelope | Some c => mkenv p c m k s end
    end
  | _, _, _ => empty_envelope
  end.

(* envelope.cpp 59-71 *)
Definition env_write (e : envelope) : json :=
  if negb (env_valid e) then JNull
  else
    let j := init_list [JArray [JString k_payload; JString (ev_payload e)]; JArray [JString k_mimetype; JString (ev_mime e)]] in
    let j := j_set k_encoding (JString (match ev_encoding e with EncBase64 => n_base64 | _ => n_utf_write end)) j in
    match ev_key e, ev_sig e with
    | Some k, Some s => j_set k_signature (JString (hex_default s)) (j_set k_key (JString (hex_default k)) j)
    | _, _ => j
    end.

(* envelope.hpp 95-101 *)
Definition env_valid_json (j : json) : bool := env_valid (env_read j).
Definition env_verify_json (j : json) : bool := env_verify (env_read j).

(* envelope.hpp 66-88, envelope.cpp 73-81: an envelope whose payload is the text of a JSON value.  parse
   throws when the text is not JSON: [None] *)
Definition mime_json := text "application/JSON".
Definition jj_plain (j : json) : envelope := env_text (dump j) mime_json.
Definition jj_signed (j : json) (s : secret) : envelope := env_text_signed (dump j) mime_json s.
Definition jj_with (j : json) (k x : bytes) : envelope := env_text_with (dump j) mime_json k x.
Definition jj_payload (e : envelope) : option json := parse (ev_payload e).
Definition jj_valid (e : envelope) : bool := env_valid e && match jj_payload e with Some _ => true | None => false end.
End Envelope.
