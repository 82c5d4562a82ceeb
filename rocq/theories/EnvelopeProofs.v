(* Proofs about signed JSON envelopes. *)
From Coq Require Import String Lia ZifyBool ZifyNat ZifyN.
From Verif Require Import Base BaseProofs TextModel TextSpec TextProofs TextFormProofs JsonModel EnvelopeModel EnvelopeSpec.
Local Open Scope N_scope.

(* ---------------------------------------------------------------- hexadecimal, upper case *)
Lemma hex_digit_upper k : k < 16 -> hex_digit (nth (N.to_nat k) hex_upper x00) = Some k.
Proof.
  intros L. assert (X : forallb (fun j => match hex_digit (nth j hex_upper x00) with Some e => e =? N.of_nat j | None => false end) (seq 0 16) = true) by (vm_compute; reflexivity).
  rewrite forallb_forall in X. specialize (X (N.to_nat k)). destruct (hex_digit (nth (N.to_nat k) hex_upper x00)) as [e|].
  - assert (e =? N.of_nat (N.to_nat k) = true) by (apply X; apply List.in_seq; lia). f_equal. lia.
  - exfalso. assert (false = true) by (apply X; apply List.in_seq; lia). discriminate.
Qed.
Lemma hex_read_upper b : hex_read (hex_write_upper b) = Some b.
Proof.
  induction b as [|x r IH]; [reflexivity|].
  change (hex_write_upper (x :: r)) with (nth (N.to_nat (b2n x / 16)) hex_upper x00 :: nth (N.to_nat (b2n x mod 16)) hex_upper x00 :: hex_write_upper r).
  cbn [hex_read]. pose proof (b2n_lt x). rewrite (hex_digit_upper (b2n x / 16)) by lia. rewrite (hex_digit_upper (b2n x mod 16)) by lia. rewrite IH.
  f_equal. f_equal. apply b2n_inj. rewrite b2n_n2b. lia.
Qed.
Lemma hex_read_default u b : hex_read (hex_default u b) = Some b.
Proof. destruct u; [apply hex_read_upper|apply hex_read_write]. Qed.

(* ---------------------------------------------------------------- verification *)
Section Envelope.
Variable sha : bytes -> bytes.
Variable b64w : bytes -> bytes.
Variable b64r : bytes -> option bytes.
Variable secret : Type.
Variable to_public : secret -> bytes.
Variable sign : secret -> bytes -> bytes.
Variable verify : bytes -> bytes -> bytes -> bool.

Lemma verify_exact e :
  env_verify sha b64r verify e = true <-> ev_encoding e <> EncNone /\ (unsigned e \/ signed sha b64r verify e).
Proof.
  unfold env_verify, env_valid, unsigned, signed, content. destruct e as [p c m k s]. cbn [ev_payload ev_encoding ev_mime ev_key ev_sig].
  destruct c, k as [k|], s as [s|]; cbn [negb]; try (split; [discriminate|]; intros [A [[B C]|(k' & s' & c' & B & C & D & F)]]; congruence);
    try (split; [intros _; split; [discriminate|left; split; reflexivity]|reflexivity]).
  - split.
    + intros V. split; [discriminate|]. right. exists k, s, p. repeat split; auto.
    + intros [_ [[B C]|(k' & s' & c' & B & C & D & F)]]; [discriminate|]. congruence.
  - destruct (b64r p) as [d|]; split.
    + intros V. split; [discriminate|]. right. exists k, s, d. repeat split; auto.
    + intros [_ [[B C]|(k' & s' & c' & B & C & D & F)]]; [discriminate|]. congruence.
    + discriminate.
    + intros [_ [[B C]|(k' & s' & c' & B & C & D & F)]]; discriminate.
Qed.

Lemma signed_verifies pl m s :
  (forall t d, verify (to_public t) d (sign t d) = true) -> (forall b, b64r (b64w b) = Some b) ->
  env_verify sha b64r verify (env_text_signed sha secret to_public sign pl m s) = true /\
  env_verify sha b64r verify (env_bytes_signed sha b64w secret to_public sign pl m s) = true.
Proof.
  intros V B. split; unfold env_verify, env_text_signed, env_bytes_signed; cbn; [|rewrite B]; apply V.
Qed.

Lemma content_made pl m s : (forall b, b64r (b64w b) = Some b) ->
  content b64r (env_text pl m) = Some pl /\ content b64r (env_bytes b64w pl m) = Some pl /\
  content b64r (env_text_signed sha secret to_public sign pl m s) = Some pl /\
  content b64r (env_bytes_signed sha b64w secret to_public sign pl m s) = Some pl.
Proof. intros B. unfold content. cbn. rewrite !B. auto. Qed.

Lemma retyped_verify m e : env_verify sha b64r verify (retyped m e) = env_verify sha b64r verify e.
Proof. reflexivity. Qed.
Lemma stripped_verify e : env_verify sha b64r verify (stripped e) = true <-> ev_encoding e <> EncNone.
Proof.
  rewrite verify_exact. cbn [stripped ev_encoding]. split; [tauto|]. intros N. split; [exact N|]. left. split; reflexivity.
Qed.

End Envelope.

(* ---------------------------------------------------------------- reading and writing *)
Section Json.
Variable upper : bool.

Lemma read_or_empty j : env_read j = empty_envelope \/ describes j (env_read j).
Proof.
  unfold env_read, describes, member, absent.
  destruct (j_get k_payload j) as [[]|] eqn:P; try (left; reflexivity).
  destruct (j_get k_encoding j) as [[| | | | |n| |]|] eqn:E; try (left; reflexivity).
  destruct (j_get k_mimetype j) as [[| | | | |m| |]|] eqn:M; try (left; reflexivity).
  unfold read_signature, j_has. destruct (j_get k_key j) as [jk|] eqn:K, (j_get k_signature j) as [js|] eqn:G; cbn [orb].
  - destruct jk; try (left; reflexivity). destruct js; try (left; reflexivity).
    match goal with |- context [match hex_read ?a with _ => _ end] => destruct (hex_read a) as [s'|] eqn:A end; [|left; reflexivity].
    match goal with |- context [match hex_read ?a with _ => _ end] => destruct (hex_read a) as [k'|] eqn:B end; [|left; reflexivity].
    unfold read_encoding. destruct (bytes_eqb n n_base64) eqn:N1; [|destruct (bytes_eqb n n_utf_read) eqn:N2; [|left; reflexivity]]; right; cbn [ev_payload ev_encoding ev_mime ev_key ev_sig].
    + apply bytes_eqb_eq in N1. subst n. split; [exact P|]. split; [exact M|]. split; [exists n_base64; split; [reflexivity|exact E]|]. exists s0, s1. auto.
    + apply bytes_eqb_eq in N2. subst n. split; [exact P|]. split; [exact M|]. split; [exists n_utf_read; split; [reflexivity|exact E]|]. exists s0, s1. auto.
  - destruct jk; left; reflexivity.
  - left; reflexivity.
  - unfold read_encoding. destruct (bytes_eqb n n_base64) eqn:N1; [|destruct (bytes_eqb n n_utf_read) eqn:N2; [|left; reflexivity]]; right; cbn [ev_payload ev_encoding ev_mime ev_key ev_sig].
    + apply bytes_eqb_eq in N1. subst n. split; [exact P|]. split; [exact M|]. split; [exists n_base64; split; [reflexivity|exact E]|]. auto.
    + apply bytes_eqb_eq in N2. subst n. split; [exact P|]. split; [exact M|]. split; [exists n_utf_read; split; [reflexivity|exact E]|]. auto.
Qed.

Lemma described_read j e : describes j e -> env_read j = e.
Proof.
  destruct e as [p c m k s]. unfold describes, member, absent. cbn [ev_payload ev_encoding ev_mime ev_key ev_sig].
  intros (P & M & (n & N & E) & G). unfold env_read. change (text "payload") with k_payload in P. rewrite P. change (text "encoding") with k_encoding in E. rewrite E. change (text "mimetype") with k_mimetype in M. rewrite M.
  change (text "publicKey") with k_key in G. change (text "signature") with k_signature in G.
  assert (X : read_signature j = Some (k, s)).
  { unfold read_signature, j_has. destruct k as [k|], s as [s|]; try contradiction.
    - destruct G as (hk & hs & -> & A & -> & B). cbn [orb]. rewrite A, B. reflexivity.
    - destruct G as [-> ->]. reflexivity. }
  rewrite X. assert (Y : read_encoding n = Some c).
  { destruct c; cbn [encoding_name] in N; try discriminate; assert (Q : n = n_utf_read \/ n = n_base64) by (injection N; intros <-; tauto);
      injection N; intros <-; vm_compute; reflexivity. }
  rewrite Y. reflexivity.
Qed.

Lemma reads_exact j e : env_read j = e /\ e <> empty_envelope <-> describes j e.
Proof.
  split.
  - intros [<- N]. destruct (read_or_empty j) as [X|X]; [contradiction|exact X].
  - intros D. split; [apply described_read; exact D|]. intros ->. destruct D as (_ & _ & (n & N & _) & _). discriminate N.
Qed.

(* the members of what is written *)
Lemma write_members e : env_valid e = true ->
  j_get k_payload (env_write upper e) = Some (JString (ev_payload e)) /\
  j_get k_mimetype (env_write upper e) = Some (JString (ev_mime e)) /\
  j_get k_encoding (env_write upper e) = Some (JString (match ev_encoding e with EncBase64 => n_base64 | _ => n_utf_write end)) /\
  match ev_key e, ev_sig e with
  | Some k, Some s => j_get k_key (env_write upper e) = Some (JString (hex_default upper k)) /\ j_get k_signature (env_write upper e) = Some (JString (hex_default upper s))
  | None, None => j_get k_key (env_write upper e) = None /\ j_get k_signature (env_write upper e) = None
  | _, _ => False
  end.
Proof.
  destruct e as [p c m k s]. unfold env_write. intros V. rewrite V. cbn [negb ev_payload ev_encoding ev_mime ev_key ev_sig].
  unfold env_valid in V. cbn [ev_encoding ev_key ev_sig] in V.
  destruct k as [k|], s as [s|], c; try discriminate V; cbv -[hex_default]; auto.
Qed.

Lemma write_base64 e : env_valid e = true -> ev_encoding e = EncBase64 -> env_read (env_write upper e) = e.
Proof.
  intros V B. destruct (write_members e V) as (P & M & E & G). rewrite B in E. apply described_read. unfold describes, member, absent. split; [exact P|]. split; [exact M|].
  split; [exists n_base64; rewrite B; split; [reflexivity|exact E]|].
  destruct (ev_key e) as [k|], (ev_sig e) as [s|]; try contradiction.
  - destruct G as [K G]. exists (hex_default upper k), (hex_default upper s). split; [exact K|]. split; [apply hex_read_default|]. split; [exact G|apply hex_read_default].
  - exact G.
Qed.
Lemma write_utf8 e : ev_encoding e = EncUtf8 -> env_read (env_write upper e) = empty_envelope.
Proof.
  intros U. destruct (env_valid e) eqn:V; [|unfold env_write; rewrite V; reflexivity].
  destruct (write_members e V) as (P & M & E & G). rewrite U in E. destruct (read_or_empty (env_write upper e)) as [X|X]; [exact X|].
  exfalso. destruct X as (_ & _ & (n & N & X) & _). unfold member in X. change (text "encoding") with k_encoding in X. rewrite E in X.
  destruct (ev_encoding (env_read (env_write upper e))); cbn [encoding_name] in N; [discriminate| |]; injection N; intros <-; vm_compute in X; discriminate X.
Qed.
Lemma write_invalid e : env_valid e = false -> env_write upper e = JNull /\ env_read (env_write upper e) = empty_envelope.
Proof. intros V. unfold env_write. rewrite V. split; reflexivity. Qed.

Lemma round_trip_exact e : env_read (env_write upper e) = e <-> e = empty_envelope \/ (ev_encoding e = EncBase64 /\ env_valid e = true).
Proof.
  split.
  - intros R. destruct (env_valid e) eqn:V; [|left; rewrite <- R; apply write_invalid; exact V].
    destruct (ev_encoding e) eqn:C; [|left; rewrite <- R; apply write_utf8; exact C|right; auto]. unfold env_valid in V. rewrite C in V. discriminate V.
  - intros [->|[B V]]; [reflexivity|apply write_base64; assumption].
Qed.

Lemma sent_verifies sha b64r verify e :
  env_verify_json sha b64r verify (env_write upper e) = true <-> ev_encoding e = EncBase64 /\ env_verify sha b64r verify e = true.
Proof.
  unfold env_verify_json. destruct (env_valid e) eqn:V.
  - destruct (ev_encoding e) eqn:C.
    + unfold env_valid in V. rewrite C in V. discriminate V.
    + rewrite (write_utf8 e C). split; [discriminate|]. intros [X _]. discriminate X.
    + rewrite (write_base64 e V C). tauto.
  - destruct (write_invalid e V) as [_ ->]. split; [discriminate|]. intros [_ X]. unfold env_verify in X. rewrite V in X. discriminate X.
Qed.
End Json.

(* ---------------------------------------------------------------- envelopes of JSON *)
Lemma jj_valid_exact parse e : jj_valid parse e = true <-> env_valid e = true /\ exists j, parse (ev_payload e) = Some j.
Proof.
  unfold jj_valid, jj_payload. destruct (env_valid e); cbn [andb].
  - destruct (parse (ev_payload e)) as [j|]; split; try discriminate; auto; [intros _; split; [reflexivity|eauto]|intros [_ [j X]]; discriminate X].
  - split; [discriminate|intros [X _]; discriminate X].
Qed.
Lemma json_envelope sha b64r secret to_public sign verify dump parse (j : json) (s : secret) :
  (forall t d, verify (to_public t) d (sign t d) = true) -> (forall v, parse (dump v) = Some v) ->
  jj_valid parse (jj_signed sha secret to_public sign dump j s) = true /\
  jj_payload parse (jj_signed sha secret to_public sign dump j s) = Some j /\
  jj_valid parse (jj_plain dump j) = true /\ jj_payload parse (jj_plain dump j) = Some j /\
  env_verify sha b64r verify (jj_signed sha secret to_public sign dump j s) = true.
Proof.
  intros V P. unfold jj_valid, jj_payload, jj_signed, jj_plain. cbn. rewrite !P. repeat split; auto.
Qed.
Lemma json_envelope_sent sha b64r secret to_public sign verify dump upper (j : json) (s : secret) :
  env_read (env_write upper (jj_signed sha secret to_public sign dump j s)) = empty_envelope /\
  env_verify_json sha b64r verify (env_write upper (jj_signed sha secret to_public sign dump j s)) = false.
Proof.
  unfold env_verify_json. rewrite write_utf8 by reflexivity. split; reflexivity.
Qed.
