(* Lemmas on functions of envelopes, ARC and Stratum that are only called by users of the library. *)
From Coq Require Import String.
From Verif Require Import Base BaseProofs TextModel FurtherSpec.
From Verif Require TscModel JsonModel DictProofs EnvelopeModel EnvelopeSpec EnvelopeProofs ExtModel ArcModel StratumModel StratumConfigModel.
Local Open Scope list_scope.

(* ---- ARC ---- *)
Theorem arc_paths u2 base :
  ArcModel.policy_path base <> ArcModel.health_path base /\
  (forall d, ArcModel.status_path u2 base d <> ArcModel.policy_path base /\ ArcModel.status_path u2 base d <> ArcModel.health_path base) /\
  (forall b, ArcModel.policy_path base = ArcModel.policy_path b -> base = b) /\
  (forall b, ArcModel.health_path base = ArcModel.health_path b -> base = b).
Proof.
  unfold ArcModel.policy_path, ArcModel.health_path, ArcModel.status_path. split; [|split; [|split]].
  - intros E. apply app_inv_head in E. discriminate E.
  - intros d. split; intros E; apply app_inv_head in E; discriminate E.
  - intros b E. exact (app_inv_tail _ _ _ E).
  - intros b E. exact (app_inv_tail _ _ _ E).
Qed.

Theorem default_submit dump u1 base t b : ExtModel.xtx_bytes t = Some b ->
  ArcModel.submit_tx dump u1 base t ArcModel.submit_default =
  Ret (ArcModel.mkpost (base ++ text "/v1/tx") [(text "Content-Type", text "application/octet-stream")] b).
Proof.
  intros E. unfold ArcModel.submit_tx.
  change (ArcModel.headers ArcModel.submit_default) with (Ret (E := unit) [(text "Content-Type", text "application/octet-stream")]).
  cbn [TscModel.and_then ArcModel.submit_default ArcModel.sm_content ArcModel.tx_body]. unfold ArcModel.tx_octets. rewrite E. reflexivity.
Qed.

(* ---- envelopes with a given signature ---- *)
Theorem given_signature sha b64w b64r verify dump : (forall b, b64r (b64w b) = Some b) -> forall pl m k x j,
  EnvelopeModel.env_verify sha b64r verify (EnvelopeModel.env_text_with pl m k x) = verify k (sha pl) x /\
  EnvelopeModel.env_verify sha b64r verify (EnvelopeModel.env_bytes_with b64w pl m k x) = verify k (sha pl) x /\
  EnvelopeModel.env_verify sha b64r verify (EnvelopeModel.jj_with dump j k x) = verify k (sha (dump j)) x.
Proof.
  intros B pl m k x j. split; [reflexivity|]. split; [|reflexivity].
  unfold EnvelopeModel.env_verify, EnvelopeModel.env_bytes_with. cbn [EnvelopeModel.env_valid EnvelopeModel.ev_encoding EnvelopeModel.ev_sig
    EnvelopeModel.ev_key EnvelopeModel.ev_payload negb]. rewrite B. reflexivity.
Qed.

Theorem valid_json_exact j : EnvelopeModel.env_valid_json j = true <-> exists e, EnvelopeSpec.describes j e.
Proof.
  unfold EnvelopeModel.env_valid_json. split.
  - intros V. exists (EnvelopeModel.env_read j). apply EnvelopeProofs.reads_exact. split; [reflexivity|].
    intros E. rewrite E in V. discriminate V.
  - intros (e & D). pose proof (proj2 (EnvelopeProofs.reads_exact j e) D) as (R & _). rewrite R. clear R.
    destruct D as (_ & _ & (n & C & _) & K). unfold EnvelopeModel.env_valid.
    destruct (EnvelopeModel.ev_encoding e); [discriminate C| |];
    destruct (EnvelopeModel.ev_key e), (EnvelopeModel.ev_sig e); try reflexivity; destruct K.
Qed.

(* ---- extensions ---- *)
Theorem inserted_exact x q r n :
  JsonModel.obj_find n (StratumConfigModel.requests_insert x q r) =
  if bytes_eqb n (StratumConfigModel.extension_to_string x) then Some q else JsonModel.obj_find n r.
Proof. apply DictProofs.find_set. Qed.

Theorem inserted_one x y q r : x <> y ->
  JsonModel.obj_find (StratumConfigModel.extension_to_string x) (StratumConfigModel.requests_insert x q r) = Some q /\
  JsonModel.obj_find (StratumConfigModel.extension_to_string y) (StratumConfigModel.requests_insert x q r) =
  JsonModel.obj_find (StratumConfigModel.extension_to_string y) r.
Proof. intros N. rewrite !inserted_exact. destruct x, y; try (split; reflexivity); destruct (N eq_refl). Qed.

Theorem inserted_protocol x q r : JsonModel.obj_find (protocol_name x) r = None ->
  (JsonModel.obj_find (protocol_name x) (StratumConfigModel.requests_insert x q r) = Some q <-> x = StratumConfigModel.ext_info).
Proof. intros F. rewrite inserted_exact, F. destruct x; split; intros E; try reflexivity; discriminate E. Qed.

Theorem accepted_exact j : StratumConfigModel.acc_valid (StratumConfigModel.acc_read j) = true <->
  exists a, StratumConfigModel.acc_json (StratumConfigModel.acc_read j) = Ret a /\ a = j.
Proof.
  destruct j; cbn [StratumConfigModel.acc_read StratumConfigModel.acc_valid StratumConfigModel.acc_json]; split; intros E; try discriminate E;
    try reflexivity; try (eexists; split; reflexivity); destruct E as (a & A & _); discriminate A.
Qed.

Theorem minimum_exact d : StratumConfigModel.minimum_read (StratumConfigModel.minimum_write d) = Some d <->
  (exists n, d = JsonModel.JUint n) \/ exists f, d = JsonModel.JFloat f.
Proof.
  destruct d; split; intros E; try discriminate E; try (left; eexists; reflexivity); try (right; eexists; reflexivity); try reflexivity;
    destruct E as [(n & E)|(n & E)]; discriminate E.
Qed.

Theorem difficulty_lost positive d : StratumModel.difficulty_valid positive d = true ->
  (StratumModel.set_difficulty_read (StratumModel.set_difficulty_write d) = d <-> exists n, d = JsonModel.JUint n).
Proof.
  intros V. destruct d; try discriminate V; split; intros E; try discriminate E; try (eexists; reflexivity); try reflexivity; destruct E as (n & E); discriminate E.
Qed.

Theorem about_exact p a : StratumConfigModel.about_read p = Ret (Some a) <->
  JsonModel.obj_find (text "connection-url") p = Some (JsonModel.JString (StratumConfigModel.ab_url a)) /\
  JsonModel.obj_find (text "hw-version") p = Some (JsonModel.JString (StratumConfigModel.ab_hw a)) /\
  JsonModel.obj_find (text "sw-version") p = Some (JsonModel.JString (StratumConfigModel.ab_sw a)) /\
  JsonModel.obj_find (text "sw-id") p = Some (JsonModel.JString (StratumConfigModel.ab_id a)).
Proof.
  unfold StratumConfigModel.about_read. split.
  - destruct (JsonModel.obj_find (text "connection-url") p) as [x|]; [|discriminate]. destruct (JsonModel.obj_find (text "hw-version") p) as [y|]; [|discriminate].
    destruct (JsonModel.obj_find (text "sw-version") p) as [z|]; [|discriminate]. destruct (JsonModel.obj_find (text "sw-id") p) as [w|]; [|discriminate].
    destruct x; try discriminate; destruct y; try discriminate; destruct z; try discriminate; destruct w; try discriminate.
    cbn [StratumModel.bind StratumModel.as_string]. intros E.
    match type of E with _ = _ => assert (X : forall u v : StratumConfigModel.about, Ret (E := unit) (Some u) = Ret (Some v) -> u = v) by congruence end.
    apply X in E. subst a. repeat split.
  - intros (A & B & C & D). rewrite A, B, C, D. destruct a. reflexivity.
Qed.
