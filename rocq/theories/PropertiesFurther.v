(* C26, C31, C33, C38, C43, C45, C46, C50, C52, C94, C106, C127: functions that only users of the library call. *)
From Coq Require Import String.
From Verif Require Import Base TextModel FurtherSpec FurtherProofs FurtherArcProofs FurtherStratumProofs.
From Verif Require HdModel HdSpec HdExamples TextSpec MerkleModel MerkleSpec MerkleExamples PatternModel RawModel RawSpec RawExamples WireSpec WireModel BeefModel
  ExtModel ExtSpec ExtExamples WorkModel JsonModel EnvelopeModel EnvelopeSpec EnvelopeExamples ArcModel StratumModel StratumSpec StratumExamples StratumConfigModel.
Local Open Scope N_scope.

(* The targets named after a probability have it. *)
Theorem C31_success :
  2 * WorkModel.expand WorkModel.success_half = 2 ^ 256 /\ 4 * WorkModel.expand WorkModel.success_quarter = 2 ^ 256 /\
  8 * WorkModel.expand WorkModel.success_eighth = 2 ^ 256 /\ 16 * WorkModel.expand WorkModel.success_sixteenth = 2 ^ 256.
Proof. exact success_exact. Qed.
Print Assumptions C31_success.

(* The root of a server is the Merkle root of what it was made of. *)
Theorem C26_server_root : forall H dup l s, l <> [] -> MerkleSpec.count l <= 2147483600 ->
  MerkleModel.server_make H dup l = Some s -> MerkleModel.server_root s = Some (MerkleSpec.merkle_root H l).
Proof. exact server_root_exact. Qed.
Print Assumptions C26_server_root.
Example C26_server_root_example : MerkleExamples.ex_leaves <> [] /\ MerkleSpec.count MerkleExamples.ex_leaves <= 2147483600 /\
  exists s, MerkleModel.server_make MerkleExamples.ex_hash32 None MerkleExamples.ex_leaves = Some s.
Proof. split; [discriminate|]. split; [vm_compute; discriminate|]. eexists. vm_compute. reflexivity. Qed.

(* Public keys derived from the public key of a seed are those of the secret keys derived from the seed. *)
Theorem C38_seed_commutes : forall hmac h160 pub tweak, HdSpec.tweak_adds pub tweak -> HdSpec.hmac_sized hmac ->
  forall fuel l seed n, let x := HdModel.secret_from_seed hmac seed n in
  TextSpec.usable (be_val (HdModel.x_key x)) -> HdSpec.plain_path hmac h160 pub x l ->
  exists y, HdModel.derive_secret_path hmac h160 pub fuel x l = MerkleModel.Done y /\
    HdModel.derive_pubkey_path hmac h160 tweak fuel (HdModel.pubkey_from_seed hmac pub seed n) l =
    MerkleModel.Done (HdModel.to_public pub y).
Proof. exact seed_commutes. Qed.
Print Assumptions C38_seed_commutes.
Example C38_seed_commutes_example : let x := HdModel.secret_from_seed (HdExamples.ex_hmac HdExamples.ex_half_plain) [x01] TextModel.NetMain in
  HdSpec.hmac_sized (HdExamples.ex_hmac HdExamples.ex_half_plain) /\
  TextSpec.usable (be_val (HdModel.x_key x)) /\ HdSpec.plain_path (HdExamples.ex_hmac HdExamples.ex_half_plain) HdExamples.ex_h160 HdExamples.ex_pub x [0; 2147483647; 5].
Proof.
  split; [apply HdExamples.ex_hmac_sized; reflexivity|]. split; [split; vm_compute; reflexivity|].
  cbn [HdSpec.plain_path]; unfold HdSpec.plain_half; repeat split; try (vm_compute; reflexivity); vm_compute; discriminate.
Qed.

(* Alternatives are tried in order, and the first that matches is taken; what a failed one wrote stays. *)
Theorem C46_alternatives : forall neg1 fuel p v,
  PatternModel.scan neg1 fuel (PatternModel.alternatives_of []) p v = (v, PatternModel.Fail) /\
  forall a l, PatternModel.scan neg1 fuel (PatternModel.alternatives_of (a :: l)) p v =
    match PatternModel.scan neg1 fuel (PatternModel.construct a) p v with
    | (w, PatternModel.Fail) => PatternModel.scan neg1 fuel (PatternModel.alternatives_of l) p w
    | y => y
    end.
Proof. exact alternatives_exact. Qed.
Print Assumptions C46_alternatives.

(* A slice is a valid block exactly when it begins with one. *)
Theorem C127_slice : forall H b, RawModel.block_slice_valid H b = Ret true <->
  exists x, RawSpec.begins WireSpec.block_form x b /\ RawModel.block_valid H x = Ret true.
Proof. exact slice_valid_exact. Qed.
Print Assumptions C127_slice.

(* The BEEF of no transactions is not valid, and survives. *)
Theorem C43_empty : forall H ins, BeefModel.beef_valid H BeefModel.empty_beef = Ret false /\
  BeefModel.beef_of_bytes ins (BeefModel.beef_write BeefModel.empty_beef) = Some BeefModel.empty_beef.
Proof. exact empty_beef_exact. Qed.
Print Assumptions C43_empty.

(* The fee rate of a design is not that of the completed transaction: the fee is the same, and the bytes are
   those of the extended format, which are more. *)
Theorem C45_rate_refuted : forall ovf d scripts t, ExtSpec.as_expected d scripts -> ExtModel.design_complete d scripts = Ret t ->
  ExtModel.rt_satoshis (ExtModel.xtx_rate ovf t) = ExtModel.rt_satoshis (ExtModel.design_rate ovf d) /\
  ExtModel.rt_bytes (ExtModel.xtx_rate ovf t) + WireModel.var_int_size (N.of_nat (length (ExtModel.ds_inputs d))) =
  ExtModel.rt_bytes (ExtModel.design_rate ovf d) + WireModel.var_int_size (N.of_nat (length (ExtModel.ds_outputs d))) + 6 +
    fold_left (fun s o => s + WireModel.output_size o) (map ExtModel.xi_prevout (ExtModel.xt_inputs t)) 0 /\
  ExtModel.rt_bytes (ExtModel.design_rate ovf d) < ExtModel.rt_bytes (ExtModel.xtx_rate ovf t).
Proof. exact rate_exact. Qed.
Print Assumptions C45_rate_refuted.
Example C45_rate_example : ExtSpec.as_expected (ExtExamples.ex_design 2) ExtExamples.ex_scripts /\
  exists t, ExtModel.design_complete (ExtExamples.ex_design 2) ExtExamples.ex_scripts = Ret t.
Proof. split; [apply ExtExamples.ex_as_expected|]. eexists. vm_compute. reflexivity. Qed.

(* An envelope made with a given signature verifies exactly when it is one of the content. *)
Theorem C52_given : forall sha b64w b64r verify dump, (forall b, b64r (b64w b) = Some b) -> forall pl m k x j,
  EnvelopeModel.env_verify sha b64r verify (EnvelopeModel.env_text_with pl m k x) = verify k (sha pl) x /\
  EnvelopeModel.env_verify sha b64r verify (EnvelopeModel.env_bytes_with b64w pl m k x) = verify k (sha pl) x /\
  EnvelopeModel.env_verify sha b64r verify (EnvelopeModel.jj_with dump j k x) = verify k (sha (dump j)) x.
Proof. exact given_signature. Qed.
Print Assumptions C52_given.
Theorem C52_valid_json : forall j, EnvelopeModel.env_valid_json j = true <-> exists e, EnvelopeSpec.describes j e.
Proof. exact valid_json_exact. Qed.
Print Assumptions C52_valid_json.
Example C52_valid_json_example : EnvelopeModel.env_valid_json (EnvelopeModel.env_write true EnvelopeExamples.ex_signed) = true /\
  EnvelopeModel.env_valid_json JsonModel.JNull = false.
Proof. split; vm_compute; reflexivity. Qed.

(* The requests of a client of ARC go to different paths. *)
Theorem C106_paths : forall u2 base,
  ArcModel.policy_path base <> ArcModel.health_path base /\
  (forall d, ArcModel.status_path u2 base d <> ArcModel.policy_path base /\ ArcModel.status_path u2 base d <> ArcModel.health_path base) /\
  (forall b, ArcModel.policy_path base = ArcModel.policy_path b -> base = b) /\
  (forall b, ArcModel.health_path base = ArcModel.health_path b -> base = b).
Proof. exact arc_paths. Qed.
Print Assumptions C106_paths.
(* Without options, the bytes of the transaction are sent, and one header. *)
Theorem C106_default : forall dump u1 base t b, ExtModel.xtx_bytes t = Some b ->
  ArcModel.submit_tx dump u1 base t ArcModel.submit_default =
  Ret (ArcModel.mkpost (base ++ text "/v1/tx") [(text "Content-Type", text "application/octet-stream")] b).
Proof. exact default_submit. Qed.
Print Assumptions C106_default.
Example C106_default_example : exists b, ExtModel.xtx_bytes ExtExamples.ex_xtx = Some b.
Proof. eexists. vm_compute. reflexivity. Qed.

(* A request that is inserted for an extension is found under the name of the extension, and nothing else is
   changed.  But only info is written with the name that the protocol gives it. *)
Theorem C94_inserted : forall x y q r, x <> y ->
  JsonModel.obj_find (StratumConfigModel.extension_to_string x) (StratumConfigModel.requests_insert x q r) = Some q /\
  JsonModel.obj_find (StratumConfigModel.extension_to_string y) (StratumConfigModel.requests_insert x q r) =
  JsonModel.obj_find (StratumConfigModel.extension_to_string y) r.
Proof. exact inserted_one. Qed.
Print Assumptions C94_inserted.
Theorem C94_names_refuted : forall x q r, JsonModel.obj_find (protocol_name x) r = None ->
  (JsonModel.obj_find (protocol_name x) (StratumConfigModel.requests_insert x q r) = Some q <-> x = StratumConfigModel.ext_info).
Proof. exact inserted_protocol. Qed.
Print Assumptions C94_names_refuted.
Theorem C94_accepted : forall j, StratumConfigModel.acc_valid (StratumConfigModel.acc_read j) = true <->
  exists a, StratumConfigModel.acc_json (StratumConfigModel.acc_read j) = Ret a /\ a = j.
Proof. exact accepted_exact. Qed.
Print Assumptions C94_accepted.
Example C94_names_example : StratumConfigModel.requests_insert StratumConfigModel.version_rolling [] [] = [(text "version_rolling", [])].
Proof. reflexivity. Qed.

(* A minimum difficulty that is a number survives; a difficulty that is set survives only if it is whole. *)
Theorem C94_minimum : forall d, StratumConfigModel.minimum_read (StratumConfigModel.minimum_write d) = Some d <->
  (exists n, d = JsonModel.JUint n) \/ exists f, d = JsonModel.JFloat f.
Proof. exact minimum_exact. Qed.
Print Assumptions C94_minimum.
Theorem C50_valid_difficulty_refuted : forall positive d, StratumModel.difficulty_valid positive d = true ->
  (StratumModel.set_difficulty_read (StratumModel.set_difficulty_write d) = d <-> exists n, d = JsonModel.JUint n).
Proof. exact difficulty_lost. Qed.
Print Assumptions C50_valid_difficulty_refuted.
(* What a client says of itself is read exactly from these members, of which one is not written. *)
Theorem C94_about : forall p a, StratumConfigModel.about_read p = Ret (Some a) <->
  JsonModel.obj_find (text "connection-url") p = Some (JsonModel.JString (StratumConfigModel.ab_url a)) /\
  JsonModel.obj_find (text "hw-version") p = Some (JsonModel.JString (StratumConfigModel.ab_hw a)) /\
  JsonModel.obj_find (text "sw-version") p = Some (JsonModel.JString (StratumConfigModel.ab_sw a)) /\
  JsonModel.obj_find (text "sw-id") p = Some (JsonModel.JString (StratumConfigModel.ab_id a)).
Proof. exact about_exact. Qed.
Print Assumptions C94_about.

(* Names are split exactly at their dots, and a name with a dot is two parts with one between. *)
Theorem C94_split : forall s ps, StratumConfigModel.split_dots s = ps <-> ps <> [] /\ joined ps = s /\ Forall (fun p => ~ In "."%byte p) ps.
Proof. exact split_exact. Qed.
Print Assumptions C94_split.
Theorem C94_dotted : forall a b, StratumConfigModel.dotted a b = joined [a; b].
Proof. exact dotted_exact. Qed.
Print Assumptions C94_dotted.
Example C94_split_example : StratumConfigModel.split_dots (text "minimum-difficulty.value") = [text "minimum-difficulty"; text "value"] /\
  StratumConfigModel.split_dots (text "a..b") = [text "a"; []; text "b"].
Proof. split; reflexivity. Qed.
(* A submit request is valid exactly if it is a request whose parameters are a share with a name; its method
   is not looked at. *)
Theorem C50_submit_valid : forall j,
  (StratumModel.submit_valid j = Ret true <->
     StratumModel.request_valid j = true /\ exists s, StratumModel.ss_name s <> [] /\ StratumSpec.says_share (StratumModel.msg_params j) s) /\
  (StratumModel.request_valid j = false -> StratumModel.submit_valid j = Ret false).
Proof. exact (fun j => conj (submit_valid_exact j) (submit_invalid j)). Qed.
Print Assumptions C50_submit_valid.
Theorem C50_submit_method_refuted : forall mem id m s, StratumSpec.identifier id -> StratumSpec.has_name m -> StratumSpec.share_fields s ->
  StratumModel.submit_valid (StratumModel.request id m (StratumModel.submit_write mem s)) = Ret (StratumModel.sshare_valid s).
Proof. exact submit_any_method. Qed.
Print Assumptions C50_submit_method_refuted.
Example C50_submit_method_example :
  StratumModel.submit_valid (StratumModel.request (JsonModel.JUint 4) StratumModel.mining_subscribe (StratumModel.submit_write false StratumExamples.ex_share)) = Ret true.
Proof. vm_compute. reflexivity. Qed.
(* The proof that stands for none. *)
Theorem C33_empty : forall p, p = WorkModel.empty_wproof <->
  (let z := WorkModel.wp_puzzle p in let c := WorkModel.pz_candidate z in let h := WorkModel.so_share (WorkModel.wp_solution p) in
   WorkModel.ca_category c = 0%Z /\ WorkModel.ca_digest c = repeat x00 32 /\ WorkModel.ca_target c = 0 /\ WorkModel.ca_path c = MerkleModel.mkpath 0 [] /\
   WorkModel.pz_header z = [] /\ WorkModel.pz_body z = [] /\ WorkModel.pz_mask z = (-1)%Z /\
   WorkModel.sh_timestamp h = 0 /\ WorkModel.sh_nonce h = 0 /\ WorkModel.sh_extra2 h = [] /\ WorkModel.sh_bits h = None /\ WorkModel.so_extra1 (WorkModel.wp_solution p) = 0).
Proof. exact empty_exact. Qed.
Print Assumptions C33_empty.
