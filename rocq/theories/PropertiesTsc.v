(* Merkle proofs in the standardised format: the two forms, and confirmation by a database. *)
From Coq Require Import String.
From Verif Require Import Base BaseProofs WireModel WireSpec MerkleModel MerkleSpec MerkleExamples TextModel JsonModel WorkModel BeefModel BeefExamples SpvModel SpvSpec SpvExamples TscModel TscSpec TscBinaryProofs TscJsonProofs TscProofs TscExamples.
Local Open Scope list_scope.
Local Open Scope N_scope.

(* C96 *)
Theorem C96_valid_exact : forall p, tsc_valid p = true <-> identified p /\ targeted p.
Proof. exact valid_exact. Qed.
Print Assumptions C96_valid_exact.
(* the bytes written, and when writing is undefined *)
Theorem C96_binary_written : forall p, tsc_wf p -> identified p -> targeted p ->
  write_binary p = Ret (layout p ++ repeat x00 (left_over (p_index (ts_path p)))).
Proof. exact write_binary_exact. Qed.
Print Assumptions C96_binary_written.
Theorem C96_binary_undefined : forall p, tsc_wf p ->
  (write_binary p = Undef <-> (ts_tx p = None /\ ts_id p = None) \/ (ts_hash p = None /\ ts_root p = None /\ ts_header p = None)) /\
  forall e, write_binary p <> Throw e.
Proof. exact write_binary_undef. Qed.
Print Assumptions C96_binary_undefined.
(* the bytes read *)
Theorem C96_binary_read : forall b p,
  (read_binary b = p /\ p <> tsc_none <-> exists c rest, b = c ++ rest /\ tsc_form p c) /\
  (read_binary b = tsc_none <-> forall c rest q, b = c ++ rest -> ~ tsc_form q c).
Proof. exact read_binary_exact. Qed.
Print Assumptions C96_binary_read.
Theorem C96_binary_read_valid : forall b, tsc_valid (read_binary b) = true <->
  exists c rest p f c', b = c ++ rest /\ tsc_form p c /\ c = f :: c' /\ N.odd (b2n f) = false.
Proof. exact read_binary_valid. Qed.
Print Assumptions C96_binary_read_valid.
(* the transaction and the upper half of the index are lost *)
Theorem C96_binary_back : forall p, tsc_wf p -> tsc_valid p = true ->
  exists b, write_binary p = Ret b /\ forall rest, read_binary (b ++ rest) = without_tx (with_index32 p).
Proof. exact binary_round_trip. Qed.
Print Assumptions C96_binary_back.
Theorem C96_binary_round_trip : forall p, tsc_wf p -> tsc_valid p = true ->
  exists b, write_binary p = Ret b /\ (read_binary b = p <-> ts_tx p = None /\ p_index (ts_path p) < 2 ^ 32) /\ (tsc_valid (read_binary b) = true <-> ts_tx p = None).
Proof. exact binary_round_trip_id. Qed.
Print Assumptions C96_binary_round_trip.
Example C96_binary_example : tsc_wf ex_tsc_id /\ tsc_valid ex_tsc_id = true /\ tsc_wf ex_tsc_tx /\ tsc_valid ex_tsc_tx = true /\
  (exists b, write_binary ex_tsc_id = Ret b /\ read_binary b = ex_tsc_id) /\
  (* trees, composite proofs and unknown flags pass *)
  (exists b, write_binary ex_tsc_id = Ret b /\ read_binary (n2b (2 + 8 + 16 + 128) :: tl b) = ex_tsc_id) /\
  (exists b, write_binary ex_tsc_far = Ret b /\ p_index (ts_path (read_binary b)) = 5 /\ skipn (length b - 8) b = repeat x00 8).
Proof.
  assert (W : forall h, h = ex_block -> header_wf h). { intros h ->. split; [vm_compute; split; discriminate || reflexivity|]. split; [reflexivity|]. split; [vm_compute; reflexivity|]. split; [vm_compute; reflexivity|]. split; vm_compute; reflexivity. }
  split; [split; [exact I|split; [vm_compute; reflexivity|split; [exact I|split; [exact I|split; [apply W; reflexivity|split; [vm_compute; reflexivity|split; [vm_compute; reflexivity|]]]]]]]; constructor; [vm_compute; reflexivity|constructor]|].
  split; [reflexivity|].
  split; [split; [vm_compute; reflexivity|split; [exact I|split; [vm_compute; reflexivity|split; [exact I|split; [exact I|split; [vm_compute; reflexivity|split; [vm_compute; reflexivity|]]]]]]]; constructor; [vm_compute; reflexivity|constructor]|].
  split; [reflexivity|].
  split; [eexists; split; [vm_compute; reflexivity|vm_compute; reflexivity]|].
  split; [eexists; split; [vm_compute; reflexivity|vm_compute; reflexivity]|].
  eexists; split; [vm_compute; reflexivity|split; vm_compute; reflexivity].
Qed.

(* the JSON value written comes back, but for transactions of 32 bytes or less *)
Theorem C96_json_written : forall u1 u2 p, tsc_valid p = true -> write_json u1 u2 p = JObject (
  [(text "index", JUint (p_index (ts_path p))); (text "nodes", JArray (map (fun d => JString (match d with Some x => digest_text u2 x | None => text "*" end)) (p_digests (ts_path p))))] ++
  match ts_hash p, ts_root p, ts_header p with
  | Some d, _, _ => [(text "target", JString (digest_text u2 d))]
  | None, Some d, _ => [(text "target", JString (digest_text u2 d)); (text "targetType", JString (text "merkleRoot"))]
  | None, None, Some h => [(text "target", JString (hex_of u1 (header_write h))); (text "targetType", JString (text "header"))]
  | None, None, None => []
  end ++
  match ts_tx p, ts_id p with
  | Some t, _ => [(text "txOrId", JString (hex_of u1 t))]
  | None, Some d => [(text "txOrId", JString (digest_text u2 d))]
  | None, None => []
  end).
Proof. exact write_json_exact. Qed.
Print Assumptions C96_json_written.
Theorem C96_json_invalid : forall u1 u2 p, tsc_valid p = false -> write_json u1 u2 p = JNull.
Proof. exact write_json_invalid. Qed.
Print Assumptions C96_json_invalid.
Theorem C96_json_back : forall u1 u2 odd p, tsc_wf p -> tsc_valid p = true -> read_json odd (write_json u1 u2 p) = Ret (json_back p).
Proof. exact json_read_back. Qed.
Print Assumptions C96_json_back.
Theorem C96_json_round_trip : forall u1 u2 odd p, tsc_wf p -> tsc_valid p = true ->
  (read_json odd (write_json u1 u2 p) = Ret p <-> forall t, ts_tx p = Some t -> (32 < length t)%nat).
Proof. exact json_round_trip. Qed.
Print Assumptions C96_json_round_trip.
Example C96_json_refuted : tsc_valid ex_tsc_short = true /\
  read_json ex_no_odd (write_json false false ex_tsc_short) = Ret (mktsc None (Some (ex_digest 5)) (mkpath 7 [Some (ex_digest 6); None]) None (Some (ex_digest 8)) None).
Proof. split; [reflexivity|vm_compute; reflexivity]. Qed.
(* which JSON values are read as which records *)
Theorem C96_json_acceptable : forall j, json_ok j = true <-> json_acceptable j.
Proof. exact json_ok_exact. Qed.
Print Assumptions C96_json_acceptable.
Theorem C96_json_read : forall odd j p, read_json odd j = Ret p /\ tsc_valid p = true <-> json_says odd j p.
Proof. exact read_json_exact. Qed.
Print Assumptions C96_json_read.
Theorem C96_json_refused : forall odd j, read_json odd j = Ret tsc_none <-> ~ json_acceptable j.
Proof. exact read_json_none. Qed.
Print Assumptions C96_json_refused.
Theorem C96_json_undefined : forall odd j, read_json odd j = Undef <-> json_acceptable j /\ j_get (text "target") j = None.
Proof. exact read_json_undef. Qed.
Print Assumptions C96_json_undefined.
Theorem C96_json_throws : forall odd j, read_json odd j = Throw tt <->
  json_acceptable j /\ exists v, j_get (text "target") j = Some v /\
  ((forall s, v <> JString s) \/ (exists s, v = JString s /\ (forall d, ~ digest_says odd s d) /\ j_get (text "targetType") j <> Some (JString (text "header")))).
Proof. exact read_json_throw. Qed.
Print Assumptions C96_json_throws.
Example C96_json_example : read_json ex_no_odd ex_json_no_target = Undef /\ read_json ex_no_odd ex_json_number = Throw tt /\ json_ok ex_json_number = true /\
  read_json ex_no_odd (write_json true false ex_tsc_tx) = Ret ex_tsc_tx.
Proof. split; [vm_compute; reflexivity|]. split; [vm_compute; reflexivity|]. split; vm_compute; reflexivity. Qed.
(* the functions that take the value: no transaction is ever found and every id is hashed again; a block
   hash is given only where the type is written out *)
Theorem C96_json_subject_refuted : forall odd H j s, json_acceptable j -> j_get (text "txOrId") j = Some (JString s) ->
  json_tx_included j = Ret false /\ exists b, hex_read s = Some b /\ json_txid H odd j = Ret (H b).
Proof. exact json_functions. Qed.
Print Assumptions C96_json_subject_refuted.
Theorem C96_json_target : forall odd j p, json_says odd j p ->
  json_block_hash odd j = Ret (match j_get (text "targetType") j with Some _ => ts_hash p | None => None end) /\
  json_block_header j = Ret (ts_header p) /\ json_root odd j = Ret (match ts_root p, ts_header p with Some d, _ => Some d | None, Some h => Some (h_merkle_root h) | None, None => None end) /\
  json_target_type j = target_type p.
Proof. exact json_functions_target. Qed.
Print Assumptions C96_json_target.
Example C96_json_functions_example : let j := write_json false false ex_tsc_tx in
  json_tx_included j = Ret false /\ json_block_hash ex_no_odd j = Ret None /\ ts_hash ex_tsc_tx <> None /\
  json_txid ex_hash32 ex_no_odd (write_json false false ex_tsc_id) = Ret (ex_hash32 (rev ex_id_a)) /\ ex_hash32 (rev ex_id_a) <> ex_id_a.
Proof. cbv zeta. split; [vm_compute; reflexivity|]. split; [vm_compute; reflexivity|]. split; [discriminate|]. split; [vm_compute; reflexivity|vm_compute; discriminate]. Qed.

(* C97 *)
Theorem C97_validate_exact : forall H m p, tsc_validate H m p = true <->
  tsc_valid p = true /\ exists id n h, tsc_txid H p = Some id /\ header_by m (derive_root H (ts_path p) id) = Some (n, h) /\
  h_merkle_root h = derive_root H (ts_path p) id /\
  (forall r, ts_root p = Some r -> r = h_merkle_root h) /\ (forall d, ts_hash p = Some d -> d = header_hash H h) /\ (forall b, ts_header p = Some b -> b = h).
Proof. exact validate_exact. Qed.
Print Assumptions C97_validate_exact.
Theorem C97_validate_sound : forall H ins ord dup fuel h0 l m p, (forall x, length (H x) = 32%nat) -> header_valid H h0 = true ->
  throughout H ins ord dup fuel (keeps_chain H) (new_db H h0) l -> history H ins ord dup fuel (new_db H h0) l = Done m -> tsc_wf p ->
  tsc_validate H m p = true ->
  exists id n h, tsc_txid H p = Some id /\ header_at m n = Some (n, h) /\ header_valid H h = true /\
  (forall r, ts_root p = Some r -> r = h_merkle_root h) /\ (forall d, ts_hash p = Some d -> d = header_hash H h) /\ (forall b, ts_header p = Some b -> b = h) /\
  forall leaves, leaves <> [] -> sized_leaf_digests leaves -> merkle_root H leaves = h_merkle_root h -> length (p_digests (ts_path p)) = depth (count leaves) ->
    In id leaves \/ collision H (branch_preimages H (mkleaf id (p_index (ts_path p))) (p_digests (ts_path p))) (tree_preimages H leaves).
Proof. exact validate_sound. Qed.
Print Assumptions C97_validate_sound.
Theorem C97_constructors : forall b t q pr h d,
  tsc_valid (tsc_of_branch b) = false /\ tsc_valid (tsc_of_tx t q) = false /\ tsc_valid (tsc_of_proof pr) = true /\ tsc_valid (tsc_of_branch_header b h) = true /\
  tsc_valid (tsc_of_branch_hash b d) = true /\ tsc_valid (tsc_of_tx_header t q h) = true /\
  (forall k, tsc_valid (tsc_of_tx_digest t q d k) = true <-> k = KHash \/ k = KRoot).
Proof. exact constructors. Qed.
Print Assumptions C97_constructors.
Theorem C97_roots : forall H b pr, tsc_root H (tsc_of_branch b) = Some (branch_root H b) /\
  tsc_root H (tsc_of_proof pr) = Some (branch_root H (pr_branch pr)) /\
  (proof_valid H pr = true -> tsc_root H (tsc_of_proof pr) = tsc_merkle_root (tsc_of_proof pr)).
Proof. exact constructors_root. Qed.
Print Assumptions C97_roots.
(* records without a target cannot be written *)
Theorem C97_constructors_refuted : forall b t q d, write_binary (tsc_of_branch b) = Undef /\ write_binary (tsc_of_tx t q) = Undef /\
  write_binary (tsc_of_tx_digest t q d KHeader) = Undef.
Proof. exact constructors_undef. Qed.
Print Assumptions C97_constructors_refuted.
Example C97_example : exists m, ex_run ex_db ex_history = Done m /\ tsc_validate ex_hash32 m ex_tsc_id = true /\ tsc_validate ex_hash32 m ex_tsc_tx = true /\
  tsc_validate ex_hash32 m ex_tsc_far = false /\ merkle_root ex_hash32 [ex_id_a; ex_id_b] = h_merkle_root ex_block /\ length (p_digests (ts_path ex_tsc_id)) = depth 2.
Proof. eexists. split; [vm_compute; reflexivity|]. split; [vm_compute; reflexivity|]. split; [vm_compute; reflexivity|]. split; [vm_compute; reflexivity|]. split; vm_compute; reflexivity. Qed.
