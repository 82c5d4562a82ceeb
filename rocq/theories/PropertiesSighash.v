(* C22 - C25, C66 - C69: signature-hash preimages, directives, incomplete transactions. *)
From Verif Require Import Base WireModel WireSpec ScriptModel ScriptSpec MachineModel SighashModel SighashSpec SighashProofs
  OriginalProofs SighashExamples.
Local Open Scope N_scope.

(* C22 *)
Theorem C22_fork_preimage_exact : forall H doc d pre, sdoc_wf doc -> fork_bit d ->
  (sighash_write H doc d = Some pre <-> fork_layout H doc d pre).
Proof. exact fork_layout_exact. Qed.
Print Assumptions C22_fork_preimage_exact.
Theorem C22_fork_preimage_defined_exact : forall H doc d, sdoc_wf doc -> fork_bit d ->
  ((exists pre, sighash_write H doc d = Some pre) <-> in_range d doc).
Proof. exact fork_defined_exact. Qed.
Print Assumptions C22_fork_preimage_defined_exact.
Theorem C22_fork_preimage_length : forall H doc d pre code, sdoc_wf doc -> fork_bit d -> (forall m, len (H m) = 32) ->
  code_form (sd_code doc) code -> sighash_write H doc d = Some pre ->
  len pre = 156 + var_int_size (len code) + len code.
Proof. exact fork_length. Qed.
Print Assumptions C22_fork_preimage_length.
Example C22_example : sdoc_wf (ex_sdoc 1 [ex_out 1; ex_out 2]) /\ fork_bit (directive 1 false true) /\ in_range (directive 1 false true) (ex_sdoc 1 [ex_out 1; ex_out 2]) /\
  option_map len (sighash_write ex_hash (ex_sdoc 1 [ex_out 1; ex_out 2]) (directive 1 false true)) = Some 159.
Proof.
  split; [apply ex_sdoc_wf, ex_outs_wf|]. split; [exists 0, 1; split; reflexivity|].
  split; [split; [reflexivity|intros E; discriminate E]|]. vm_compute. reflexivity.
Qed.

(* C23 *)
Theorem C23_fork_commits : forall H a b d e pre, (forall m, len (H m) = 32) -> sdoc_wf a -> sdoc_wf b -> fork_bit d -> fork_bit e ->
  no_collision H d a b -> sighash_write H a d = Some pre -> sighash_write H b e = Some pre ->
  d = e /\ same_commitment d a b.
Proof. exact fork_commits. Qed.
Print Assumptions C23_fork_commits.
Theorem C23_fork_commitment_exact : forall H a b d, (forall m, len (H m) = 32) -> sdoc_wf a -> sdoc_wf b -> fork_bit d ->
  in_range d a -> in_range d b -> no_collision H d a b ->
  (sighash_write H a d = sighash_write H b d <-> same_commitment d a b).
Proof. exact fork_commitment_exact. Qed.
Print Assumptions C23_fork_commitment_exact.
Theorem C23_preimage_determines_directive : forall H a b d e pre,
  sighash_write H a d = Some pre -> sighash_write H b e = Some pre -> d = e.
Proof. exact preimage_determines_directive. Qed.
Print Assumptions C23_preimage_determines_directive.
(* signature::hash: whenever it is defined as the hash of a preimage, and when it is the zero digest *)
Theorem C23_signature_hash : forall H doc d,
  (sdoc_wf doc -> (0 <= sd_value doc)%Z -> in_range d doc ->
     exists pre, sighash_write H doc d = Some pre /\ signature_hash H doc d = Some (H pre)) /\
  (~ (0 <= sd_value doc)%Z \/ ~ in_range d doc -> signature_hash H doc d = Some (repeat x00 32)).
Proof. exact (fun H doc d => conj (signature_hash_exact H doc d) (signature_hash_zero_exact H doc d)). Qed.
Print Assumptions C23_signature_hash.
(* SIGHASH_SINGLE without a matching output: the digest is a constant, so it commits to nothing *)
Theorem C23_single_out_of_range_refuted : exists a b d, sdoc_wf a /\ sdoc_wf b /\ directive_valid d = true /\ fork_bit d /\
  sdoc_valid a = true /\ sdoc_valid b = true /\ sd_tx a <> sd_tx b /\ sd_index a <> sd_index b /\
  forall H, signature_hash H a d = Some (repeat x00 32) /\ signature_hash H b d = Some (repeat x00 32).
Proof.
  exists (ex_sdoc 1 [ex_out 1]), (ex_sdoc 0 []), (directive 3 false true).
  split; [apply ex_sdoc_wf; split; [reflexivity|repeat constructor; discriminate]|].
  split; [apply ex_sdoc_wf; split; [reflexivity|constructor]|].
  split; [reflexivity|]. split; [exists 0, 3; split; reflexivity|].
  repeat split; discriminate.
Qed.
Print Assumptions C23_single_out_of_range_refuted.
(* a directive with kind 0 is accepted as valid, and then the outputs are not committed to *)
Theorem C23_kind_zero_refuted : exists a b d, sdoc_wf a /\ sdoc_wf b /\ directive_valid d = true /\ fork_bit d /\
  consensus_hashes_outputs d /\ it_outputs (sd_tx a) <> it_outputs (sd_tx b) /\
  forall H, sighash_write H a d = sighash_write H b d /\ sighash_write H a d <> None.
Proof.
  exists (ex_sdoc 1 [ex_out 1]), (ex_sdoc 1 []), (directive 0 false true).
  split; [apply ex_sdoc_wf; split; [reflexivity|repeat constructor; discriminate]|].
  split; [apply ex_sdoc_wf; split; [reflexivity|constructor]|].
  split; [reflexivity|]. split; [exists 0, 0; split; reflexivity|].
  split; [split; discriminate|]. split; [discriminate|]. intros H. split; [reflexivity|discriminate].
Qed.
Print Assumptions C23_kind_zero_refuted.
Example C23_example : exists a b d, sdoc_wf a /\ sdoc_wf b /\ fork_bit d /\ in_range d a /\ in_range d b /\
  no_collision (fun m => firstn 32 (skipn 36 m ++ repeat x00 32)) d a b /\ a <> b /\ same_commitment d a b.
Proof.
  exists (ex_sdoc 1 [ex_out 1; ex_out 2]), (ex_sdoc 1 []), (directive 2 true true).
  split; [apply ex_sdoc_wf, ex_outs_wf|]. split; [apply ex_sdoc_wf; split; [reflexivity|constructor]|].
  split; [exists 1, 2; split; reflexivity|]. split; [split; [reflexivity|discriminate]|]. split; [split; [reflexivity|discriminate]|].
  assert (A : acp_bit (directive 2 true true)) by (unfold acp_bit; vm_compute; discriminate).
  split.
  - intros m n Hm. inversion Hm as [? B|? B|? B|? ? B]; try contradiction; discriminate B.
  - split; [discriminate|]. constructor; try reflexivity; try (intros B; contradiction); intros B; discriminate B.
Qed.

(* C24 *)
Theorem C24_fork_ignores : forall H a b d, sdoc_wf a -> sdoc_wf b -> fork_bit d -> same_commitment d a b ->
  sighash_write H a d = sighash_write H b d.
Proof. exact fork_ignores. Qed.
Print Assumptions C24_fork_ignores.
Theorem C24_input_scripts_irrelevant : forall H t scripts i v p d, length scripts = length (tx_inputs t) ->
  sighash_write H {| sd_tx := itx_of (with_scripts t scripts); sd_index := i; sd_value := v; sd_code := p |} d =
  sighash_write H {| sd_tx := itx_of t; sd_index := i; sd_value := v; sd_code := p |} d.
Proof. exact scripts_irrelevant. Qed.
Print Assumptions C24_input_scripts_irrelevant.
Example C24_example : sighash_write ex_hash (ex_sdoc 1 [ex_out 1; ex_out 2]) (directive 2 false true) =
  sighash_write ex_hash (ex_sdoc 1 []) (directive 2 false true) /\
  sighash_write ex_hash (ex_sdoc 1 [ex_out 1; ex_out 2]) (directive 1 false true) <>
  sighash_write ex_hash (ex_sdoc 1 []) (directive 1 false true) /\
  sighash_write ex_hash (ex_sdoc 1 [ex_out 1; ex_out 2]) (directive 2 false true) <> None.
Proof. split; [vm_compute; reflexivity|]. split; vm_compute; discriminate. Qed.

(* C25 *)
Theorem C25_directive_parts : forall t acp fork, t < 32 ->
  kind (directive t acp fork) = t /\ (fork_bit (directive t acp fork) <-> fork = true) /\
  (acp_bit (directive t acp fork) <-> acp = true) /\
  (directive_valid (directive t acp fork) = true <-> t < 4).
Proof. exact directive_parts. Qed.
Print Assumptions C25_directive_parts.
Theorem C25_valid_exact : forall d, directive_valid d = true <-> exists t acp fork, t < 4 /\ d = directive t acp fork.
Proof. exact directive_decompose. Qed.
Print Assumptions C25_valid_exact.
Theorem C25_directive_determined : forall d e, kind d = kind e -> (fork_bit d <-> fork_bit e) -> (acp_bit d <-> acp_bit e) ->
  directive_valid d = true -> directive_valid e = true -> d = e.
Proof. exact directive_determined. Qed.
Print Assumptions C25_directive_determined.
Theorem C25_bits_read : forall d, sh_base d = kind d /\ (has_fork_id d = true <-> fork_bit d) /\ (is_anyone_can_pay d = true <-> acp_bit d).
Proof. exact (fun d => conj (base_kind d) (conj (fork_iff d) (acp_iff d))). Qed.
Print Assumptions C25_bits_read.
Example C25_example : directive 1 false true = x41 /\ directive 3 true true = xc3 /\ directive_valid x41 = true /\ directive_valid x44 = false.
Proof. repeat split. Qed.

(* C66 *)
Theorem C66_original_preimage_exact : forall H doc d pre, sdoc_wf doc -> ~ fork_bit d ->
  (sighash_write H doc d = Some pre <-> original_layout doc d pre).
Proof. exact original_layout_exact. Qed.
Print Assumptions C66_original_preimage_exact.
Theorem C66_original_commits : forall H a b d e pre, sdoc_wf a -> sdoc_wf b -> ~ fork_bit d -> ~ fork_bit e ->
  sighash_write H a d = Some pre -> sighash_write H b e = Some pre ->
  d = e /\ exists ca cb t, stripped (sd_code a) ca /\ stripped (sd_code b) cb /\ seen a d ca t /\ seen b d cb t.
Proof. exact original_commits. Qed.
Print Assumptions C66_original_commits.
Theorem C66_original_commits_all : forall H a b d pre, sdoc_wf a -> sdoc_wf b -> ~ fork_bit d -> kind d = 1 -> ~ acp_bit d ->
  in_range d a -> in_range d b ->
  sighash_write H a d = Some pre -> sighash_write H b d = Some pre ->
  sd_tx a = sd_tx b /\
  (forall ca cb, stripped (sd_code a) ca -> stripped (sd_code b) cb -> ca <> [] -> sd_index a = sd_index b /\ ca = cb).
Proof. exact original_commits_all. Qed.
Print Assumptions C66_original_commits_all.
(* the modified transaction against the consensus rule *)
Theorem C66_outputs_vs_consensus : forall doc d code t, seen doc d code t ->
  (tx_outputs t = consensus_outputs d doc <->
   kind d = 1 \/ kind d = 2 \/ (kind d = 3 /\ sd_index doc = 0) \/
   (kind d <> 1 /\ kind d <> 2 /\ kind d <> 3 /\ it_outputs (sd_tx doc) = [])).
Proof. exact outputs_vs_consensus. Qed.
Print Assumptions C66_outputs_vs_consensus.
Theorem C66_sequences_vs_consensus : forall doc d code t, seen doc d code t -> ~ acp_bit d -> 1 <= kind d <= 3 ->
  forall k i j, nth_error (it_inputs (sd_tx doc)) k = Some i -> nth_error (tx_inputs t) k = Some j ->
    in_seq j = consensus_sequence d doc (N.of_nat k) i.
Proof. exact sequences_vs_consensus. Qed.
Print Assumptions C66_sequences_vs_consensus.
Theorem C66_consensus_single_refuted : exists doc d code t, sdoc_wf doc /\ in_range d doc /\ ~ fork_bit d /\ directive_valid d = true /\
  stripped (sd_code doc) code /\ reconstruct doc d = Some t /\ tx_outputs t <> consensus_outputs d doc.
Proof.
  exists (ex_sdoc 1 [ex_out 1; ex_out 2]), (directive 3 false false), [xac]. eexists.
  split; [apply ex_sdoc_wf, ex_outs_wf|]. split; [split; [reflexivity|intros _; reflexivity]|].
  split; [intros (q & r & E & L); change (b2n (directive 3 false false)) with 3 in E; lia|]. split; [reflexivity|].
  split; [exists [[xac]]; split; [repeat constructor; unfold is_inst; cbn; apply if_op; reflexivity|split; reflexivity]|].
  split; [reflexivity|]. discriminate.
Qed.
Print Assumptions C66_consensus_single_refuted.
Example C66_example : option_map len (sighash_write ex_hash (ex_sdoc 1 [ex_out 1; ex_out 2]) (directive 1 false false)) = Some 119 /\
  sighash_write ex_hash (ex_sdoc 1 [ex_out 1; ex_out 2]) (directive 1 false false) <>
  sighash_write ex_hash (ex_sdoc 0 [ex_out 1; ex_out 2]) (directive 1 false false).
Proof. split; [vm_compute; reflexivity|]. vm_compute. discriminate. Qed.

(* C67 *)
Theorem C67_caching_is_invisible : forall H t l c, coherent H t c ->
  Forall (fun q : N * Z * program * byte => exists b, code_form (snd (fst q)) b) l ->
  forall bs, (exists c', sighash_session H t l c = Some (bs, c')) <->
             Forall2 (fun q b => sighash_write H (request_doc t q) (snd q) = Some b) l bs.
Proof. exact session_exact. Qed.
Print Assumptions C67_caching_is_invisible.
Theorem C67_fresh_cache_coherent : forall H t, coherent H t empty_cache.
Proof. exact coherent_empty. Qed.
Print Assumptions C67_fresh_cache_coherent.
Example C67_example : match sighash_session ex_hash (ex_itx [ex_out 1]) [(0, 5%Z, ex_code, x41); (1, 6%Z, ex_code, x41)] empty_cache with
  | Some ([a; b], _) => a <> b | _ => False end.
Proof. vm_compute. discriminate. Qed.

(* C68 *)
Theorem C68_harmless_runs : forall l, harmless_run empty_heap l -> exists h', hrun empty_heap l = Some h'.
Proof. exact hrun_harmless. Qed.
Print Assumptions C68_harmless_runs.
Theorem C68_copy_after_use : forall h i, heap_inv h -> (exists p, nth_error (hp_objects h) i = Some (Some p)) ->
  hrun h [HCopy i; HDestroy i; HDestroy (length (hp_objects h))] = None.
Proof. exact double_free. Qed.
Print Assumptions C68_copy_after_use.
Theorem C68_copies_are_safe_refuted : exists l, hrun empty_heap l = None /\
  exists h, hrun empty_heap (removelast l) = Some h /\ harmless h (last l HNew).
Proof. exists [HNew; HFill 0; HCopy 0; HDestroy 0; HDestroy 1]. split; [reflexivity|]. eexists. split; [reflexivity|]. cbn. lia. Qed.
Print Assumptions C68_copies_are_safe_refuted.
Example C68_example : harmless_run empty_heap [HNew; HCopy 0; HFill 0; HFill 1; HDestroy 0; HDestroy 1].
Proof. repeat (constructor; [cbn; (lia || reflexivity || exact I)|intros ? E; injection E as <-]). constructor. Qed.

(* C69 *)
Theorem C69_complete_exact : forall t scripts u, itx_complete t scripts = Ret u <-> itx_of u = t /\ map in_script (tx_inputs u) = scripts.
Proof. exact complete_exact. Qed.
Print Assumptions C69_complete_exact.
Theorem C69_complete_throws_exact : forall t scripts, itx_complete t scripts = Throw X_logic_error <-> length scripts <> length (it_inputs t).
Proof. exact complete_throws_exact. Qed.
Print Assumptions C69_complete_throws_exact.
(* the byte form of an incomplete transaction can be read back only if it looks like a coinbase *)
Theorem C69_bytes_round_trip_exact : forall t b, itx_wf t -> itx_bytes t = Ret b ->
  (forall u, itx_of_bytes b = Ret u -> u = t) /\
  ((exists u, itx_of_bytes b = Ret u) <->
     (exists i, it_inputs t = [i] /\ ii_ref i = outpoint_zero) /\ it_outputs t <> [] /\ Forall (fun o => output_valid o = true) (it_outputs t)) /\
  (~ (exists u, itx_of_bytes b = Ret u) -> itx_of_bytes b = Throw X_invalid_argument).
Proof. exact incomplete_bytes_exact. Qed.
Print Assumptions C69_bytes_round_trip_exact.
(* what valid () asks of a transaction *)
Theorem C69_valid_exact : forall t, tx_valid t = Ret true <->
  tx_outputs t <> [] /\
  Forall (fun o => (out_value o < 2100000000000000)%Z /\ ((0 < out_value o)%Z \/ provably_unspendable (out_script o) true = true)) (tx_outputs t) /\
  ((tx_inputs t <> [] /\ Forall (fun i => exists p, decompile (in_script i) = Ret p /\ p <> []) (tx_inputs t)) \/
   (exists i p, tx_inputs t = [i] /\ in_ref i = outpoint_zero /\ decompile (in_script i) = Ret p)).
Proof. exact tx_valid_iff. Qed.
Print Assumptions C69_valid_exact.
Theorem C69_bytes_round_trip_refuted : exists t b, itx_wf t /\ Forall (fun o => output_valid o = true) (it_outputs t) /\
  itx_bytes t = Ret b /\ itx_of_bytes b = Throw X_invalid_argument.
Proof.
  exists (ex_itx [ex_out 1; ex_out 2]). eexists.
  split; [apply (ex_sdoc_wf 0 _ ex_outs_wf)|]. split; [repeat constructor|]. split; [vm_compute; reflexivity|]. vm_compute. reflexivity.
Qed.
Print Assumptions C69_bytes_round_trip_refuted.
Example C69_example : itx_complete (ex_itx []) [[x51]; [x52]] <> Throw X_logic_error /\ itx_complete (ex_itx []) [[x51]] = Throw X_logic_error.
Proof. split; [discriminate|reflexivity]. Qed.
