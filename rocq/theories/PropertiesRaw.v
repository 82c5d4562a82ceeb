(* C126 - C129: raw outputs, inputs and outpoints; validity of blocks; the genesis block; cached ids. *)
From Coq Require Import String.
From Verif Require Import Base WireModel WireSpec WireProofs ScriptModel MerkleModel MerkleSpec WorkModel SighashModel TextModel Sha256Spec
  RawModel RawSpec RawProofs RawExamples.
Local Open Scope N_scope.

(* C126: outpoints *)
Theorem C126_outpoint_read : forall o x, length x = 36%nat -> (outpoint_of_slice x = o <-> outpoint_form o x).
Proof. exact outpoint_slice_exact. Qed.
Print Assumptions C126_outpoint_read.
Theorem C126_outpoint_write : forall o x, outpoint_wf o -> (outpoint_bytes o = x <-> outpoint_form o x).
Proof. exact outpoint_bytes_exact. Qed.
Print Assumptions C126_outpoint_write.
Example C126_outpoint_example : outpoint_wf outpoint_coinbase /\ outpoint_of_slice (outpoint_bytes outpoint_coinbase) = outpoint_coinbase.
Proof. split; [split; reflexivity|reflexivity]. Qed.
(* outputs and inputs: the object at the front, or else the default *)
Theorem C126_output : forall b o, output_of_slice b = o <-> taken output_form output_default b o.
Proof. exact output_taken. Qed.
Print Assumptions C126_output.
Theorem C126_input : forall b i, input_of_slice b = i <-> taken input_form input_default b i.
Proof. exact input_taken. Qed.
Print Assumptions C126_input.
Theorem C126_block : forall b x, block_of_slice b = x <-> taken block_form block_default b x.
Proof. exact block_taken. Qed.
Print Assumptions C126_block.
(* what stands for a missing object is not valid *)
Theorem C126_defaults : output_valid output_default = false /\ outpoint_valid (in_ref input_default) = false /\ (forall H, block_valid H block_default = Ret false).
Proof. exact defaults_invalid. Qed.
Print Assumptions C126_defaults.
Theorem C126_output_valid : forall b, output_slice_valid b = true <-> exists o, begins output_form o b /\ output_valid o = true.
Proof. exact output_slice_valid_exact. Qed.
Print Assumptions C126_output_valid.
Theorem C126_outpoint_valid : forall o, outpoint_valid o = false <-> op_digest o = repeat x00 32.
Proof. exact outpoint_valid_exact. Qed.
Print Assumptions C126_outpoint_valid.
Example C126_defaults_example : output_default = {| out_value := -1; out_script := [] |} /\ outpoint_valid outpoint_coinbase = false /\
  output_slice_valid [x01; x00; x00; x00; x00; x00; x00; x00; x00] = true /\ output_slice_valid [x01; x00; x00; x00; x00; x00; x00; x00; x01] = false.
Proof. repeat split; vm_compute; reflexivity. Qed.
(* the fields of a raw output *)
Theorem C126_fields : forall o c r, output_form o c ->
  output_of_slice (c ++ r) = o /\ output_slice_value (c ++ r) = out_value o /\ output_slice_script (c ++ r) = Ret (out_script o).
Proof. exact output_fields. Qed.
Print Assumptions C126_fields.
Theorem C126_value : forall b, (len b < 8 -> output_slice_value b = (-1)%Z) /\
  (forall v r, b = v ++ r -> length v = 8%nat -> output_slice_value b = sle_val v).
Proof. exact value_exact. Qed.
Print Assumptions C126_value.
Theorem C126_script : forall b,
  (forall s, raw_script s b -> output_slice_script b = Ret s) /\
  (raw_short b -> output_slice_script b = Undef) /\
  (raw_cut b -> output_slice_script b = Ret []) /\
  ((exists s, raw_script s b) \/ raw_short b \/ raw_cut b).
Proof. exact script_exact. Qed.
Print Assumptions C126_script.
(* every output cut inside its script: refused as an output, but its script reaches beyond the buffer *)
Theorem C126_cut_refuted : forall o v k p s, sle_form 8 (out_value o) v -> count_form (len (out_script o)) k ->
  out_script o = p ++ s -> s <> [] ->
  output_form o (v ++ k ++ p ++ s) /\ output_of_slice (v ++ k ++ p) = output_default /\ output_slice_script (v ++ k ++ p) = Undef.
Proof. exact output_cut. Qed.
Print Assumptions C126_cut_refuted.
Example C126_example : output_form ex_raw_output (output_write ex_raw_output) /\
  output_slice_value (output_write ex_raw_output) = 5000%Z /\ output_slice_script (output_write ex_raw_output) = Ret [x76; xa9; xac] /\
  output_slice_script (firstn 10 (output_write ex_raw_output)) = Undef /\ output_slice_script (firstn 8 (output_write ex_raw_output)) = Ret [].
Proof. split; [exact ex_raw_form|]. vm_compute. auto. Qed.
(* the slice of an input of a raw transaction: as many bytes as the shortest form of the input has *)
Theorem C126_input_slice : forall t b k i rest, tx_form t b -> len b < 2 ^ 64 -> version_scannable (tx_version t) ->
  nth_error (tx_inputs t) (N.to_nat k) = Some i ->
  exists c, input_form i c /\ (exists p s, b = p ++ c ++ s) /\
    tx_input_slice (b ++ rest) k = Ret (firstn (N.to_nat (input_size i)) c).
Proof. exact tx_input_slice_form. Qed.
Print Assumptions C126_input_slice.
(* which is the input exactly if the length of its script is in its shortest form *)
Theorem C126_input_slice_read : forall i c, input_form i c ->
  (tight_count i c -> firstn (N.to_nat (input_size i)) c = c /\ c = input_write i /\ input_of_slice (firstn (N.to_nat (input_size i)) c) = i) /\
  (~ tight_count i c -> firstn (N.to_nat (input_size i)) c <> c /\ input_of_slice (firstn (N.to_nat (input_size i)) c) = input_default).
Proof. exact input_slice_read. Qed.
Print Assumptions C126_input_slice_read.
Theorem C126_input_slice_refuted : exists t b i, tx_form t b /\ version_scannable (tx_version t) /\ nth_error (tx_inputs t) 0 = Some i /\
  exists s, tx_input_slice b 0 = Ret s /\ input_of_slice s = input_default.
Proof. exact (ex_intro _ ex_raw_tx (ex_intro _ ex_loose_tx (ex_intro _ ex_raw_input loose_refuted))). Qed.
Print Assumptions C126_input_slice_refuted.
Example C126_loose_example : input_form ex_raw_input ex_loose_input /\ ~ tight_count ex_raw_input ex_loose_input.
Proof. exact (conj ex_loose_form ex_loose). Qed.

(* C127: blocks *)
Theorem C127_exact : forall H b, block_valid H b = Ret true <->
  header_valid H (bl_header b) = true /\ Forall (fun t => tx_valid t = Ret true) (bl_txs b).
Proof. exact block_valid_exact. Qed.
Print Assumptions C127_exact.
Theorem C127_throws : forall H b e, block_valid H b = Throw e <->
  header_valid H (bl_header b) = true /\
  exists p t s, bl_txs b = p ++ t :: s /\ Forall (fun t => tx_valid t = Ret true) p /\ tx_valid t = Throw e.
Proof. exact block_throws_exact. Qed.
Print Assumptions C127_throws.
(* the Merkle root of the header is not compared with the transactions, nor is there need of any *)
Theorem C127_root_refuted : forall H b l, block_valid H b = Ret true -> Forall (fun t => tx_valid t = Ret true) l ->
  block_valid H {| bl_header := bl_header b; bl_txs := l |} = Ret true.
Proof. exact block_any_txs. Qed.
Print Assumptions C127_root_refuted.
Example C127_root_example : block_valid sha256d {| bl_header := bl_header genesis_block; bl_txs := [] |} = Ret true /\
  block_valid sha256d {| bl_header := bl_header genesis_block; bl_txs := [genesis_tx; genesis_tx; ex_raw_tx] |} = Ret true /\
  txs_root sha256d [genesis_tx; genesis_tx; ex_raw_tx] <> Some (h_merkle_root (bl_header genesis_block)).
Proof. exact genesis_without. Qed.
(* the root that a raw block should have *)
Theorem C127_root : forall H b rest, block_wf b -> bl_txs b <> [] ->
  block_slice_root H (block_write b ++ rest) = Some (txs_root H (bl_txs b)) /\
  txs_root H (bl_txs b) = Some (merkle_root H (map (fun t => H (tx_write t)) (bl_txs b))).
Proof. exact block_root. Qed.
Print Assumptions C127_root.
(* a coinbase gets no special treatment: its script has to be a program *)
Theorem C127_coinbase : forall t, is_coinbase t -> (tx_valid t = Ret true <->
  (exists i p, tx_inputs t = [i] /\ decompile (in_script i) = Ret p /\ p <> []) /\
  tx_outputs t <> [] /\ Forall (fun o => output_valid o = true) (tx_outputs t)).
Proof. exact coinbase_valid. Qed.
Print Assumptions C127_coinbase.
Theorem C127_coinbase_refuted : exists t, is_coinbase t /\ tx_outputs t <> [] /\ Forall (fun o => output_valid o = true) (tx_outputs t) /\
  exists e, block_valid sha256d {| bl_header := bl_header genesis_block; bl_txs := [t] |} = Throw e.
Proof. exact (ex_intro _ ex_coinbase (conj ex_is_coinbase (conj ex_coinbase_outputs (conj ex_coinbase_outputs_valid genesis_throws)))). Qed.
Print Assumptions C127_coinbase_refuted.
Example C127_coinbase_example : is_coinbase genesis_tx /\ tx_valid genesis_tx = Ret true.
Proof. split; [exact genesis_coinbase|vm_compute; reflexivity]. Qed.

(* C128: the genesis block *)
Theorem C128_block : genesis = Some genesis_block.
Proof. exact genesis_is. Qed.
Print Assumptions C128_block.
Theorem C128_whole : exists raw, hex_read genesis_text = Some raw /\ len raw = 285 /\ block_write genesis_block = raw /\ block_form genesis_block raw.
Proof. exact genesis_whole. Qed.
Print Assumptions C128_whole.
Theorem C128_hash : hex_write (rev (sha256d (header_write (bl_header genesis_block)))) = genesis_hash_text.
Proof. exact genesis_hash. Qed.
Print Assumptions C128_hash.
Theorem C128_root : txs_root sha256d (bl_txs genesis_block) = Some (h_merkle_root (bl_header genesis_block)).
Proof. exact genesis_root. Qed.
Print Assumptions C128_root.
Theorem C128_work : le_val (sha256d (header_write (bl_header genesis_block))) < 0xffff * 2 ^ 208 /\
  expand (h_target (bl_header genesis_block)) = 0xffff * 2 ^ 208.
Proof. exact genesis_work. Qed.
Print Assumptions C128_work.
Theorem C128_valid : block_valid sha256d genesis_block = Ret true.
Proof. exact genesis_valid. Qed.
Print Assumptions C128_valid.
(* the concrete hash function is SHA-256: the examples of FIPS 180-4 *)
Example C128_sha256 : hex_write (sha256 (text "abc")) = text "ba7816bf8f01cfea414140de5dae2223b00361a396177a9cb410ff61f20015ad" /\
  hex_write (sha256 (text "abcdbcdecdefdefgefghfghighijhijkijkljklmklmnlmnomnopnopq")) = text "248d6a61d20638b8e5c026930c3e6039a33ce45964ff2167f6ecedd419db06c1" /\
  hex_write (sha256 []) = text "e3b0c44298fc1c149afbf4c8996fb92427ae41e4649b934ca495991b7852b855".
Proof. vm_compute. auto. Qed.

(* C129: cached ids *)
Theorem C129_unasked : forall H t l, no_question l -> fst (object_id H (life H (object_of t) l)) = H (tx_write (fields_after t l)).
Proof. exact id_unasked. Qed.
Print Assumptions C129_unasked.
Theorem C129_asked : forall H t l1 l2, no_question l1 ->
  fst (object_id H (life H (object_of t) (l1 ++ Ask :: l2))) = loaded l2 (H (tx_write (fields_after t l1))).
Proof. exact id_asked. Qed.
Print Assumptions C129_asked.
(* the id is right as long as nothing but questions follows the first question *)
Theorem C129_right : forall H t l1 l2, no_question l1 -> Forall quiet l2 ->
  fst (object_id H (life H (object_of t) (l1 ++ l2))) = tx_id H (fields_after t (l1 ++ l2)).
Proof. exact id_right. Qed.
Print Assumptions C129_right.
(* changing a field after the first question leaves the old id *)
Theorem C129_stale_refuted : forall H t u, H (tx_write t) <> H (tx_write u) ->
  fst (object_id H (life H (object_of t) [Ask; Fields u])) <> tx_id H (fields_after t [Ask; Fields u]).
Proof. exact id_stale. Qed.
Print Assumptions C129_stale_refuted.
(* a loader that knows the id cannot give it to a new transaction, only to one that has computed it *)
Theorem C129_load_refuted : forall H t h, life H (object_of t) [Load h] = object_of t.
Proof. exact load_nothing. Qed.
Print Assumptions C129_load_refuted.
Theorem C129_load : forall H t h, fst (object_id H (life H (object_of t) [Ask; Load h])) = h.
Proof. exact load_anything. Qed.
Print Assumptions C129_load.
Example C129_example : sha256d (tx_write genesis_tx) <> sha256d (tx_write ex_raw_tx) /\ no_question [Fields ex_raw_tx; Load []] /\
  fields_after genesis_tx [Fields ex_raw_tx; Load []] = ex_raw_tx.
Proof. split; [exact ids_differ|]. split; [|reflexivity]. intros [E|[E|[]]]; discriminate E. Qed.
