(* C01 - C07 and C54: wire formats. *)
From Verif Require Import Base WireModel WireSpec WireProofs.
Local Open Scope N_scope.

(* C01 *)
Theorem C01_var_int_round_trip : forall n rest, n < 2 ^ 64 ->
  var_int_read (var_int_write n ++ rest) = Some (n, rest) /\
  N.of_nat (length (var_int_write n)) = var_int_size n /\
  (forall c, count_form n c -> (length (var_int_write n) <= length c)%nat /\
     (length (var_int_write n) = length c -> c = var_int_write n)).
Proof. exact var_int_round_trip. Qed.
Print Assumptions C01_var_int_round_trip.
Example C01_example : 70000 < 2 ^ 64 /\ var_int_write 70000 = [xfe; x70; x11; x01; x00] /\
  var_int_read [xfe; x70; x11; x01; x00; x07] = Some (70000, [x07]).
Proof. repeat split. Qed.

(* C02 *)
Theorem C02_var_int_reader : forall b n rest,
  (var_int_read b = Some (n, rest) <-> exists c, b = c ++ rest /\ count_form n c) /\
  (forall c, count_form n c -> n < 2 ^ 64 /\ In (length c) [1; 3; 5; 9]%nat /\
     (var_int_write n = c <-> N.of_nat (length c) = var_int_size n)).
Proof. exact var_int_read_exact. Qed.
Print Assumptions C02_var_int_reader.
(* a non-minimal form of 5 is accepted *)
Example C02_example : count_form 5 [xfd; x05; x00] /\ var_int_read [xfd; x05; x00; x09] = Some (5, [x09]) /\
  var_int_write 5 <> [xfd; x05; x00].
Proof. repeat split; [constructor; repeat split | discriminate]. Qed.

(* C03 *)
Theorem C03_transaction_round_trip : forall t rest, tx_wf t -> tx_read (tx_write t ++ rest) = Some (t, rest).
Proof. exact tx_round_trip. Qed.
Print Assumptions C03_transaction_round_trip.
Theorem C03_transaction_bytes_injective : forall t t', tx_wf t -> tx_wf t' -> tx_write t = tx_write t' -> t = t'.
Proof. exact tx_inj. Qed.
Print Assumptions C03_transaction_bytes_injective.
Theorem C03_transaction_slice_round_trip : forall t, tx_wf t ->
  exists b, tx_bytes t = Some b /\ tx_of_slice b = t /\ tx_form t b.
Proof. exact tx_slice_round_trip. Qed.
Print Assumptions C03_transaction_slice_round_trip.

Definition example_tx : tx :=
  {| tx_version := 2;
     tx_inputs := [{| in_ref := {| op_digest := repeat x11 32; op_index := 1 |}; in_script := [x01; x02]; in_seq := 0xffffffff |};
                   {| in_ref := {| op_digest := repeat x22 32; op_index := 0 |}; in_script := []; in_seq := 7 |}];
     tx_outputs := [{| out_value := 5000; out_script := [x76; xa9] |}; {| out_value := -1; out_script := [] |}];
     tx_locktime := 500000 |}.
Definition example_header : header :=
  {| h_version := 2; h_previous := repeat x00 32; h_merkle_root := repeat x33 32;
     h_timestamp := 1231006505; h_target := 486604799; h_nonce := 2083236893 |}.
Definition example_block : block := {| bl_header := example_header; bl_txs := [example_tx; example_tx] |}.
Example C03_example : tx_wf example_tx.
Proof. repeat (constructor; try easy). Qed.
Example C06_example : header_wf example_header /\ block_wf example_block.
Proof. repeat (constructor; try easy). Qed.

(* C04 *)
Theorem C04_serialized_sizes :
  (forall i, input_wf i -> input_bytes i = Some (input_write i) /\ len (input_write i) = input_size i) /\
  (forall o, output_bytes o = Some (output_write o) /\ len (output_write o) = output_size o) /\
  (forall t, tx_wf t -> tx_bytes t = Some (tx_write t) /\ len (tx_write t) = tx_size t) /\
  (forall b, block_wf b -> len (block_write b) = block_size b) /\
  (forall n, len (var_int_write n) = var_int_size n) /\
  (forall s, len (var_string_write s) = var_string_size (len s)) /\
  (forall X (w : X -> bytes) size l, (forall x, In x l -> len (w x) = size x) ->
      len (var_seq_write w l) = var_seq_size size l).
Proof. exact sizes_exact. Qed.
Print Assumptions C04_serialized_sizes.
Example C04_example : tx_size example_tx = 114 /\ len (tx_write example_tx) = 114.
Proof. repeat split. Qed.

(* C05: every cut of every byte string that denotes a transaction / header / block *)
Theorem C05_truncated_transaction : forall t p s, tx_form t (p ++ s) -> s <> [] ->
  tx_read p = None /\ tx_of_slice p = tx_default.
Proof. exact truncated_tx. Qed.
Print Assumptions C05_truncated_transaction.
Theorem C05_truncated_header : forall h p s, header_form h (p ++ s) -> s <> [] -> header_read p = None.
Proof. exact truncated_header. Qed.
Print Assumptions C05_truncated_header.
Theorem C05_truncated_block : forall b p s, block_form b (p ++ s) -> s <> [] -> block_read p = None.
Proof. exact truncated_block. Qed.
Print Assumptions C05_truncated_block.
Example C05_example : exists p s, tx_form example_tx (p ++ s) /\ s <> [] /\ length p = 60%nat.
Proof.
  exists (firstn 60 (tx_write example_tx)), (skipn 60 (tx_write example_tx)). split; [|split; [discriminate|reflexivity]].
  rewrite firstn_skipn. apply (parses_write _ _ _ _ parses_tx codec_tx), C03_example.
Qed.

(* C06 *)
Theorem C06_header_layout : forall h rest, header_wf h ->
  length (header_write h) = 80%nat /\ header_form h (header_write h) /\
  header_of_slice (header_write h) = h /\ header_read (header_write h ++ rest) = Some (h, rest) /\
  (forall h', header_wf h' -> header_write h' = header_write h -> h' = h).
Proof. exact header_layout. Qed.
Print Assumptions C06_header_layout.
Theorem C06_every_80_bytes_are_a_header : forall x, length x = 80%nat ->
  header_wf (header_of_slice x) /\ header_write (header_of_slice x) = x.
Proof. exact header_slice_total. Qed.
Print Assumptions C06_every_80_bytes_are_a_header.
Theorem C06_block_round_trip : forall b rest, block_wf b ->
  block_read (block_write b ++ rest) = Some (b, rest) /\ block_form b (block_write b) /\
  (forall b', block_wf b' -> block_write b' = block_write b -> b' = b).
Proof. exact block_round_trip. Qed.
Print Assumptions C06_block_round_trip.

(* C07 *)
Theorem C07_transaction_reader_exact : forall b t rest,
  tx_read b = Some (t, rest) <-> exists c, b = c ++ rest /\ tx_form t c.
Proof. exact tx_reader_exact. Qed.
Print Assumptions C07_transaction_reader_exact.
Theorem C07_transaction_rewrite : forall t c, tx_form t c ->
  tx_wf t /\ (length (tx_write t) <= length c)%nat /\ (tx_write t = c <-> length c = length (tx_write t)).
Proof. exact tx_form_shortest. Qed.
Print Assumptions C07_transaction_rewrite.
Theorem C07_block_reader_exact : forall b t rest,
  block_read b = Some (t, rest) <-> exists c, b = c ++ rest /\ block_form t c.
Proof. exact block_reader_exact. Qed.
Print Assumptions C07_block_reader_exact.
Theorem C07_block_rewrite : forall t c, block_form t c ->
  block_wf t /\ (length (block_write t) <= length c)%nat /\ (block_write t = c <-> length c = length (block_write t)).
Proof. exact block_form_shortest. Qed.
Print Assumptions C07_block_rewrite.
(* a byte string with a padded input count: read, but re-written shorter *)
Example C07_example : let c := le 4 1 ++ [xfd; x00; x00] ++ [x00] ++ le 4 0 in
  exists t, tx_read c = Some (t, []) /\ length (tx_write t) = 10%nat /\ length c = 12%nat.
Proof. cbn zeta. eexists. repeat split. Qed.

(* C54 *)
Theorem C54_input_slice : forall t k i rest, tx_wf t -> version_scannable (tx_version t) ->
  Forall (fun i => len (input_write i) < 2 ^ 64) (tx_inputs t) ->
  nth_error (tx_inputs t) (N.to_nat k) = Some i ->
  tx_input_slice (tx_write t ++ rest) k = Ret (input_write i).
Proof. exact tx_input_slice_spec. Qed.
Print Assumptions C54_input_slice.
Theorem C54_input_slice_out_of_range : forall t k rest, tx_wf t ->
  N.of_nat (length (tx_inputs t)) <= k -> tx_input_slice (tx_write t ++ rest) k = Ret [].
Proof. exact tx_input_slice_out_of_range. Qed.
Print Assumptions C54_input_slice_out_of_range.
Theorem C54_output_slice_is_undefined : forall t k rest, tx_wf t -> version_scannable (tx_version t) ->
  tx_output_slice (tx_write t ++ rest) k = Undef.
Proof. exact tx_output_slice_undef. Qed.
Print Assumptions C54_output_slice_is_undefined.
Theorem C54_block_transaction_slices : forall b rest, block_wf b ->
  block_transactions (block_write b ++ rest) = Some (map tx_write (bl_txs b)).
Proof. exact block_transactions_spec. Qed.
Print Assumptions C54_block_transaction_slices.
Example C54_example : version_scannable (tx_version example_tx) /\
  tx_input_slice (tx_write example_tx) 1 = Ret (input_write (nth 1 (tx_inputs example_tx) (nth 0 (tx_inputs example_tx) {| in_ref := {| op_digest := []; op_index := 0 |}; in_script := []; in_seq := 0 |}))).
Proof. split; [right; reflexivity | vm_compute; reflexivity]. Qed.
(* the scanner fails on versions other than 1 and 2-with-ASICBoost bits *)
Example C54_version_3 : forall k, tx_input_slice (tx_write {| tx_version := 3; tx_inputs := tx_inputs example_tx;
   tx_outputs := tx_outputs example_tx; tx_locktime := 0 |}) k = Ret [].
Proof. intros k. reflexivity. Qed.
