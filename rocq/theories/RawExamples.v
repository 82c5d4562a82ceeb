(* Small values for the examples of PropertiesRaw, and facts about the genesis block. *)
From Coq Require Import String.
From Verif Require Import Base BaseProofs WireModel WireSpec WireProofs ScriptModel MerkleModel MerkleSpec WorkModel SighashModel
  TextModel Sha256Spec RawModel RawSpec RawProofs.
Local Open Scope N_scope.

Definition ex_raw_output : output := {| out_value := 5000; out_script := [x76; xa9; xac] |}.
Definition ex_raw_input : input :=
  {| in_ref := {| op_digest := repeat x07 32; op_index := 1 |}; in_script := [x51; x52]; in_seq := 9 |}.
Definition ex_raw_tx : tx :=
  {| tx_version := 1; tx_inputs := [ex_raw_input]; tx_outputs := [ex_raw_output]; tx_locktime := 0 |}.
(* the same input and transaction, with the count of the script in three bytes *)
Definition ex_loose_input : bytes := repeat x07 32 ++ [x01; x00; x00; x00; xfd; x02; x00; x51; x52; x09; x00; x00; x00].
Definition ex_loose_tx : bytes :=
  [x01; x00; x00; x00; x01] ++ ex_loose_input ++ [x01] ++ output_write ex_raw_output ++ [x00; x00; x00; x00].

Lemma ex_raw_form : output_form ex_raw_output (output_write ex_raw_output).
Proof. apply (parses_write _ _ _ _ parses_output codec_output). split; [split; reflexivity || discriminate|reflexivity]. Qed.

Lemma ex_loose_form : input_form ex_raw_input ex_loose_input.
Proof.
  assert (E : input_read (ex_loose_input ++ []) = Some (ex_raw_input, [])) by reflexivity.
  apply parses_input in E as (c & E & F). rewrite !app_nil_r in E. subst c. exact F.
Qed.
Lemma ex_loose_tx_form : tx_form ex_raw_tx ex_loose_tx.
Proof.
  assert (E : tx_read (ex_loose_tx ++ []) = Some (ex_raw_tx, [])) by reflexivity.
  apply parses_tx in E as (c & E & F). rewrite !app_nil_r in E. subst c. exact F.
Qed.
Lemma loose_refuted : tx_form ex_raw_tx ex_loose_tx /\ version_scannable (tx_version ex_raw_tx) /\ nth_error (tx_inputs ex_raw_tx) 0 = Some ex_raw_input /\
  exists s, tx_input_slice ex_loose_tx 0 = Ret s /\ input_of_slice s = input_default.
Proof.
  split; [exact ex_loose_tx_form|]. split; [left; reflexivity|]. split; [reflexivity|].
  eexists. split; [vm_compute; reflexivity|]. vm_compute. reflexivity.
Qed.
Lemma ex_loose : ~ tight_count ex_raw_input ex_loose_input.
Proof. unfold tight_count. vm_compute. discriminate. Qed.

(* a coinbase whose script is not a program: a push of four bytes with three left *)
Definition ex_coinbase : tx :=
  {| tx_version := 1;
     tx_inputs := [{| in_ref := outpoint_coinbase; in_script := [x04; x01; x02; x03]; in_seq := 0xffffffff |}];
     tx_outputs := [{| out_value := 5000000000; out_script := [xac] |}]; tx_locktime := 0 |}.
Lemma ex_is_coinbase : is_coinbase ex_coinbase.
Proof. eexists. split; [reflexivity|]. split; [reflexivity|]. split; vm_compute; discriminate. Qed.
Lemma ex_coinbase_outputs : tx_outputs ex_coinbase <> [].
Proof. discriminate. Qed.
Lemma ex_coinbase_outputs_valid : Forall (fun o => output_valid o = true) (tx_outputs ex_coinbase).
Proof. constructor; [reflexivity|constructor]. Qed.
Lemma ex_coinbase_throws : exists e, tx_valid ex_coinbase = Throw e.
Proof. eexists. vm_compute. reflexivity. Qed.

(* ---- the genesis block ---- *)
Lemma genesis_is : genesis = Some genesis_block.
Proof. vm_compute. reflexivity. Qed.
Lemma genesis_whole : exists raw, hex_read genesis_text = Some raw /\ len raw = 285 /\ block_write genesis_block = raw /\ block_form genesis_block raw.
Proof.
  eexists. split; [vm_compute; reflexivity|]. split; [vm_compute; reflexivity|]. split; [vm_compute; reflexivity|].
  match goal with |- block_form _ ?r => assert (E : block_read (r ++ []) = Some (genesis_block, [])) by (vm_compute; reflexivity) end.
  apply parses_block in E as (c & E & F). rewrite !app_nil_r in E. rewrite E. exact F.
Qed.
Lemma genesis_hash : hex_write (rev (sha256d (header_write (bl_header genesis_block)))) = genesis_hash_text.
Proof. vm_compute. reflexivity. Qed.
Lemma genesis_valid : block_valid sha256d genesis_block = Ret true.
Proof. vm_compute. reflexivity. Qed.
Lemma genesis_root : txs_root sha256d (bl_txs genesis_block) = Some (h_merkle_root (bl_header genesis_block)).
Proof. vm_compute. reflexivity. Qed.
Lemma genesis_coinbase : is_coinbase genesis_tx.
Proof. eexists. split; [reflexivity|]. split; [reflexivity|]. split; vm_compute; discriminate. Qed.
Lemma genesis_work : le_val (sha256d (header_write (bl_header genesis_block))) < 0xffff * 2 ^ 208 /\
  expand (h_target (bl_header genesis_block)) = 0xffff * 2 ^ 208.
Proof. split; vm_compute; reflexivity. Qed.

Lemma genesis_without : block_valid sha256d {| bl_header := bl_header genesis_block; bl_txs := [] |} = Ret true /\
  block_valid sha256d {| bl_header := bl_header genesis_block; bl_txs := [genesis_tx; genesis_tx; ex_raw_tx] |} = Ret true /\
  txs_root sha256d [genesis_tx; genesis_tx; ex_raw_tx] <> Some (h_merkle_root (bl_header genesis_block)).
Proof.
  split; [vm_compute; reflexivity|]. split; [vm_compute; reflexivity|]. intros E.
  assert (K : match txs_root sha256d [genesis_tx; genesis_tx; ex_raw_tx] with Some d => bytes_eqb d (h_merkle_root (bl_header genesis_block)) | None => false end = false) by (vm_compute; reflexivity).
  rewrite E in K. rewrite (proj2 (bytes_eqb_eq _ _) eq_refl) in K. discriminate K.
Qed.
Lemma genesis_throws : exists e, block_valid sha256d {| bl_header := bl_header genesis_block; bl_txs := [ex_coinbase] |} = Throw e.
Proof. eexists. vm_compute. reflexivity. Qed.
Lemma ids_differ : sha256d (tx_write genesis_tx) <> sha256d (tx_write ex_raw_tx).
Proof.
  intros E. assert (K : bytes_eqb (sha256d (tx_write genesis_tx)) (sha256d (tx_write ex_raw_tx)) = false) by (vm_compute; reflexivity).
  rewrite E in K. rewrite (proj2 (bytes_eqb_eq _ _) eq_refl) in K. discriminate K.
Qed.
