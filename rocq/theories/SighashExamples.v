(* Parameters used by the examples of PropertiesSighash. *)
From Verif Require Import Base WireModel WireSpec ScriptModel ScriptSpec SighashModel SighashSpec.
Local Open Scope N_scope.

Definition ex_ref (b : byte) : outpoint := {| op_digest := repeat b 32; op_index := 1 |}.
Definition ex_out (v : Z) : output := {| out_value := v; out_script := [x76; xa9] |}.
Definition ex_itx (outs : list output) : itx :=
  {| it_version := 2; it_inputs := [{| ii_ref := ex_ref x01; ii_seq := 7 |}; {| ii_ref := ex_ref x02; ii_seq := 8 |}];
     it_outputs := outs; it_locktime := 99 |}.
(* OP_CHECKSIG preceded by a separator *)
Definition ex_code : program := [op_instr OP_CODESEPARATOR; op_instr xac].
Definition ex_sdoc (index : N) (outs : list output) : sdoc :=
  {| sd_tx := ex_itx outs; sd_index := index; sd_value := 5000; sd_code := ex_code |}.
(* a 32-byte function standing in for Hash256 *)
Definition ex_hash (m : bytes) : bytes := firstn 32 (m ++ repeat x00 32).

Lemma ex_sdoc_wf i outs : seq_wf output_wf outs -> sdoc_wf (ex_sdoc i outs).
Proof.
  intros W. split; [|split].
  - split; [split; reflexivity || discriminate|]. split; [|split; [exact W|reflexivity]].
    split; [reflexivity|]. repeat constructor.
  - split; [discriminate|reflexivity].
  - exists [xab; xac], [[xab]; [xac]]. split; [|split; reflexivity]. repeat constructor; unfold is_inst; cbn; apply if_op; reflexivity.
Qed.
Lemma ex_outs_wf : seq_wf output_wf [ex_out 1; ex_out 2].
Proof. split; [reflexivity|]. repeat constructor; discriminate. Qed.
