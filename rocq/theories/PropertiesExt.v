(* Properties of extended transactions, amounts, fee rates and designs: C44, C45, C53, C79 - C81. *)
From Coq Require Import QArith.
From Verif Require Import Base WireModel WireSpec ScriptModel MachineModel SighashModel ExtModel ExtSpec ExtProofs ExtTight FeeProofs ExtExamples.
Local Open Scope N_scope.

(* C44 *)
Theorem C44_round_trip : forall t rest, xtx_wf t -> xtx_read (xtx_write t ++ rest) = Some (t, rest).
Proof. exact xtx_round_trip. Qed.
Print Assumptions C44_round_trip.
Theorem C44_sizes :
  (forall t, xtx_wf t -> xtx_bytes t = Some (xtx_write t) /\ len (xtx_write t) = xtx_size t) /\
  (forall i, xinput_wf i -> xinput_bytes i = Some (xinput_write i) /\ len (xinput_write i) = xinput_size i).
Proof. exact (conj xtx_bytes_exact xinput_bytes_exact). Qed.
Print Assumptions C44_sizes.
Theorem C44_written_form : forall t, xtx_wf t -> xtx_form xtx_marker t (xtx_write t).
Proof. exact xtx_write_form. Qed.
Print Assumptions C44_written_form.
(* the marker is not looked at *)
Theorem C44_reader_exact : forall b t rest,
  xtx_read b = Some (t, rest) <-> exists m c, len m = 6 /\ b = c ++ rest /\ xtx_form m t c.
Proof. exact xtx_reader_exact. Qed.
Print Assumptions C44_reader_exact.
Theorem C44_form_wf : forall m t c, xtx_form m t c -> xtx_wf t.
Proof. exact xtx_form_wf. Qed.
Print Assumptions C44_form_wf.
(* a reader of plain transactions sees one without inputs and outputs *)
Theorem C44_plain_reader : forall t rest, i32 (xt_version t) ->
  tx_read (xtx_write t ++ rest) =
    Some ({| tx_version := xt_version t; tx_inputs := []; tx_outputs := []; tx_locktime := 0xef000000 |},
          var_seq_write xinput_write (xt_inputs t) ++ var_seq_write output_write (xt_outputs t) ++ le 4 (xt_locktime t) ++ rest).
Proof. exact plain_reader. Qed.
Print Assumptions C44_plain_reader.
Example C44_example : xtx_wf ex_xtx /\ xtx_bytes ex_xtx <> None.
Proof. split; [exact ex_xtx_wf | discriminate]. Qed.

(* C45 *)
Theorem C45_size_exact : forall d scripts t, as_expected d scripts -> design_complete d scripts = Ret t ->
  design_size d + var_int_size (N.of_nat (length (ds_outputs d))) =
  tx_size (xtx_plain t) + var_int_size (N.of_nat (length (ds_inputs d))).
Proof. exact design_size_exact. Qed.
Print Assumptions C45_size_exact.
Theorem C45_size_refuted : exists d scripts t, as_expected d scripts /\ design_complete d scripts = Ret t /\ design_size d < tx_size (xtx_plain t).
Proof. exact size_refutes. Qed.
Print Assumptions C45_size_refuted.
(* the size of the extended form, which fee_rate of an extended transaction uses *)
Theorem C45_extended_size : forall t,
  xtx_size t = tx_size (xtx_plain t) + 6 + fold_left (fun s o => s + output_size o) (map xi_prevout (xt_inputs t)) 0.
Proof. exact xtx_size_plain. Qed.
Print Assumptions C45_extended_size.
Theorem C45_sums : forall ovf d scripts t, design_complete d scripts = Ret t ->
  xtx_spent ovf t = design_spent ovf d /\ xtx_sent ovf t = design_sent ovf d /\ xtx_fee ovf t = design_fee ovf d.
Proof. exact design_sums. Qed.
Print Assumptions C45_sums.
Example C45_example : as_expected (ex_design 2) ex_scripts /\ exists t, design_complete (ex_design 2) ex_scripts = Ret t /\ tx_size (xtx_plain t) = design_size (ex_design 2).
Proof. split; [apply ex_as_expected | eexists; split; [reflexivity | vm_compute; reflexivity]]. Qed.

(* C53 *)
Theorem C53_sums_exact : forall ovf t, modest t ->
  xtx_spent ovf t = total_in t /\ xtx_sent ovf t = total_out t /\ xtx_fee ovf t = (total_in t - total_out t)%Z.
Proof. exact sums_exact. Qed.
Print Assumptions C53_sums_exact.
Theorem C53_valid_balanced : forall ovf t, modest t -> xtx_valid ovf t = Ret true -> (total_out t <= total_in t)%Z.
Proof. exact valid_balanced. Qed.
Print Assumptions C53_valid_balanced.
Theorem C53_valid_exact : forall ovf t, xtx_valid ovf t = Ret true <->
  xt_inputs t <> [] /\ xt_outputs t <> [] /\ Forall (fun o => output_valid o = true) (xt_outputs t) /\ (xtx_sent ovf t <= xtx_spent ovf t)%Z /\
  (Forall xinput_good (xt_inputs t) \/ exists i, xt_inputs t = [i] /\ xinput_bad i /\ xinput_null i).
Proof. exact xtx_valid_exact. Qed.
Print Assumptions C53_valid_exact.
Example C53_example : modest ex_xtx /\ xtx_valid wrap64 ex_xtx = Ret true.
Proof. exact (conj ex_xtx_modest (ex_xtx_valid wrap64)). Qed.
(* with 4393 outputs of valid amounts, when sums wrap around *)
Theorem C53_overflow_refuted : exists t, xtx_valid wrap64 t = Ret true /\ (total_in t < total_out t)%Z /\
  Forall amount (map (fun i => out_value (xi_prevout i)) (xt_inputs t)) /\ Forall amount (map out_value (xt_outputs t)).
Proof. exact many_refutes. Qed.
Print Assumptions C53_overflow_refuted.
(* outputs of negative value are accepted if they cannot be spent, and pay for others *)
Theorem C53_negative_refuted : exists t, (forall ovf, xtx_valid ovf t = Ret true) /\ xtx_wf t /\
  exists o, In o (xt_outputs t) /\ (total_in t < out_value o)%Z.
Proof. exact negative_refutes. Qed.
Print Assumptions C53_negative_refuted.

(* C79 *)
Theorem C79_compare_exact : forall a b, comparable a b ->
  rate_compare a b = Some (Qcompare (rate_q a) (rate_q b)) /\ rate_eqb a b = Some (Qeq_bool (rate_q a) (rate_q b)).
Proof. exact compare_exact. Qed.
Print Assumptions C79_compare_exact.
Example C79_example : comparable (ex_rate 50 1000) (ex_rate 1 19) /\ rate_compare (ex_rate 50 1000) (ex_rate 1 19) = Some Lt.
Proof. split; [repeat (constructor; try easy) | reflexivity]. Qed.
Theorem C79_undefined_exact : forall a b, rt_bytes a < 2 ^ 63 -> rt_bytes b < 2 ^ 63 ->
  (rate_compare a b = None <-> ~ (i64 (rt_satoshis a * Z.of_N (rt_bytes b)) /\ i64 (rt_satoshis b * Z.of_N (rt_bytes a)))).
Proof. exact compare_undefined. Qed.
Print Assumptions C79_undefined_exact.
Example C79_undefined_ex : rate_compare (ex_rate 2099999999999999 1) (ex_rate 1 5000) = None.
Proof. reflexivity. Qed.
Theorem C79_default_exact : forall a, rate_compare rate_default a = Some Eq /\ rate_eqb rate_default a = Some true.
Proof. exact compare_default. Qed.
Print Assumptions C79_default_exact.
Theorem C79_transitive_refuted : exists a b c, rate_eqb a b = Some true /\ rate_eqb b c = Some true /\ rate_compare a c = Some Lt.
Proof. exact rate_default_refutes. Qed.
Print Assumptions C79_transitive_refuted.
Theorem C79_big_size_refuted : exists a b, rt_bytes a < 2 ^ 64 /\ Qlt (rate_q a) (rate_q b) /\ rate_compare a b = Some Gt.
Proof. exact rate_big_refutes. Qed.
Print Assumptions C79_big_size_refuted.

(* C80 *)
Theorem C80_fee_exact : forall v size, Z.abs_N (rt_satoshis v) * size < 2 ^ 53 -> 0 < rt_bytes v <= 2 ^ 53 ->
  exists z, calculate_fee v size = Ret z /\ least_above (rt_satoshis v) (Z.of_N size) (Z.of_N (rt_bytes v)) z.
Proof. exact fee_exact. Qed.
Print Assumptions C80_fee_exact.
Example C80_example : calculate_fee (ex_rate 50 1000) 226 = Ret 12%Z /\ calculate_fee (ex_rate 1 3) 9007199254740991 = Ret 3002399751580331%Z.
Proof. split; vm_compute; reflexivity. Qed.
Theorem C80_fee_zero : forall v size, rt_bytes v = 0 -> calculate_fee v size = Throw F_division_by_zero.
Proof. exact fee_zero. Qed.
Print Assumptions C80_fee_zero.
Theorem C80_fee_refuted : exists v size, rt_bytes v = 1 /\ (0 < rt_satoshis v)%Z /\
  exists z, calculate_fee v size = Ret z /\ (z < rt_satoshis v * Z.of_N size)%Z.
Proof. exact fee_wrong. Qed.
Print Assumptions C80_fee_refuted.

(* C81 *)
Theorem C81_complete : forall d scripts, length scripts = length (ds_inputs d) ->
  exists t, design_complete d scripts = Ret t /\
    itx_of (xtx_plain t) = design_incomplete d /\
    map xi_prevout (xt_inputs t) = map di_prevout (ds_inputs d) /\
    map (fun i => in_script (xi_input i)) (xt_inputs t) = scripts /\
    xt_outputs t = ds_outputs d.
Proof. exact complete_exact. Qed.
Print Assumptions C81_complete.
Theorem C81_complete_throws : forall d scripts, length scripts <> length (ds_inputs d) -> design_complete d scripts = Throw X_logic_error.
Proof. exact complete_throws. Qed.
Print Assumptions C81_complete_throws.
Example C81_example : length ex_scripts = length (ds_inputs (ex_design 2)).
Proof. reflexivity. Qed.
