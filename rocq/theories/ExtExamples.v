(* Sample data for the examples about extended transactions and fees. *)
From Verif Require Import Base BaseProofs WireModel WireSpec ScriptModel MachineModel SighashModel ExtModel ExtSpec.
Local Open Scope N_scope.

Definition ex_in (v : Z) : xinput :=
  {| xi_input := {| in_ref := {| op_digest := repeat x11 32; op_index := 1 |}; in_script := [x51]; in_seq := 0xffffffff |};
     xi_prevout := {| out_value := v; out_script := [x51] |} |}.
Definition ex_out (v : Z) : output := {| out_value := v; out_script := [x51] |}.
Definition ex_xtx : xtx :=
  {| xt_version := 2; xt_inputs := [ex_in 7000; ex_in 500]; xt_outputs := [ex_out 7000; ex_out 400]; xt_locktime := 5 |}.
Lemma ex_xtx_wf : xtx_wf ex_xtx.
Proof. repeat (constructor; try easy). Qed.
Lemma ex_xtx_modest : modest ex_xtx.
Proof. repeat (constructor; try easy). Qed.
Lemma ex_xtx_valid ovf : xtx_valid ovf ex_xtx = Ret true.
Proof. reflexivity. Qed.
(* outputs worth more than 64 bits *)
Definition ex_many : xtx :=
  {| xt_version := 2; xt_inputs := [ex_in 1]; xt_outputs := repeat (ex_out 2099999999999999) (N.to_nat 4393); xt_locktime := 0 |}.
Lemma ex_many_valid : xtx_valid wrap64 ex_many = Ret true /\ (total_in ex_many < total_out ex_many)%Z /\
  Forall amount (map (fun i => out_value (xi_prevout i)) (xt_inputs ex_many)) /\ Forall amount (map out_value (xt_outputs ex_many)).
Proof.
  split; [vm_compute; reflexivity | split; [vm_compute; reflexivity | split]].
  - repeat (constructor; try easy).
  - apply Forall_map. apply Forall_forall. intros o H. apply repeat_spec in H. subst o. split; [discriminate | reflexivity].
Qed.
(* an output of less than nothing pays for another *)
Definition ex_negative : xtx :=
  {| xt_version := 2; xt_inputs := [ex_in 1];
     xt_outputs := [ex_out 1000000; {| out_value := -999999; out_script := [x00; x6a] |}]; xt_locktime := 0 |}.
Lemma ex_negative_valid ovf : xtx_valid ovf ex_negative = Ret true.
Proof. reflexivity. Qed.
Lemma negative_refutes : exists t, (forall ovf, xtx_valid ovf t = Ret true) /\ xtx_wf t /\
  exists o, In o (xt_outputs t) /\ (total_in t < out_value o)%Z.
Proof.
  exists ex_negative. split; [exact ex_negative_valid | split; [repeat (constructor; try easy) |]].
  exists (ex_out 1000000). split; [left; reflexivity | reflexivity].
Qed.
Lemma many_refutes : exists t, xtx_valid wrap64 t = Ret true /\ (total_in t < total_out t)%Z /\
  Forall amount (map (fun i => out_value (xi_prevout i)) (xt_inputs t)) /\ Forall amount (map out_value (xt_outputs t)).
Proof. exists ex_many. exact ex_many_valid. Qed.

Definition ex_rate (s : Z) (b : N) : rate := {| rt_satoshis := s; rt_bytes := b |}.
Lemma rate_default_refutes : exists a b c, rate_eqb a b = Some true /\ rate_eqb b c = Some true /\ rate_compare a c = Some Lt.
Proof. exists (ex_rate 1 1), rate_default, (ex_rate 2 1). split; [reflexivity | split; reflexivity]. Qed.
Lemma rate_big_refutes : exists a b, rt_bytes a < 2 ^ 64 /\ QArith_base.Qlt (rate_q a) (rate_q b) /\ rate_compare a b = Some Gt.
Proof. exists (ex_rate 1 (2 ^ 63)), (ex_rate 1 1000). split; [reflexivity | split; reflexivity]. Qed.

Definition ex_design (n : nat) : design :=
  {| ds_version := 1; ds_inputs := [{| di_input := {| ii_ref := {| op_digest := repeat x11 32; op_index := 1 |}; ii_seq := 7 |};
                                       di_prevout := ex_out 5000; di_expected := 3 |}];
     ds_outputs := repeat (ex_out 10) n; ds_locktime := 0 |}.
Definition ex_scripts : list bytes := [[x51; x52; x53]].
Lemma ex_as_expected n : as_expected (ex_design n) ex_scripts.
Proof. constructor; [reflexivity | constructor]. Qed.
Lemma size_refutes : exists d scripts t, as_expected d scripts /\ design_complete d scripts = Ret t /\ design_size d < tx_size (xtx_plain t).
Proof.
  exists (ex_design 253), ex_scripts. eexists. split; [apply ex_as_expected | split; [reflexivity |]]. vm_compute. reflexivity.
Qed.
