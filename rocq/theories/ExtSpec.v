(* What extended transactions, fee rates and designs should be. *)
From Coq Require Import QArith.
From Verif Require Import Base WireModel WireSpec ScriptModel MachineModel SighashModel ExtModel.
Local Open Scope N_scope.

(* ---- the format: version, six bytes, inputs each followed by the output it spends, outputs, lock time *)
Definition xinput_wf (i : xinput) : Prop := input_wf (xi_input i) /\ output_wf (xi_prevout i).
Definition xtx_wf (t : xtx) : Prop :=
  i32 (xt_version t) /\ seq_wf xinput_wf (xt_inputs t) /\ seq_wf output_wf (xt_outputs t) /\ u32 (xt_locktime t).
Inductive xinput_form (i : xinput) : bytes -> Prop :=
| xinf a p : input_form (xi_input i) a -> output_form (xi_prevout i) p -> xinput_form i (a ++ p).
Inductive xtx_form (marker : bytes) (t : xtx) : bytes -> Prop :=
| xtf v i o l : sle_form 4 (xt_version t) v -> seq_form xinput_form (xt_inputs t) i ->
    seq_form output_form (xt_outputs t) o -> le_form 4 (xt_locktime t) l ->
    xtx_form marker t (v ++ marker ++ i ++ o ++ l).

(* ---- amounts *)
Fixpoint total (l : list Z) : Z := match l with [] => 0%Z | x :: r => (x + total r)%Z end.
Definition total_in (t : xtx) : Z := total (map (fun i => out_value (xi_prevout i)) (xt_inputs t)).
Definition total_out (t : xtx) : Z := total (map out_value (xt_outputs t)).
(* satoshi::valid *)
Definition amount (z : Z) : Prop := (0 <= z < 2100000000000000)%Z.
(* all amounts are valid and there are not too many of them *)
Definition modest (t : xtx) : Prop :=
  Forall amount (map (fun i => out_value (xi_prevout i)) (xt_inputs t)) /\ Forall amount (map out_value (xt_outputs t)) /\
  N.of_nat (length (xt_inputs t)) <= 4392 /\ N.of_nat (length (xt_outputs t)) <= 4392.

(* ---- rates *)
Definition rate_q (a : rate) : Q := rt_satoshis a # N.succ_pos (rt_bytes a - 1).
Definition comparable (a b : rate) : Prop :=
  0 < rt_bytes a < 2 ^ 63 /\ 0 < rt_bytes b < 2 ^ 63 /\
  i64 (rt_satoshis a * Z.of_N (rt_bytes b)) /\ i64 (rt_satoshis b * Z.of_N (rt_bytes a)).
(* the least integer that is not less than a * b / c *)
Definition least_above (a b c z : Z) : Prop := (a * b <= z * c /\ (z - 1) * c < a * b)%Z.

(* ---- designs *)
(* scripts of the sizes that were expected *)
Definition as_expected (d : design) (scripts : list bytes) : Prop := Forall2 (fun i s => len s = di_expected i) (ds_inputs d) scripts.

(* ---- validity *)
Definition xinput_good (i : xinput) : Prop := input_valid (xi_input i) = Ret true /\ output_valid (xi_prevout i) = true.
Definition xinput_bad (i : xinput) : Prop :=
  input_valid (xi_input i) = Ret false \/ (input_valid (xi_input i) = Ret true /\ output_valid (xi_prevout i) = false).
(* the input of a coinbase, which spends nothing *)
Definition xinput_null (i : xinput) : Prop := in_ref (xi_input i) = outpoint_zero /\ out_script (xi_prevout i) = [].
