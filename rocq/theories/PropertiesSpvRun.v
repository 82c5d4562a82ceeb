(* C113, C114: payments from the keys to the check by the receiver, with the interpreter. *)
From Verif Require Import Base WireModel WireSpec TextModel SecpModel SecpSpec ScriptModel ScriptSpec StackModel StackSpec MachineModel MachineSpec.
From Verif Require Import PatternModel PatternSpec SighashModel SighashSpec ExtModel StraightSpec PayRunSpec RedeemModel RedeemSpec RedeemExamples.
From Verif Require Import MerkleModel WorkModel BeefModel SpvModel AncModel AncSpec SpvRunModel SpvRunSpec SpvRunProofs SpvRunExamples.
Local Open Scope N_scope.

(* C113: a design whose inputs have their keys, when it is redeemed, can be proved to the receiver, who accepts it. The outputs spent may
   be from before genesis or after. *)
Theorem C113_accepted : forall w X, sound w -> machine_of w X -> forall look ovf known upgrade unset keep f d t,
  itx_wf (design_incomplete (design_of d)) -> N.of_nat (length (rd_inputs d)) <= 2 ^ 32 -> Forall (from_wallet w look) (rd_inputs d) -> design_funded ovf d ->
  redeem (by_default w) d = Ret t -> look_mined look (w_hash w) known -> limit_gt upgrade unset = false -> ranked look f ->
  dbtx_confirmed (look (tx_id (w_hash w) (xtx_plain t))) = false -> known_inputs look [xtx_plain t] -> ancestors_ok w X look ovf upgrade (xtx_plain t) ->
  exists p, generate_proof keep look (w_hash w) f [xtx_plain t] = Done (Some p) /\ ap_payment p = [xtx_plain t] /\
    validate (w_hash w) ovf (script_passes w X) known unset upgrade p = Done true.
Proof. exact payment_accepted. Qed.
Print Assumptions C113_accepted.
Example C113_example : let w := ex_world ex_verify in exists t, redeem (by_default w) ex_redeemable = Ret t /\
  sound w /\ machine_of w ex_machine /\ itx_wf (design_incomplete (design_of ex_redeemable)) /\ N.of_nat (length (rd_inputs ex_redeemable)) <= 2 ^ 32 /\
  Forall (from_wallet w ex_wallet) (rd_inputs ex_redeemable) /\ design_funded wrap64 ex_redeemable /\ look_mined ex_wallet (w_hash w) ex_one_root /\ ranked ex_wallet 1 /\
  dbtx_confirmed (ex_wallet (tx_id (w_hash w) (xtx_plain t))) = false /\ known_inputs ex_wallet [xtx_plain t] /\ ancestors_ok w ex_machine ex_wallet wrap64 (At 500) (xtx_plain t).
Proof. exact payment_example. Qed.
Example C113_runs : exists p, generate_proof true ex_wallet (ex_cut 32) 1 [ex_payment] = Done (Some p) /\
  validate (ex_cut 32) wrap64 (script_passes (ex_world ex_verify) ex_machine) ex_one_root NegInf (At 500) p = Done true /\
  validate (ex_cut 32) wrap64 (script_passes (ex_world ex_verify) ex_machine) ex_one_root PosInf (At 2000) p = Done true.
Proof. exact payment_runs. Qed.
(* scripts pass exactly when the evaluation gives true by the rules of the time *)
Theorem C113_scripts : forall w X before ux lx t i v, script_passes w X before ux lx t i v = true <->
  StraightSpec.spends X (redeeming w (c_flags (rules before)) t i v) (rules before) (w_neg1 w) ux lx.
Proof. exact passes_exact. Qed.
Print Assumptions C113_scripts.

(* Scripts run under the rules from before genesis, or under those after it with the limits of a node's policy. *)
Theorem C113_rules : rules true = {| c_flags := pre_genesis_profile; c_max_ops := 500; c_max_keys := 20; c_max_memory := 2 ^ 63 - 1; c_max_num := 4 |} /\
  rules false = {| c_flags := genesis_profile; c_max_ops := 2 ^ 32 - 1; c_max_keys := 2 ^ 32 - 1; c_max_memory := 2 ^ 63 - 1; c_max_num := 250000 |}.
Proof. exact rules_exact. Qed.
Print Assumptions C113_rules.

(* C114: what is accepted spends outputs of genuine transactions, and those to an address, unless they are from before genesis, with a
   signature that a key of the address made for this. *)
Theorem C114_authorised : forall w X, sound w -> machine_of w X -> forall ovf known upgrade unset p,
  well_keyed (w_hash w) (ap_map p) -> ~ confused (w_hash w) (ap_map p) -> limit_gt upgrade unset = false ->
  validate (w_hash w) ovf (script_passes w X) known unset upgrade p = Done true ->
  forall t n i, In t (ap_payment p) -> nth_error (tx_inputs t) n = Some i -> itx_wf (itx_of t) -> N.of_nat (length (tx_inputs t)) <= 2 ^ 32 -> 70 * len (in_script i) + 220 < 2 ^ 31 ->
  exists a time o, tx_id (w_hash w) a = op_digest (in_ref i) /\ genuine (w_hash w) ovf (script_passes w X) known upgrade a time /\
    at_index (tx_outputs a) (op_index (in_ref i)) = Some o /\ (limit_gt upgrade time = false -> authorised w t n o).
Proof. exact accepted_authorised. Qed.
Print Assumptions C114_authorised.
Example C114_example : sound ex_once /\ machine_of ex_once ex_machine /\ well_keyed (w_hash ex_once) (ap_map ex_once_proof) /\ ~ confused (w_hash ex_once) (ap_map ex_once_proof) /\
  validate (w_hash ex_once) wrap64 (script_passes ex_once ex_machine) ex_one_root NegInf (At 500) ex_once_proof = Done true /\ itx_wf (itx_of ex_once_tx) /\
  p2a_script ex_address = Some ex_address_script /\ sdoc_wf ex_signed_doc /\ signed_only ex_once ex_address [(ex_signed_doc, ex_loose)] /\ collision_free ex_once ex_once_doc [(ex_signed_doc, ex_loose)].
Proof. exact authorised_example. Qed.
(* By the rules from before genesis outputs are spent without any signature: the receiver accepts a payment that takes any of them. *)
Theorem C114_before_refuted : forall w X, sound w -> forall ovf known upgrade unset a c k o t,
  limit_gt upgrade unset = false -> mined (w_hash w) known a c -> limit_gt upgrade (At (h_timestamp (c_header c))) = true ->
  at_index (tx_outputs a) k = Some o -> plain_lock (out_script o) -> takes w t a k -> funded ovf t [o] ->
  validate (w_hash w) ovf (script_passes w X) known unset upgrade (mkaproof [t] [(tx_id (w_hash w) a, Some (mkanode a (Confirmed c)))]) = Done true.
Proof. exact before_taken. Qed.
Print Assumptions C114_before_refuted.
Theorem C114_before_address : forall a lx, len a = 20 -> p2a_script a = Some lx -> plain_lock lx.
Proof. exact address_plain. Qed.
Print Assumptions C114_before_address.
Example C114_before_example : let w := ex_world ex_verify in sound w /\ machine_of w ex_machine /\ mined (w_hash w) ex_one_root ex_paid ex_paid_conf /\ limit_gt (At 2000) (At 1000) = true /\
  at_index (tx_outputs ex_paid) 0 = Some {| out_value := 1000; out_script := ex_address_script |} /\ plain_lock ex_address_script /\ takes w ex_thief ex_paid 0 /\
  funded wrap64 ex_thief [{| out_value := 1000; out_script := ex_address_script |}] /\
  validate (w_hash w) wrap64 (script_passes w ex_machine) ex_one_root PosInf (At 2000) (mkaproof [ex_thief] [(ex_paid_id, Some (mkanode ex_paid (Confirmed ex_paid_conf)))]) = Done true.
Proof. exact before_example. Qed.
