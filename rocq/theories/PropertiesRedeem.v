From Coq Require Import Lia ZifyBool ZifyNat ZifyN.
From Verif Require Import Base WireModel WireSpec TextModel SecpModel SecpSpec SecpExamples ScriptModel ScriptSpec StackModel StackSpec MachineModel MachineSpec.
From Verif Require Import PatternModel PatternSpec SighashModel SighashSpec ExtModel StraightSpec PayRunSpec RedeemModel RedeemSpec RedeemProofs RedeemExamples.
Local Open Scope N_scope.

(* C99: a design whose inputs have their keys is completed to a transaction, all inputs of which can be spent *)
Theorem C99_redeemed_spends : forall w X cf, sound w -> machine_of w X -> c_max_memory cf < 2 ^ 63 ->
  forall d, itx_wf (design_incomplete (design_of d)) -> N.of_nat (length (rd_inputs d)) <= 2 ^ 32 -> enough cf 508 5 ->
  Forall (fun i => exists x e, ready w (c_flags cf) i x e) (rd_inputs d) ->
  exists t, redeem (by_default w) d = Ret t /\ itx_of (xtx_plain t) = design_incomplete (design_of d) /\
    map xi_prevout (xt_inputs t) = map (fun i => di_prevout (ri_input i)) (rd_inputs d) /\ all_spend w X cf t.
Proof. exact redeemed_spends. Qed.
Print Assumptions C99_redeemed_spends.
Example C99_redeemed_spends_example : let w := ex_world ex_verify in
  sound w /\ machine_of w ex_machine /\ c_max_memory ex_redeem_config < 2 ^ 63 /\ itx_wf (design_incomplete (design_of ex_redeemable)) /\
  length (rd_inputs ex_redeemable) = 2%nat /\ enough ex_redeem_config 508 5 /\
  Forall (fun i => exists x e, ready w (c_flags ex_redeem_config) i x e) (rd_inputs ex_redeemable).
Proof.
  split; [apply ex_world_sound | split; [apply ex_machine_of | split; [apply ex_enough | split; [exact ex_redeemable_wf |]]]].
  split; [reflexivity | split; [apply ex_enough | exact ex_redeemable_ready]].
Qed.

(* what is completed with any redeemer, and nothing else *)
Theorem C99_redeem_exact : forall r d t, N.of_nat (length (rd_inputs d)) <= 2 ^ 32 -> (redeem r d = Ret t <-> redeemed_to r d t).
Proof. exact redeem_exact. Qed.
Print Assumptions C99_redeem_exact.
Theorem C99_as_designed : forall r d t, redeemed_to r d t ->
  itx_of (xtx_plain t) = design_incomplete (design_of d) /\
  map xi_prevout (xt_inputs t) = map (fun i => di_prevout (ri_input i)) (rd_inputs d).
Proof. exact redeemed_incomplete. Qed.
Print Assumptions C99_as_designed.
Example C99_redeem_exact_example : exists t, redeemed_to (by_default (ex_world ex_verify)) ex_redeemable t /\
  map (fun i => len (in_script (xi_input i))) (xt_inputs t) = [100; 66].
Proof.
  eexists. split; [apply redeem_exact; [vm_compute; discriminate | vm_compute; reflexivity] | vm_compute; reflexivity].
Qed.

(* the code that is signed: what follows the last separator *)
Theorem C99_last_separator : forall p s, segments p s -> len (concat s) < 2 ^ 31 ->
  exists j, after_last_separator p (length p) j /\ remove_after_last_code_separator (concat s) = decompile (concat (skipn j s)).
Proof. exact last_separator. Qed.
Print Assumptions C99_last_separator.
Theorem C99_script_signed : forall so_far lx p s, whole_script so_far -> segments p s -> lx = concat s -> len lx < 2 ^ 30 ->
  (forall o, In o (ops p) -> o <> OP_CODESEPARATOR) ->
  remove_after_last_code_separator (so_far ++ [OP_CODESEPARATOR] ++ lx) = decompile lx.
Proof. exact separator_script. Qed.
Print Assumptions C99_script_signed.
Example C99_script_signed_example :
  remove_after_last_code_separator ([x01; xab; xab; x51] ++ [OP_CODESEPARATOR] ++ [x01; xab; x87]) = decompile [x01; xab; x87] /\
  remove_after_last_code_separator [x51; xab; x52; xab; x53] = decompile [x53].
Proof. split; vm_compute; reflexivity. Qed.

(* what the default redeemer gives: a signature in the form that the output asks for, and otherwise an empty script *)
Theorem C99_default : forall w, sound w -> forall out doc x d so_far form,
  is_secret (s_value x) -> secret_valid x = true -> sdoc_wf doc -> asks w out x form ->
  exists h, signature_hash (w_hash w) doc d = Some h /\
    by_default w out doc [{| so_key := x; so_directive := d |}] so_far = compiled (form (w_sign w (s_value x) h ++ [d])).
Proof. exact default_asked. Qed.
Print Assumptions C99_default.
Theorem C99_default_nothing : forall w, sound w -> forall out doc x d so_far,
  is_secret (s_value x) -> secret_valid x = true -> sdoc_wf doc -> (forall form, ~ asks w out x form) ->
  (legible (out_script out) -> by_default w out doc [{| so_key := x; so_directive := d |}] so_far = Ret []) /\
  (~ legible (out_script out) -> forall s, by_default w out doc [{| so_key := x; so_directive := d |}] so_far <> Ret s).
Proof. exact default_not_asked. Qed.
Print Assumptions C99_default_nothing.
Theorem C99_default_no_key : forall w out doc sigs so_far,
  length sigs <> 1%nat \/ (exists s, sigs = [s] /\ secret_valid (so_key s) = false) -> by_default w out doc sigs so_far = Ret [].
Proof. exact default_no_key. Qed.
Print Assumptions C99_default_no_key.
Example C99_default_example : exists form, is_secret ex_secret /\ secret_valid (ex_key ex_secret) = true /\ sdoc_wf ex_signed_doc /\
  asks (ex_world ex_verify) {| out_value := 1000; out_script := ex_address_script |} (ex_key ex_secret) form.
Proof.
  eexists. split; [exact ex_secret_ok | split; [reflexivity | split; [exact ex_signed_wf |]]].
  apply asks_address; [| vm_compute; discriminate]. exact ex_pays.
Qed.

(* the program does not notice that it has no key for an input: the transaction that it gives cannot be used *)
Theorem C99_silent_refuted : ~ forall w X cf, sound w -> machine_of w X -> c_max_memory cf < 2 ^ 63 -> enough cf 508 5 ->
  forall d t, itx_wf (design_incomplete (design_of d)) -> redeem (by_default w) d = Ret t -> all_spend w X cf t.
Proof. exact silent. Qed.
Print Assumptions C99_silent_refuted.
Example C99_silent_example : Forall (fun sigs => redeem (by_default (ex_world ex_verify)) (ex_given sigs) = Ret ex_empty)
    [[]; [ex_sigop ex_secret2]; [ex_sigop ex_secret; ex_sigop ex_secret]] /\
  ~ all_spend (ex_world ex_verify) ex_machine ex_redeem_config ex_empty.
Proof. exact ex_silent. Qed.
(* a good key of the network, given for an output to its own address, may be refused *)
Theorem C99_good_key_refuted : ~ forall w, sound w -> forall out doc x d so_far, is_secret (s_value x) -> s_net x = NetMain -> sdoc_wf doc ->
  p2a_script (address_of w (key_of w x)) = Some (out_script out) -> address_of w (key_of w x) <> zero20 ->
  by_default w out doc [{| so_key := x; so_directive := d |}] so_far <> Ret [].
Proof. exact good_key. Qed.
Print Assumptions C99_good_key_refuted.
Example C99_good_key_example : is_secret ex_good_key /\ secret_valid (ex_key ex_good_key) = false /\
  exists t, redeem (by_default (ex_world ex_verify)) (ex_design_of [ex_spend ex_good_key ex_good_script 0]) = Ret t /\
    map (fun i => in_script (xi_input i)) (xt_inputs t) = [[]].
Proof. split; [apply ex_good_key_ok | split; [apply ex_good_key_ok |]]. destruct ex_good_refused as (t & R & M & _). exists t. split; assumption. Qed.
(* one output that is not a script stops everything *)
Theorem C99_unreadable_refuted : ~ forall w d, sound w -> itx_wf (design_incomplete (design_of d)) -> exists t, redeem (by_default w) d = Ret t.
Proof. exact unreadable_stops. Qed.
Print Assumptions C99_unreadable_refuted.

(* C100: whatever spends an output to an address, in whatever transaction, a key of that address has signed *)
Theorem C100_spend_commits : forall w X cf, sound w -> machine_of w X -> c_max_memory cf < 2 ^ 63 ->
  forall t i v x a lx ux l, has_flag FLAG_SIGPUSHONLY (c_flags cf) = true -> has_flag FLAG_REQUIRE_FORKID (c_flags cf) = true ->
  len a = 20 -> p2a_script a = Some lx -> 70 * len ux + 220 < 2 ^ 31 ->
  itx_wf t -> i64 v -> (0 <= v)%Z -> nth_error (it_inputs t) (N.to_nat i) = Some x ->
  Forall (fun p => sdoc_wf (fst p)) l -> signed_only w a l ->
  collision_free w {| sd_tx := t; sd_index := i; sd_value := v; sd_code := address_program a |} l ->
  spends X (redeeming w (c_flags cf) t i v) cf (w_neg1 w) ux lx ->
  exists doc d, In (doc, d) l /\ fork_bit d /\
    same_commitment d {| sd_tx := t; sd_index := i; sd_value := v; sd_code := address_program a |} doc.
Proof. exact spend_commits. Qed.
Print Assumptions C100_spend_commits.
(* and with the directive "all" it has signed this transaction, this amount and this script *)
Theorem C100_all : forall d a b, kind d = 1 -> ~ acp_bit d -> same_commitment d a b ->
  sd_tx a = sd_tx b /\ sd_value a = sd_value b /\ sd_code a = sd_code b /\
  (NoDup (map ii_ref (it_inputs (sd_tx a))) -> sd_index a < N.of_nat (length (it_inputs (sd_tx a))) -> sd_index a = sd_index b).
Proof. exact all_commits. Qed.
Print Assumptions C100_all.
Example C100_example : sound ex_once /\ machine_of ex_once ex_machine /\ c_max_memory ex_redeem_config < 2 ^ 63 /\
  has_flag FLAG_SIGPUSHONLY (c_flags ex_redeem_config) = true /\ has_flag FLAG_REQUIRE_FORKID (c_flags ex_redeem_config) = true /\
  len ex_address = 20 /\ p2a_script ex_address = Some ex_address_script /\ 70 * len ex_once_script + 220 < 2 ^ 31 /\ sdoc_wf ex_signed_doc /\
  nth_error (it_inputs ex_signed_tx) 0 <> None /\ signed_only ex_once ex_address [(ex_signed_doc, ex_loose)] /\
  collision_free ex_once ex_signed_doc [(ex_signed_doc, ex_loose)] /\
  spends ex_machine (redeeming ex_once (c_flags ex_redeem_config) ex_signed_tx 0 1000) ex_redeem_config (w_neg1 ex_once) ex_once_script ex_address_script.
Proof.
  split; [apply ex_world_sound | split; [apply ex_machine_of | split; [apply ex_enough |]]].
  split; [reflexivity | split; [reflexivity | split; [vm_compute; reflexivity | split; [vm_compute; reflexivity | split; [vm_compute; reflexivity |]]]]].
  split; [exact ex_signed_wf | split; [discriminate | split; [exact ex_signed_only | split; [exact ex_collision_free | exact ex_once_spends]]]].
Qed.
