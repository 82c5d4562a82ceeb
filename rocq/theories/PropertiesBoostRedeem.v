From Coq Require Import Permutation.
From Verif Require Import Base WireModel WireSpec TextModel SecpModel SecpSpec SecpExamples ScriptModel ScriptSpec MachineModel MachineSpec PatternModel SighashModel SighashSpec ExtModel.
From Verif Require Import WorkModel WorkSpec BoostModel BoostSpec BoostExamples StraightSpec PayRunSpec PayRunProofs BoostRunSpec BoostRunRedeem BoostRunExamples RedeemModel RedeemSpec RedeemExamples.
From Verif Require Import BoostRedeemModel BoostRedeemSpec BoostRedeemProofs BoostRedeemExamples.
Local Open Scope N_scope.

(* ==== C115: the transaction that redeems a candidate ==== *)
(* it has the inputs and outputs asked for, and each of its inputs spends its output exactly if the solution is one *)
Theorem C115_redeemed : forall w X cf, sound w -> machine_of w X -> twice w -> c_max_memory cf < 2 ^ 63 -> 4 <= c_max_num cf ->
  forall c o key x outs, candidate_for w c o -> miner w (c_flags cf) key -> solution_wf x -> spendable c outs ->
  70 * len (sh_extra2 (so_share x)) + len (bo_tag o) + len (bo_data o) + 50000 < 2 ^ 31 ->
  exists t, redeemed_by w c key x outs = Ret (tx_write t) /\ tx_wf t /\ itx_of t = bincomplete c outs /\
    forall n v, nth_error (bn_prevouts c) n = Some v ->
      (claims w X cf t n (bv_value v) (bn_script c) -> collects w cf o key x) /\
      (enough cf (len (bo_tag o) + len (bo_data o) + 6200) 100 -> collects w cf o key x -> claims w X cf t n (bv_value v) (bn_script c)).
Proof. exact redeemed_exactly. Qed.
Print Assumptions C115_redeemed.
Example C115_redeemed_ex : let w := ex_bworld in let cf := ex_redeem_config in let x := ex_b_solution 0x5e6dc081 7 in
  sound w /\ machine_of w ex_machine /\ twice w /\ c_max_memory cf < 2 ^ 63 /\ 4 <= c_max_num cf /\
  candidate_for w ex_b_cand ex_run_bounty /\ miner w (c_flags cf) (ex_key ex_secret) /\ solution_wf x /\ spendable ex_b_cand ex_b_outs /\
  70 * len (sh_extra2 (so_share x)) + len (bo_tag ex_run_bounty) + len (bo_data ex_run_bounty) + 50000 < 2 ^ 31 /\
  enough cf (len (bo_tag ex_run_bounty) + len (bo_data ex_run_bounty) + 6200) 100 /\ collects w cf ex_run_bounty (ex_key ex_secret) x /\
  length (bn_prevouts ex_b_cand) = 2%nat.
Proof.
  cbv zeta. split; [apply ex_bworld_sound|]. split; [apply ex_bworld_sound|]. split; [apply ex_bworld_sound|]. split; [reflexivity|]. split; [apply library_numbers|].
  split; [exact ex_b_for|]. split; [exact ex_miner|]. split; [apply ex_b_solution_wf; reflexivity|]. split; [exact ex_b_spendable|]. split; [reflexivity|].
  split; [apply library_enough; [reflexivity|discriminate|left; reflexivity]|]. split; [exact ex_b_collects|reflexivity].
Qed.

(* the puzzle given to the miner asks for the work that the script asks for *)
Theorem C115_worked : forall w cf, sound w -> forall c o key x, candidate_for w c o -> miner w (c_flags cf) key -> written_solution o x ->
  (bo_type o = Contract -> bo_hash o = address_of w (key_of w key)) -> address_of w (key_of w key) <> zero20 ->
  exists p, work_in w c key = Ret p /\
    (wproof_valid (w_hash w) {| wp_puzzle := p; wp_solution := x |} = true <-> meets_target w o (address_of w (key_of w key)) x).
Proof. exact worked_exactly. Qed.
Print Assumptions C115_worked.
Example C115_worked_ex : let w := ex_bworld in
  candidate_for w ex_b_cand ex_run_bounty /\ address_of w (key_of w (ex_key ex_secret)) <> zero20 /\
  (exists p, work_in w ex_b_cand (ex_key ex_secret) = Ret p /\ wproof_valid (w_hash w) {| wp_puzzle := p; wp_solution := ex_b_solution 0x5e6dc081 7 |} = true /\
     wproof_valid (w_hash w) {| wp_puzzle := p; wp_solution := ex_b_solution 0x5e6dc081 0x90000000 |} = false).
Proof.
  split; [exact ex_b_for|]. split; [vm_compute; discriminate|]. eexists. split; [vm_compute; reflexivity|]. split; vm_compute; reflexivity.
Qed.

(* a valid proof of work is not enough: with a timestamp of zero the transaction is made with empty scripts *)
Theorem C115_timestamp_refuted : let w := ex_bworld in let cf := ex_redeem_config in let x := ex_b_solution 0 7 in
  exists t p, valid_in w ex_b_cand (ex_key ex_secret) = Ret true /\
    work_in w ex_b_cand (ex_key ex_secret) = Ret p /\ wproof_valid (w_hash w) {| wp_puzzle := p; wp_solution := x |} = true /\
    redeemed_by w ex_b_cand (ex_key ex_secret) x ex_b_outs = Ret (tx_write t) /\
    map in_script (tx_inputs t) = [[]; []] /\ ~ claims w ex_machine cf t 0 1000 (bn_script ex_b_cand).
Proof.
  cbv zeta. eexists {| tx_version := 1; tx_inputs := [{| in_ref := ex_b_ref 0; in_script := []; in_seq := 0xffffffff |}; {| in_ref := ex_b_ref 1; in_script := []; in_seq := 0xffffffff |}];
    tx_outputs := ex_b_outs; tx_locktime := 0 |}. eexists. split; [vm_compute; reflexivity|]. split; [vm_compute; reflexivity|]. split; [vm_compute; reflexivity|].
  split; [vm_compute; reflexivity|]. split; [reflexivity|]. intros (i & Hi & Sp). cbn [tx_inputs nth_error] in Hi.
  match type of Hi with Some ?z = _ => assert (i = z) by congruence end. subst i. revert Sp. vm_compute. discriminate.
Qed.
Print Assumptions C115_timestamp_refuted.
(* redeeming does not look at the work: a wrong solution gives a transaction too *)
Theorem C115_unchecked_refuted : let w := ex_bworld in let x := ex_b_solution 0x5e6dc081 0x90000000 in
  ~ meets_target w ex_run_bounty (address_of w (key_of w (ex_key ex_secret))) x /\
  exists b, redeemed_by w ex_b_cand (ex_key ex_secret) x ex_b_outs = Ret b.
Proof. cbv zeta. split; [vm_compute; discriminate|]. eexists. vm_compute. reflexivity. Qed.
Print Assumptions C115_unchecked_refuted.

(* ==== C116: candidates and puzzles ==== *)
(* a candidate made from a list of outputs has each of their outpoints once; it is undefined for no outputs *)
Theorem C116_gathered : forall ins, set_insertion ins -> forall l c, candidate_of ins l = Ret c ->
  gathered c l /\ (exists u r, l = u :: r /\ bn_script c = out_script (ut_output u)) /\
  (NoDup (map ut_ref l) -> Permutation (bn_prevouts c) (map prevout_of l)).
Proof. exact candidate_gathered. Qed.
Print Assumptions C116_gathered.
Theorem C116_undefined : forall ins l, candidate_of ins l = Undef <-> l = [].
Proof. exact candidate_undefined. Qed.
Print Assumptions C116_undefined.
Theorem C116_added : forall ins, set_insertion ins -> forall c l u, gathered c l -> gathered (candidate_add ins c u) (l ++ [u]) /\
  bn_script (candidate_add ins c u) = (match bn_prevouts c with [] => out_script (ut_output u) | _ => bn_script c end) /\
  (~ In (ut_ref u) (map bv_ref (bn_prevouts c)) -> Permutation (bn_prevouts (candidate_add ins c u)) (prevout_of u :: bn_prevouts c)) /\
  (In (ut_ref u) (map bv_ref (bn_prevouts c)) -> candidate_add ins c u = c).
Proof. exact candidate_added. Qed.
Print Assumptions C116_added.
Example C116_gathered_ex : set_insertion ex_insert /\
  exists c, candidate_of ex_insert [ex_utxo 0 1000 ex_b_script; ex_utxo 1 2000 ex_b_script] = Ret c /\
    candidate_add ex_insert c (ex_utxo 0 5 [x51]) = c /\ length (bn_prevouts (candidate_add ex_insert c (ex_utxo 2 5 ex_b_script))) = 3%nat.
Proof. split; [exact ex_insert_set|]. eexists. split; [reflexivity|]. split; vm_compute; reflexivity. Qed.

(* the value *)
Theorem C116_value : forall ovf c, no_overflow (map bv_value (bn_prevouts c)) -> candidate_value ovf c = sum_of_values (map bv_value (bn_prevouts c)).
Proof. exact candidate_amount. Qed.
Print Assumptions C116_value.
Example C116_value_ex : no_overflow (map bv_value (bn_prevouts ex_b_cand)) /\ candidate_value (fun _ => 0%Z) ex_b_cand = 3000%Z.
Proof. split; [|reflexivity]. split; [|reflexivity]. repeat constructor; discriminate. Qed.

(* when a puzzle is valid *)
Theorem C116_valid : forall w c key, valid_in w c key = Ret true <-> exists o, workable w c key o.
Proof. exact puzzle_workable. Qed.
Print Assumptions C116_valid.
Example C116_valid_ex : valid_in ex_bworld ex_b_cand (ex_key ex_secret) = Ret true /\
  valid_in ex_bworld {| bn_script := ex_b_script; bn_prevouts := [] |} (ex_key ex_secret) = Ret false /\
  valid_in ex_bworld {| bn_script := ex_address_script; bn_prevouts := bn_prevouts ex_b_cand |} (ex_key ex_secret) = Ret false.
Proof. split; [|split]; vm_compute; reflexivity. Qed.

(* the scripts of the outputs after the first are not looked at: a candidate of outputs with other scripts is valid, and the
   transaction does not spend them *)
Theorem C116_scripts_refuted : let w := ex_bworld in
  exists c t, candidate_of ex_insert [ex_utxo 0 1000 ex_b_script; ex_utxo 1 2000 ex_address_script] = Ret c /\ ex_address_script <> ex_b_script /\
    valid_in w c (ex_key ex_secret) = Ret true /\ redeemed_by w c (ex_key ex_secret) (ex_b_solution 0x5e6dc081 7) ex_b_outs = Ret (tx_write t) /\
    map in_ref (tx_inputs t) = [ex_b_ref 1; ex_b_ref 0] /\
    claims w ex_machine ex_redeem_config t 1 1000 ex_b_script /\ ~ claims w ex_machine ex_redeem_config t 0 2000 ex_address_script.
Proof.
  cbv zeta. exists ex_mixed, ex_mixed_tx. split; [reflexivity|]. split; [vm_compute; discriminate|]. split; [vm_compute; reflexivity|].
  split; [vm_compute; reflexivity|]. split; [reflexivity|]. split.
  - eexists. split; [reflexivity|]. vm_compute. reflexivity.
  - intros (i & Hi & Sp). unfold ex_mixed_tx in Hi. cbn [tx_inputs nth_error] in Hi.
    match type of Hi with Some ?z = _ => assert (i = z) by congruence end. subst i. revert Sp. vm_compute. discriminate.
Qed.
Print Assumptions C116_scripts_refuted.
