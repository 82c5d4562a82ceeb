From Verif Require Import Base ScriptModel ScriptSpec NumModel StackModel StackSpec MachineModel MachineSpec MachineExamples.
From Verif Require Import WireSpec WorkModel WorkSpec PatternModel BoostModel BoostSpec BoostExamples StraightSpec PayRunSpec PayRunProofs.
From Verif Require Import BoostRunSpec BoostRunMain BoostRunRedeem BoostRunExamples.
Local Open Scope N_scope.

(* C93: a boost output is spent exactly by work that meets its target, by the owner of the miner's key *)
Theorem C93_boost : forall X doc cf neg1, standard X -> c_max_memory cf < 2 ^ 63 -> 4 <= c_max_num cf ->
  forall o lx ux u, writable_output o -> output_write o = Some lx -> decompile ux = Ret u -> is_push_program u = true ->
  70 * len ux + len (bo_tag o) + len (bo_data o) + len neg1 + 6000 < 2 ^ 31 ->
  (spends X doc cf neg1 ux lx -> boost_unlocked X doc cf o u) /\
  (enough cf (2 * footprint (stack_after u) + len (bo_tag o) + len (bo_data o) + 5000) 100 ->
   boost_unlocked X doc cf o u -> spends X doc cf neg1 ux lx).
Proof. exact boost_spends. Qed.
Print Assumptions C93_boost.
(* when unlocking scripts may only push, no other script spends it *)
Theorem C93_boost_protected : forall X doc cf neg1, standard X -> c_max_memory cf < 2 ^ 63 -> 4 <= c_max_num cf ->
  forall o lx ux, has_flag FLAG_SIGPUSHONLY (c_flags cf) = true -> writable_output o -> output_write o = Some lx ->
  70 * len ux + len (bo_tag o) + len (bo_data o) + len neg1 + 6000 < 2 ^ 31 -> spends X doc cf neg1 ux lx ->
  exists u, decompile ux = Ret u /\ is_push_program u = true /\ boost_unlocked X doc cf o u.
Proof. exact boost_protected. Qed.
Print Assumptions C93_boost_protected.
(* the scripts of the library: the script accepts the work exactly when the library's proof of it is valid and the target is one that
   the script can compute with *)
Theorem C93_redeemed : forall X doc cf neg1, standard X -> c_max_memory cf < 2 ^ 63 -> 4 <= c_max_num cf ->
  forall o i lx ux, writable_output o -> writable_input i -> extra2_fits i -> output_write o = Some lx -> input_write i = Some ux ->
  70 * len (bi_sig i) + len (bo_tag o) + len (bo_data o) + len neg1 + 30000 < 2 ^ 31 ->
  (spends X doc cf neg1 ux lx -> boost_redeemed X doc cf o i) /\
  (enough cf (2 * len (bi_sig i) + len (bo_tag o) + len (bo_data o) + 6000) 100 ->
   boost_redeemed X doc cf o i -> spends X doc cf neg1 ux lx).
Proof. exact boost_redeems. Qed.
Print Assumptions C93_redeemed.
(* outputs that nothing can spend *)
Theorem C93_stuck : forall X doc cf neg1, standard X -> c_max_memory cf < 2 ^ 63 -> 4 <= c_max_num cf ->
  forall o lx ux, has_flag FLAG_SIGPUSHONLY (c_flags cf) = true -> writable_output o -> output_write o = Some lx ->
  70 * len ux + len (bo_tag o) + len (bo_data o) + len neg1 + 6000 < 2 ^ 31 ->
  ~ computed_by cf (bo_target o) \/
  (has_flag FLAG_MINIMALDATA (c_flags cf) = true /\ (len (bo_tag o) = 256 \/ len (bo_tag o) = 65536 \/ len (bo_data o) = 256 \/ len (bo_data o) = 65536)) ->
  ~ spends X doc cf neg1 ux lx.
Proof. exact boost_stuck. Qed.
Print Assumptions C93_stuck.
(* numbers in the configurations of the library *)
Theorem C93_custom_numbers : forall f c t, has_flag FLAG_CUSTOM_LIMITS f = true -> computed_by (script_config f c) t <-> computable t.
Proof. exact custom_numbers. Qed.
Print Assumptions C93_custom_numbers.
Theorem C93_old_numbers : forall f c t, has_flag FLAG_CUSTOM_LIMITS f = false ->
  computed_by (script_config f c) t <-> computable t /\ expand t < 2 ^ 31.
Proof. exact old_numbers. Qed.
Print Assumptions C93_old_numbers.
Theorem C93_library_numbers : forall f c, 4 <= c_max_num (script_config f c).
Proof. exact library_numbers. Qed.
Print Assumptions C93_library_numbers.

(* a contract with version bits and a bounty without *)
Example C93_contract_ex :
  let cf := script_config genesis_profile false in let o := ex_run_contract 0x207fffff [x81; x00] in
  exists lx ux, output_write o = Some lx /\ input_write ex_run_input = Some ux /\
    standard ex_externals /\ c_max_memory cf < 2 ^ 63 /\ 4 <= c_max_num cf /\ has_flag FLAG_SIGPUSHONLY (c_flags cf) = true /\
    writable_output o /\ writable_input ex_run_input /\ extra2_fits ex_run_input /\
    enough cf (2 * len (bi_sig ex_run_input) + len (bo_tag o) + len (bo_data o) + 6000) 100 /\
    spends ex_externals (ex_run_doc genesis_profile) cf [x81] ux lx /\
    (exists lx', output_write (ex_run_contract 0x1d00ffff [x81; x00]) = Some lx' /\ ~ spends ex_externals (ex_run_doc genesis_profile) cf [x81] ux lx').
Proof.
  do 2 eexists. do 2 (split; [vm_compute; reflexivity|]). split; [exact ex_standard|]. split; [reflexivity|]. split; [vm_compute; discriminate|].
  split; [vm_compute; reflexivity|]. split; [now apply ex_run_contract_writable|]. split; [apply ex_run_input_writable|]. split; [apply ex_run_input_writable|].
  split; [apply library_enough; [vm_compute; reflexivity|discriminate|left; vm_compute; reflexivity]|].
  split; [vm_compute; reflexivity|]. eexists. split; [vm_compute; reflexivity|]. vm_compute. discriminate.
Qed.
Example C93_bounty_ex :
  let cf := script_config genesis_profile true in
  exists lx ux, output_write ex_run_bounty = Some lx /\ input_write ex_run_claim = Some ux /\
    writable_output ex_run_bounty /\ writable_input ex_run_claim /\ extra2_fits ex_run_claim /\
    spends ex_externals (ex_run_doc genesis_profile) cf [x81] ux lx.
Proof.
  do 2 eexists. do 2 (split; [vm_compute; reflexivity|]). split; [exact ex_run_bounty_writable|]. split; [apply ex_run_claim_writable|].
  split; [apply ex_run_claim_writable|]. vm_compute. reflexivity.
Qed.

(* a valid proof of work does not always give a transaction that spends the output: the target has an exponent of 33 or of 2 *)
Theorem C93_exponent_refuted : forall target, In target [0x2100ffff; 0x02010000] ->
  let o := ex_run_contract target [x81; x00] in
  exists lx ux, output_write o = Some lx /\ input_write ex_run_input = Some ux /\
    bproof_valid (hash256 ex_zero_externals) (proof_of o ex_run_input) = true /\
    hash160 ex_zero_externals (bi_key ex_run_input) = miner_hash o ex_run_input /\
    signed (ex_run_doc genesis_profile) (output_program o) (bi_sig ex_run_input) (bi_key ex_run_input) /\
    ~ spends ex_zero_externals (ex_run_doc genesis_profile) (script_config genesis_profile false) [x81] ux lx.
Proof.
  intros target [<-|[<-|[]]]; cbv zeta; do 2 eexists; do 5 (split; [vm_compute; reflexivity|]); vm_compute; discriminate.
Qed.
Print Assumptions C93_exponent_refuted.
(* the data of the output have 256 bytes *)
Theorem C93_data_refuted : exists lx ux,
  output_write (ex_run_contract 0x207fffff (repeat x00 256)) = Some lx /\ input_write ex_run_input = Some ux /\
  bproof_valid (hash256 ex_externals) (proof_of (ex_run_contract 0x207fffff (repeat x00 256)) ex_run_input) = true /\
  ~ spends ex_externals (ex_run_doc genesis_profile) (script_config genesis_profile false) [x81] ux lx.
Proof. do 2 eexists. do 3 (split; [vm_compute; reflexivity|]). vm_compute. discriminate. Qed.
Print Assumptions C93_data_refuted.
(* the chronicle profile *)
Theorem C93_chronicle_refuted : exists lx ux,
  output_write (ex_run_contract 0x207fffff [x81; x00]) = Some lx /\ input_write ex_run_input = Some ux /\
  bproof_valid (hash256 ex_externals) (proof_of (ex_run_contract 0x207fffff [x81; x00]) ex_run_input) = true /\
  ~ spends ex_externals (ex_run_doc chronicle_profile) (script_config chronicle_profile false) [x81] ux lx.
Proof. do 2 eexists. do 3 (split; [vm_compute; reflexivity|]). vm_compute. discriminate. Qed.
Print Assumptions C93_chronicle_refuted.
