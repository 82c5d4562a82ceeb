From Coq Require Import Lia ZifyBool ZifyNat ZifyN.
From Verif Require Import Base ScriptModel ScriptSpec WireModel WireSpec NumModel WorkModel.
From Verif Require Import PatternModel PatternSpec BoostModel BoostSpec BoostProofs BoostWrite BoostInput BoostTotal BoostWork BoostExamples BoostRefuted.
Local Open Scope N_scope.

(* C47: which scripts are boost outputs, and of which parameters *)
Theorem C47_output_exact : forall neg1 s o, len neg1 < 4 ->
  (output_read neg1 s = Ret o /\ output_valid o = true) <-> (sound_output o /\ output_form neg1 o s).
Proof. exact output_exact. Qed.
Print Assumptions C47_output_exact.
Example C47_output_exact_ex : output_read [x81] ex_script1 = Ret ex_output1 /\ output_read [x81] ex_script2 = Ret ex_output2 /\ output_read [x81] ex_roundabout = Ret ex_output1.
Proof. by_compute. Qed.

(* which script is written *)
Theorem C47_output_written : forall o, writable_output o ->
  exists tag data, shortest_push (bo_tag o) tag /\ shortest_push (bo_data o) data /\ output_write o = Some (output_bytes o tag data).
Proof. exact output_written. Qed.
Print Assumptions C47_output_written.
Example C47_output_written_ex : output_write ex_output1 = Some ex_script1 /\ output_write ex_output2 = Some ex_script2.
Proof. by_compute. Qed.

(* what the constructors give: a bounty is refused when its tag is too long, a contract is not *)
Theorem C47_made : forall category content target tag nonce data bits hash,
  i32 category -> len content = 32 -> u32 target -> u32 nonce -> len hash = 20 ->
  (output_valid (bounty_output category content target tag nonce data bits) = true <-> len tag <= 20) /\
  (sound_output (bounty_output category content target tag nonce data bits) <-> len tag <= 20) /\
  output_valid (contract_output category content target tag nonce data hash bits) = true /\
  (sound_output (contract_output category content target tag nonce data hash bits) <-> len tag <= 20).
Proof. exact outputs_made. Qed.
Print Assumptions C47_made.
Example C47_made_ex : output_valid (bounty_output 1 (repeat x01 32) 0x207fffff (repeat x02 20) 5 [] false) = true /\ output_valid (bounty_output 1 (repeat x01 32) 0x207fffff (repeat x02 21) 5 [] false) = false.
Proof. by_compute. Qed.

(* what is read from a written script *)
Theorem C47_output_round_trip : forall neg1 o s, len neg1 < 4 -> writable_output o -> (bo_type o = Bounty -> bo_hash o = zero20) -> output_write o = Some s ->
  output_read neg1 s = Ret (if 20 <? len (bo_tag o) then no_output else output_back neg1 o).
Proof. exact output_round_trip. Qed.
Print Assumptions C47_output_round_trip.
Example C47_output_round_trip_ex : exists s, output_write ex_contract = Some s /\ output_read [x81] s = Ret ex_contract.
Proof. eexists. by_compute. Qed.

(* the parameters come back, unless the tag or the data are the byte that OP_1NEGATE stands for *)
Theorem C47_output_kept : forall neg1 o s, len neg1 < 4 -> sound_output o -> len (bo_data o) < 2 ^ 31 -> output_write o = Some s ->
  (output_read neg1 s = Ret o <-> kept neg1 (bo_tag o) /\ kept neg1 (bo_data o)).
Proof. exact output_kept. Qed.
Print Assumptions C47_output_kept.
Example C47_output_kept_ex : sound_output ex_contract /\ kept [x81; x00] (bo_tag ex_contract) /\ ~ kept [x81; x00] [x81].
Proof. split; [exact ex_contract_sound|]. split; [discriminate|]. intros X. specialize (X eq_refl). discriminate. Qed.

(* a contract with a tag of more than 20 bytes is accepted and written, and cannot be read back *)
Theorem C47_long_tag_refuted : exists o s, writable_output o /\ output_valid o = true /\ output_write o = Some s /\ forall neg1, len neg1 < 4 -> output_read neg1 s = Ret no_output.
Proof. exact long_contract. Qed.
Print Assumptions C47_long_tag_refuted.

(* the announced size is right unless the data have 75, 255 or 65535 bytes *)
Theorem C47_output_sized : forall o s, sound_output o -> len (bo_data o) < 2 ^ 31 -> output_write o = Some s -> output_size o = len s + miscounted (bo_data o).
Proof. exact output_sized. Qed.
Print Assumptions C47_output_sized.
Example C47_output_sized_ex : sound_output ex_output1 /\ output_size ex_output1 = len ex_script1.
Proof. split; [exact ex_output1_sound|]. by_compute. Qed.

(* different scripts are read as the same output, so writing the output does not give the script again *)
Theorem C47_rewrite_refuted : exists a b o, a <> b /\ sound_output o /\ output_read [x81] a = Ret o /\ output_read [x81] b = Ret o.
Proof. exact rewritten. Qed.
Print Assumptions C47_rewrite_refuted.

(* scripts made of instructions are read without exceptions *)
Theorem C47_output_total : forall neg1 s, instructions s -> exists o, output_read neg1 s = Ret o.
Proof. exact output_total. Qed.
Print Assumptions C47_output_total.

(* a script that ends in its first push is read past its end *)
Theorem C47_output_cut : forall neg1 s, cut s -> output_read neg1 s = Undef.
Proof. exact output_cut. Qed.
Print Assumptions C47_output_cut.
Example C47_output_cut_ex : cut [x08; x62] /\ output_read [x81] [x08; x62] = Undef.
Proof. split; [|reflexivity]. exists [x08], 8, [x62]. split; [exact (ph_direct 8 ltac:(lia))|]. by_compute. Qed.

(* other scripts *)
Theorem C47_output_other : forall neg1 i c r, whole i c -> is_push_op (i_op i) && bytes_eqb boost_word (push_value neg1 i) = false -> output_read neg1 (c ++ r) = Ret no_output.
Proof. exact output_other. Qed.
Print Assumptions C47_output_other.

(* version gives the type of an output *)
Theorem C47_version_refuted : exists a b, output_read [x81] a = Ret ex_output1 /\ output_read [x81] b = Ret ex_output2 /\ bo_category ex_output1 <> bo_category ex_output2 /\
  output_version [x81] a = Ret 1%Z /\ output_version [x81] b = Ret 1%Z.
Proof. exact version_of_type. Qed.
Print Assumptions C47_version_refuted.

(* the same for inputs *)
Theorem C47_input_exact : forall neg1 s i, len neg1 < 4 ->
  (input_read neg1 s = Ret i /\ input_valid i = true) <-> (sound_input i /\ input_form neg1 i s).
Proof. exact input_exact. Qed.
Print Assumptions C47_input_exact.
Example C47_input_exact_ex : sound_input ex_input /\ exists s, input_write ex_input = Some s /\ input_read [x81] s = Ret ex_input /\ len s = 159.
Proof. split; [exact ex_input_sound|]. eexists. by_compute. Qed.

Theorem C47_input_written : forall i, writable_input i ->
  exists sig extra2, shortest_push (bi_sig i) sig /\ shortest_push (bi_extra2 i) extra2 /\ input_write i = Some (input_bytes i sig extra2).
Proof. exact input_written. Qed.
Print Assumptions C47_input_written.

Theorem C47_input_round_trip : forall neg1 i s, len neg1 < 4 -> writable_input i -> (bi_type i = Contract -> bi_hash i = zero20) -> input_write i = Some s ->
  input_read neg1 s = Ret (if input_valid i then input_back neg1 i else no_input).
Proof. exact input_round_trip. Qed.
Print Assumptions C47_input_round_trip.
Example C47_input_round_trip_ex : exists s, input_write ex_bounty_input = Some s /\ input_read [x81] s = Ret ex_bounty_input.
Proof. eexists. by_compute. Qed.

Theorem C47_input_kept : forall neg1 i s, len neg1 < 4 -> sound_input i -> len (bi_sig i) < 2 ^ 31 -> input_write i = Some s ->
  (input_read neg1 s = Ret i <-> kept neg1 (bi_sig i) /\ kept neg1 (bi_extra2 i)).
Proof. exact input_kept. Qed.
Print Assumptions C47_input_kept.
Example C47_input_kept_ex : sound_input ex_bounty_input /\ kept [x81] (bi_sig ex_bounty_input) /\ kept [x81] (bi_extra2 ex_bounty_input).
Proof. split; [exact ex_bounty_sound|]. split; discriminate. Qed.

Theorem C47_input_sized : forall i s, sound_input i -> len (bi_sig i) < 2 ^ 31 -> input_write i = Some s -> input_size i = len s + miscounted (bi_sig i).
Proof. exact input_sized. Qed.
Print Assumptions C47_input_sized.
Example C47_input_sized_ex : exists s, input_write ex_bounty_input = Some s /\ input_size ex_bounty_input = len s.
Proof. eexists. by_compute. Qed.

(* the estimated size allows for 80 bytes of signature and second extra nonce *)
Theorem C47_input_estimate : forall i s, sound_input i -> 2 <= len (bi_sig i) <= 75 -> 2 <= len (bi_extra2 i) -> input_write i = Some s ->
  len s + 80 = input_expected_size (bi_type i) (has_bits i) (len (bi_key i) =? 33) + len (bi_sig i) + len (bi_extra2 i).
Proof. exact input_estimate. Qed.
Print Assumptions C47_input_estimate.

(* it is too small for a signature of the greatest size *)
Theorem C47_input_estimate_refuted : exists i s, sound_input i /\ len (bi_sig i) = signature_max /\ len (bi_extra2 i) = 8 /\ input_write i = Some s /\
  input_expected_size (bi_type i) (has_bits i) true < len s.
Proof. exact estimate_short. Qed.
Print Assumptions C47_input_estimate_refuted.

Theorem C47_input_total : forall neg1 s, instructions s -> exists i, input_read neg1 s = Ret i.
Proof. exact input_total. Qed.
Print Assumptions C47_input_total.

Theorem C47_input_cut : forall neg1 s, cut s -> input_read neg1 s = Undef.
Proof. exact input_cut. Qed.
Print Assumptions C47_input_cut.

(* the work of an output and an input: the document and the header that are hashed *)
Theorem C47_work_header : forall H o i, paired o i ->
  meta (bp_work (proof_of o i)) = boost_document o i (miner_hash o i) /\
  header_write (wproof_string H (bp_work (proof_of o i))) = boost_header_bytes H o i (miner_hash o i).
Proof. exact work_header. Qed.
Print Assumptions C47_work_header.
Example C47_work_header_ex : paired ex_output1 ex_bounty_input /\ paired ex_contract ex_input.
Proof. split; (split; [discriminate|]); by_compute. Qed.

Theorem C47_work_valid : forall H o i, bproof_valid H (proof_of o i) = true <->
  paired o i /\ le_val (H (boost_header_bytes H o i (miner_hash o i))) < expand (bo_target o).
Proof. exact work_valid. Qed.
Print Assumptions C47_work_valid.
Example C47_work_valid_ex : bproof_valid ex_low_hash (proof_of ex_contract ex_input) = true /\ bproof_valid ex_low_hash (proof_of ex_output1 ex_input) = false.
Proof. by_compute. Qed.

(* the puzzle that is handed out is the one that the proof is about *)
Theorem C47_work_puzzles : forall o i, paired o i -> miner_hash o i <> zero20 -> wp_puzzle (bp_work (proof_of o i)) = work_puzzle o (bi_hash i).
Proof. exact work_puzzles. Qed.
Print Assumptions C47_work_puzzles.

(* an input made from a solution of that puzzle is a proof exactly when the solution is *)
Theorem C47_mined : forall H H160 o key sig x, bo_type o <> Invalid -> (match bo_type o with Contract => bo_hash o | _ => H160 key end) <> zero20 ->
  sh_timestamp (so_share x) <> 0 -> (bo_bits o = false -> sh_bits (so_share x) = None) ->
  bproof_valid H (proof_of o (from_solution H160 sig key x (bo_type o) (bo_bits o))) =
  wproof_valid H {| wp_puzzle := work_puzzle o (H160 key); wp_solution := x |}.
Proof. exact mined. Qed.
Print Assumptions C47_mined.
Example C47_mined_ex : wproof_valid ex_low_hash {| wp_puzzle := work_puzzle ex_contract (ex_h160 []); wp_solution := input_solution ex_input |} = true.
Proof. by_compute. Qed.

(* the input that a proof gives back *)
Theorem C47_proof_input_exact : forall H160 o i, agreed H160 o i ->
  proof_input H160 (proof_of o i) = match bi_bits i with Some _ => i | None => with_bits i 0 end.
Proof. exact proof_input_exact. Qed.
Print Assumptions C47_proof_input_exact.
Example C47_proof_input_exact_ex : agreed ex_h160 ex_contract ex_input /\ agreed ex_h160 ex_output1 ex_bounty_input.
Proof. split; (split; [split; [discriminate|]; by_compute|]); split; [discriminate|reflexivity|discriminate|reflexivity]. Qed.

(* without version bits it is another input, which does not prove anything *)
Theorem C47_proof_input_refuted : forall H160 o i, agreed H160 o i -> bi_bits i = None ->
  proof_input H160 (proof_of o i) <> i /\ proof_of o (proof_input H160 (proof_of o i)) = no_proof.
Proof. exact proof_input_plain. Qed.
Print Assumptions C47_proof_input_refuted.

(* the solution of an input leaves its version bits out *)
Theorem C47_solution_refuted : forall o i, paired o i -> (input_solution i = wp_solution (bp_work (proof_of o i)) <-> bi_bits i = None).
Proof. exact solution_exact. Qed.
Print Assumptions C47_solution_refuted.

(* candidates are compared by their scripts only *)
Theorem C47_candidates_refuted : (forall a b, bcandidate_eqb a b = true <-> bc_script a = bc_script b) /\
  exists a b, a <> b /\ bcandidate_eqb a b = true.
Proof. exact candidates_confused. Qed.
Print Assumptions C47_candidates_refuted.

(* the estimate for several prevouts is that of the inputs of a transaction *)
Theorem C47_redeem_estimate : forall o compressed l,
  Forall (fun i => input_wf i /\ len (in_script i) = input_expected_size (bo_type o) (bo_bits o) compressed) l ->
  len (var_seq_write WireModel.input_write l) = puzzle_expected_size o compressed (N.of_nat (length l)).
Proof. exact redeem_estimate. Qed.
Print Assumptions C47_redeem_estimate.
