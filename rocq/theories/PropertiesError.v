(* Errors of scripts. *)
From Coq Require Import String.
From Verif Require Import Base ScriptModel NumModel StackModel MachineModel MachineExamples TextModel ErrorModel ErrorSpec ErrorExamples ErrorProofs SigErrorProofs.
Local Open Scope N_scope.

(* C131: the errors a check of a script can report are all but five *)
Theorem C131_errors : forall e,
  (exists X doc cf neg1 ux lx r, usual cf doc /\ evaluate X doc cf neg1 ux lx = Ret r /\ r_error r = e) <-> unreported e = false.
Proof. exact error_exact. Qed.
Print Assumptions C131_errors.
(* also with the limits that go with the flags, and with a transaction *)
Theorem C131_each : forall e, unreported e = false ->
  exists X d f consensus neg1 ux lx r, usual (script_config f consensus) (Some d) /\ evaluate X (Some d) (script_config f consensus) neg1 ux lx = Ret r /\ r_error r = e.
Proof. exact each_reported. Qed.
Print Assumptions C131_each.
Theorem C131_success : forall X doc cf neg1 ux lx r, usual cf doc -> evaluate X doc cf neg1 ux lx = Ret r -> r_success r = true -> r_error r = E_OK.
Proof. exact success_ok. Qed.
Print Assumptions C131_success.
(* the text tells the error, but for two *)
Theorem C131_text : forall e f, error_text e = error_text f <-> e = f \/ (unnamed e = true /\ unnamed f = true).
Proof. exact error_text_exact. Qed.
Print Assumptions C131_text.
(* a script longer than the limit before genesis is not refused *)
Theorem C131_size_refuted : exists X d ux lx, let cf := script_config pre_genesis_profile true in
  usual cf (Some d) /\ MAX_SIZE_BEFORE_GENESIS < len lx /\ evaluate X (Some d) cf [x81] ux lx = Ret (result_of_bool true).
Proof.
  exists ex_externals, (ex_error_document pre_genesis_profile), [], ex_long_script. cbv zeta. split.
  - intros d D. exists ex_error_checks. assert (d = ex_error_document pre_genesis_profile) as -> by congruence. reflexivity.
  - split; vm_compute; reflexivity.
Qed.
Print Assumptions C131_size_refuted.
(* a false result without an error; a text *)
Example C131_example : ex_error_run [] [] [OP_0] = Ret (result_of_bool false) /\ r_error (result_of_bool false) = E_OK /\
  ex_error_run [FLAG_NULLFAIL] [] [x02; x01; x01; x01; x02; OP_CHECKSIG] = Ret (result_of_error E_SIG_NULLFAIL) /\
  error_text E_DIV_BY_ZERO = text "Division by zero error" /\ error_text E_INVALID_SCRIPT_CODE = text "unknown error".
Proof. repeat split; vm_compute; reflexivity. Qed.

(* C64: the error for a signature is that of the first fault; without a fault the result is that of the check *)
Theorem C64_error : forall K f code sig pub e, e <> E_OK ->
  (verify_signature K f code sig pub = result_of_error e <-> first_fault (sig_faults K f code sig pub) e).
Proof. exact sig_error_exact. Qed.
Print Assumptions C64_error.
Theorem C64_result : forall K f code sig pub v,
  verify_signature K f code sig pub = result_of_bool v <->
  k_verify K code sig pub = v /\ Forall (fun x => ~ snd x) (sig_faults K f code sig pub).
Proof. exact sig_result_exact. Qed.
Print Assumptions C64_result.
Example C64_error_example : verify_signature ex_checks ex_strict_flags [] [x17; x01] [x17] = result_of_error E_MUST_USE_FORKID /\
  first_fault (sig_faults ex_checks ex_strict_flags [] [x17; x01] [x17]) E_MUST_USE_FORKID.
Proof. assert (R : verify_signature ex_checks ex_strict_flags [] [x17; x01] [x17] = result_of_error E_MUST_USE_FORKID) by (vm_compute; reflexivity).
  split; [exact R|]. apply sig_error_exact; [discriminate|exact R]. Qed.
