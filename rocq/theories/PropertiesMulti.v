(* C136: OP_CHECKMULTISIG and OP_CHECKMULTISIGVERIFY. *)
From Verif Require Import Base ScriptModel NumModel StackModel StackSpec MachineModel MachineSpec MultiSpec.
From Verif Require Import MultiProofs MachineExamples.
Local Open Scope N_scope.

(* a trial has exactly one outcome *)
Theorem C136_trial : forall ver sigs pubs, exists o, tried ver sigs pubs o /\ forall o', tried ver sigs pubs o' -> o' = o.
Proof. exact tried_one. Qed.
Print Assumptions C136_trial.
(* when no check is an error, trying the keys in turn finds a matching whenever there is one *)
Theorem C136_matching : forall ver sigs pubs, (forall s k, In s sigs -> In k pubs -> r_error (ver s k) = E_OK) ->
  (tried ver sigs pubs (inr true) <-> matching ver sigs pubs) /\ (tried ver sigs pubs (inr false) <-> ~ matching ver sigs pubs).
Proof. exact tried_matching. Qed.
Print Assumptions C136_matching.
Theorem C136_errors : forall ver sigs pubs e, tried ver sigs pubs (inl e) ->
  e <> E_OK /\ exists s k, In s sigs /\ In k pubs /\ r_error (ver s k) = e.
Proof. exact tried_errors. Qed.
Print Assumptions C136_errors.
(* signatures by the first and the third of three keys, and in the other order *)
Example C136_matching_example :
  let ver (s k : bytes) := result_of_bool (bytes_eqb s k) in
  matching ver [[x01]; [x03]] [[x01]; [x02]; [x03]] /\ tried ver [[x03]; [x01]] [[x01]; [x02]; [x03]] (inr false) /\
  (forall s k, In s [[x01]; [x03]] -> In k [[x01]; [x02]; [x03]] -> r_error (ver s k) = E_OK) /\
  tried (fun _ _ => result_of_error E_SIG_NULLFAIL) [[x03]] [[x01]; [x03]] (inl E_SIG_NULLFAIL).
Proof.
  cbv zeta. split.
  { apply match_this; [reflexivity|]. apply match_later. apply match_this; [reflexivity|]. apply match_none. }
  split.
  { apply tried_bad; [cbn; auto|reflexivity|reflexivity|]. apply tried_bad; [cbn; auto|reflexivity|reflexivity|].
    apply tried_few. cbn. auto. }
  split; [reflexivity|].
  change (tried (fun _ _ : bytes => result_of_error E_SIG_NULLFAIL) [[x03]] [[x01]; [x03]] (inl (r_error ((fun _ _ : bytes => result_of_error E_SIG_NULLFAIL) [x03] [x01])))).
  apply tried_error; [cbn; auto|discriminate].
Qed.

(* arguments that are not in order, in the order they are looked at *)
Theorem C136_refused : forall X doc cf c m, small (s_main (m_stack m)) ->
  match multi_refused cf (m_ops m) (s_main (m_stack m)) with
  | Some (false, e) => (exists m', exec_op X doc cf c OP_CHECKMULTISIG m = Stop (result_of_error e) m') /\
                       (exists m', exec_op X doc cf c OP_CHECKMULTISIGVERIFY m = Stop (result_of_error e) m')
  | Some (true, e) => (exists m', exec_op X doc cf c OP_CHECKMULTISIG m = Exc (X_script e) m') /\
                      (exists m', exec_op X doc cf c OP_CHECKMULTISIGVERIFY m = Exc (X_script e) m')
  | None => exists pubs sigs dummy r, multi_args cf m pubs sigs dummy r
  end.
Proof. exact refused_ops. Qed.
Print Assumptions C136_refused.
Theorem C136_not_refused : forall cf m pubs sigs dummy r, multi_args cf m pubs sigs dummy r ->
  multi_refused cf (m_ops m) (s_main (m_stack m)) = None.
Proof. exact args_unrefused. Qed.
Print Assumptions C136_not_refused.
Example C136_refused_example :
  multi_refused ex_config 0 [] = Some (false, E_INVALID_STACK_OPERATION) /\
  multi_refused ex_config 0 [[x00]] = Some (true, E_SCRIPTNUM_MINENCODE) /\
  multi_refused ex_old_config 0 [repeat x00 5] = Some (true, E_SCRIPTNUM_OVERFLOW) /\
  multi_refused ex_config 0 [[x81]] = Some (false, E_PUBKEY_COUNT) /\
  multi_refused ex_config 0 [[x15]] = Some (false, E_PUBKEY_COUNT) /\
  multi_refused ex_config 99 [[x02]] = Some (false, E_OP_COUNT) /\
  multi_refused ex_config 0 [[x02]; [x18]; [x17]; [x03]] = Some (false, E_SIG_COUNT) /\
  multi_refused ex_config 0 [[x02]; [x18]; [x17]; [x01]; [x19]] = Some (false, E_INVALID_STACK_OPERATION) /\
  multi_refused ex_config 0 [[x02]; [x18]; [x17]; [x01]; [x19]; []] = None.
Proof. do 8 (split; [vm_compute; reflexivity|]). vm_compute; reflexivity. Qed.

(* arguments that are in order *)
Theorem C136_exact : forall X doc cf c code m pubs sigs dummy r o,
  good (m_stack m) -> roomy (s_lim (m_stack m)) -> small (s_main (m_stack m)) ->
  multi_args cf m pubs sigs dummy r -> (doc <> None -> script_code c = Ret code) ->
  tried (multi_check doc code (s_main (m_stack m)) (length sigs)) sigs pubs o ->
  match o with
  | inl e => (exists m', exec_op X doc cf c OP_CHECKMULTISIG m = Stop (result_of_error e) m') /\
             (exists m', exec_op X doc cf c OP_CHECKMULTISIGVERIFY m = Stop (result_of_error e) m')
  | inr ok => multi_end cf false m pubs sigs dummy r ok (exec_op X doc cf c OP_CHECKMULTISIG m) /\
              multi_end cf true m pubs sigs dummy r ok (exec_op X doc cf c OP_CHECKMULTISIGVERIFY m)
  end.
Proof. exact multisig_ops. Qed.
Print Assumptions C136_exact.
(* 2 of 3, with one more element below *)
Example C136_exact_example : exists m pubs sigs dummy r,
  good (m_stack m) /\ roomy (s_lim (m_stack m)) /\ small (s_main (m_stack m)) /\
  multi_args ex_config m pubs sigs dummy r /\ script_code ex_counter = Ret [] /\
  tried (multi_check (Some (ex_document (c_flags ex_config))) [] (s_main (m_stack m)) (length sigs)) sigs pubs (inr true) /\
  length pubs = 3%nat /\ length sigs = 2%nat /\ r = [[x05]].
Proof.
  exists (ex_machine ex_config [[x03]; [x17]; [x18]; [x19]; [x02]; [x17; x01]; [x19; x01]; []; [x05]]),
    [[x17]; [x18]; [x19]], [[x17; x01]; [x19; x01]], [], [[x05]].
  split; [vm_compute; split; [discriminate|split; reflexivity]|]. split; [exact I|]. split; [split; [vm_compute; reflexivity|repeat (apply Forall_cons; [vm_compute; reflexivity|]); apply Forall_nil]|].
  split.
  { split; [|vm_compute; discriminate|vm_compute; discriminate|cbn; auto].
    exists [x03], [x02]. split; [reflexivity|]. split; (split; [reflexivity|]; split; [vm_compute; discriminate|intros _; vm_compute; reflexivity]). }
  split; [vm_compute; reflexivity|]. split; [|auto].
  apply tried_good; [cbn; auto|vm_compute; reflexivity|vm_compute; reflexivity|].
  apply tried_bad; [cbn; auto|vm_compute; reflexivity|vm_compute; reflexivity|].
  apply tried_good; [cbn; auto|vm_compute; reflexivity|vm_compute; reflexivity|]. apply tried_all.
Qed.

(* the elements removed from the script code are the signatures if nothing is below the arguments *)
Theorem C136_removed : forall nk ns dummy pubs sigs, removed (nk :: pubs ++ ns :: sigs ++ [dummy]) (length sigs) = rev sigs.
Proof. exact removed_signatures. Qed.
Print Assumptions C136_removed.
(* with enough below, none of the signatures is removed *)
Theorem C136_removed_refuted : forall nk ns dummy pubs sigs r, (length sigs < length r)%nat ->
  removed (nk :: pubs ++ ns :: sigs ++ dummy :: r) (length sigs) = firstn (length sigs) (skipn 1 (rev r)).
Proof. exact removed_others. Qed.
Print Assumptions C136_removed_refuted.
Example C136_removed_example :
  removed [[x01]; [x17]; [x01]; [x17; x41]; []] 1 = [[x17; x41]] /\ removed [[x01]; [x17]; [x01]; [x17; x41]; []; [x06]; [x05]] 1 = [[x06]].
Proof. split; reflexivity. Qed.
