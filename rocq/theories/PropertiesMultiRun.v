From Verif Require Import Base ScriptModel ScriptSpec StackModel StackSpec NumModel MachineModel MachineSpec MachineExamples PatternModel.
From Verif Require Import StraightSpec PayRunSpec MultiSpec MultiRunSpec.
From Verif Require Import StraightProofs StraightEval PayRunProofs MultiProofs MultiRunProofs.
Local Open Scope N_scope.

(* C137: an output that asks for m signatures by n keys is spent exactly by m signatures that go with the keys *)
Theorem C137_spent : forall X doc cf neg1, standard X -> c_max_memory cf < 2 ^ 63 ->
  forall m keys lx ux u, compile (multi_program m keys) = Some lx -> N.of_nat m < 2 ^ 31 ->
  decompile ux = Ret u -> is_push_program u = true -> 70 * len ux + 2 * footprint keys + len neg1 + 200 < 2 ^ 31 ->
  (spends X doc cf neg1 ux lx -> multi_unlocked doc cf m keys u) /\
  (enough cf (footprint (stack_after u) + footprint keys + 72) (N.of_nat (length keys) + 2) -> N.of_nat (length keys) <= c_max_keys cf ->
   well_pushed cf (map push keys) -> multi_unlocked doc cf m keys u -> spends X doc cf neg1 ux lx).
Proof. exact multi_output. Qed.
Print Assumptions C137_spent.
(* when unlocking scripts may only push, no other script spends it *)
Theorem C137_protected : forall X doc cf neg1, standard X -> c_max_memory cf < 2 ^ 63 ->
  forall m keys lx ux, has_flag FLAG_SIGPUSHONLY (c_flags cf) = true -> compile (multi_program m keys) = Some lx -> N.of_nat m < 2 ^ 31 ->
  70 * len ux + 2 * footprint keys + len neg1 + 200 < 2 ^ 31 -> 2 * len ux + len lx + len neg1 + 2 < 2 ^ 31 -> spends X doc cf neg1 ux lx ->
  exists u, decompile ux = Ret u /\ is_push_program u = true /\ multi_unlocked doc cf m keys u.
Proof. exact multi_protected. Qed.
Print Assumptions C137_protected.
(* an empty element and m signatures: when no check is an error, they spend it if they are by some of the keys, in order *)
Theorem C137_in_order : forall X doc cf neg1, standard X -> c_max_memory cf < 2 ^ 63 ->
  forall m keys sigs lx ux, compile (multi_program m keys) = Some lx -> compile (map push ([] :: sigs)) = Some ux ->
  length sigs = m -> 210 * footprint sigs + 2 * footprint keys + len neg1 + 7000 < 2 ^ 31 ->
  (forall s k, In s sigs -> In k keys -> r_error (multi_verify doc m keys sigs s k) = E_OK) ->
  (spends X doc cf neg1 ux lx -> matching (multi_verify doc m keys sigs) sigs keys) /\
  (enough cf (footprint sigs + footprint keys + 104) (N.of_nat (length keys) + 2) -> N.of_nat (length keys) <= c_max_keys cf ->
   well_pushed cf (map push (keys ++ sigs)) -> matching (multi_verify doc m keys sigs) sigs keys -> spends X doc cf neg1 ux lx).
Proof. exact multi_redeemed. Qed.
Print Assumptions C137_in_order.
(* with NULLFAIL, the first key tried that is not the signer's is an error: only the last m keys can sign *)
Theorem C137_last_keys : forall X cf neg1, standard X -> c_max_memory cf < 2 ^ 63 ->
  forall K f v lt sq m keys sigs lx ux, has_flag FLAG_NULLFAIL f = true -> has_flag FLAG_REQUIRE_FORKID f = true ->
  compile (multi_program m keys) = Some lx -> compile (map push ([] :: sigs)) = Some ux ->
  length sigs = m -> 210 * footprint sigs + 2 * footprint keys + len neg1 + 7000 < 2 ^ 31 ->
  (spends X (Some (document K f v lt sq)) cf neg1 ux lx ->
     Forall2 (signature_fine K f (multi_program m keys)) sigs (skipn (length keys - m) keys)) /\
  (enough cf (footprint sigs + footprint keys + 104) (N.of_nat (length keys) + 2) -> N.of_nat (length keys) <= c_max_keys cf ->
   well_pushed cf (map push (keys ++ sigs)) -> Forall2 (signature_fine K f (multi_program m keys)) sigs (skipn (length keys - m) keys) ->
   spends X (Some (document K f v lt sq)) cf neg1 ux lx).
Proof. exact multi_strict. Qed.
Print Assumptions C137_last_keys.

(* two of three keys, before NULLFAIL: in order they spend it, in the other order they do not *)
Example C137_example :
  let cf := script_config pre_genesis_profile true in let doc := Some (ex_document (N.clearbit pre_genesis_profile FLAG_NULLFAIL)) in
  let keys := [repeat x02 33; repeat x03 33; repeat x04 33] in
  let s1 := repeat x02 33 ++ [x41] in let s3 := repeat x04 33 ++ [x41] in
  exists lx ux ux', compile (multi_program 2 keys) = Some lx /\ compile (map push [[]; s1; s3]) = Some ux /\ compile (map push [[]; s3; s1]) = Some ux' /\
    standard ex_externals /\ c_max_memory cf < 2 ^ 63 /\ enough cf (footprint [s1; s3] + footprint keys + 104) 5 /\ 3 <= c_max_keys cf /\
    matching (multi_verify doc 2 keys [s1; s3]) [s1; s3] keys /\
    forallb (fun s => forallb (fun k => serror_is_ok (r_error (multi_verify doc 2 keys [s1; s3] s k))) keys) [s1; s3] = true /\
    well_pushed cf (map push (keys ++ [s1; s3])) /\
    spends ex_externals doc cf [x81] ux lx /\ ~ spends ex_externals doc cf [x81] ux' lx.
Proof.
  cbv zeta. do 3 eexists. do 3 (split; [vm_compute; reflexivity|]). split; [|split; [|split; [|split; [|split; [|split; [|split; [|split]]]]]]].
  - split; [|intros b; repeat split; reflexivity]. intros n m _. split; reflexivity.
  - vm_compute. reflexivity.
  - apply library_enough; [vm_compute; reflexivity|discriminate|right; vm_compute; discriminate].
  - vm_compute. discriminate.
  - apply match_this; [vm_compute; reflexivity|]. apply match_later. apply match_this; [vm_compute; reflexivity|]. apply match_none.
  - vm_compute. reflexivity.
  - intros _. repeat (apply Forall_cons; [vm_compute; reflexivity|]). apply Forall_nil.
  - vm_compute. reflexivity.
  - vm_compute. discriminate.
Qed.
(* with NULLFAIL the signatures by the first and the third are refused, those by the second and the third are accepted *)
Theorem C137_any_keys_refuted :
  let cf := script_config genesis_profile true in let doc := Some (ex_document genesis_profile) in
  let keys := [repeat x02 33; repeat x03 33; repeat x04 33] in
  let s k := repeat k 33 ++ [x41] in
  exists lx ux ux', compile (multi_program 2 keys) = Some lx /\ compile (map push [[]; s x02; s x04]) = Some ux /\
    compile (map push [[]; s x03; s x04]) = Some ux' /\
    evaluate ex_externals doc cf [x81] ux lx = Ret (result_of_error E_SIG_NULLFAIL) /\ spends ex_externals doc cf [x81] ux' lx.
Proof. cbv zeta. do 3 eexists. do 3 (split; [vm_compute; reflexivity|]). split; vm_compute; reflexivity. Qed.
Print Assumptions C137_any_keys_refuted.
