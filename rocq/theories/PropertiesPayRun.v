From Coq Require Import Lia ZifyBool ZifyNat ZifyN.
From Verif Require Import Base ScriptModel ScriptSpec StackModel StackSpec NumModel MachineModel MachineSpec MachineExamples PatternModel.
From Verif Require Import StraightSpec StraightProofs StraightEval PayRunSpec PayRunProofs.
Local Open Scope N_scope.

(* C92: an output that pays to an address is spent exactly by a key with that address and a signature for it *)
Theorem C92_address : forall X doc cf neg1, standard X -> c_max_memory cf < 2 ^ 63 ->
  forall d lx ux u, len d = 20 -> p2a_script d = Some lx -> decompile ux = Ret u -> is_push_program u = true ->
  70 * len ux + len neg1 + 200 < 2 ^ 31 ->
  (spends X doc cf neg1 ux lx -> address_unlocked X doc cf d u) /\
  (enough cf (2 * footprint (stack_after u) + 104) 5 -> address_unlocked X doc cf d u -> spends X doc cf neg1 ux lx).
Proof. exact address_spends. Qed.
Print Assumptions C92_address.
Theorem C92_pubkey : forall X doc cf neg1, standard X -> c_max_memory cf < 2 ^ 63 ->
  forall k lx ux u, len k = 33 \/ len k = 65 -> p2p_script k = Some lx -> decompile ux = Ret u -> is_push_program u = true ->
  70 * len ux + len neg1 + 400 < 2 ^ 31 ->
  (spends X doc cf neg1 ux lx -> pubkey_unlocked doc cf k u) /\
  (enough cf (footprint (stack_after u) + 97) 2 -> pubkey_unlocked doc cf k u -> spends X doc cf neg1 ux lx).
Proof. exact pubkey_spends. Qed.
Print Assumptions C92_pubkey.
(* when unlocking scripts may only push, no other script spends it *)
Theorem C92_address_protected : forall X doc cf neg1, standard X -> c_max_memory cf < 2 ^ 63 ->
  forall d lx ux, has_flag FLAG_SIGPUSHONLY (c_flags cf) = true -> len d = 20 -> p2a_script d = Some lx ->
  70 * len ux + len neg1 + 200 < 2 ^ 31 -> spends X doc cf neg1 ux lx ->
  exists u, decompile ux = Ret u /\ is_push_program u = true /\ address_unlocked X doc cf d u.
Proof. exact address_protected. Qed.
Print Assumptions C92_address_protected.
(* the unlocking script that the library writes *)
Theorem C92_redeemed : forall X doc cf neg1, standard X -> c_max_memory cf < 2 ^ 63 ->
  forall d lx sig key ux, len d = 20 -> p2a_script d = Some lx -> len sig < 256 -> len key < 256 -> p2a_redeem sig key = Some ux ->
  len neg1 < 2 ^ 30 ->
  (spends X doc cf neg1 ux lx -> x_ripemd160 X (x_sha256 X key) = d /\ signed doc (address_program d) sig key) /\
  (enough cf (2 * (len sig + len key) + 232) 5 -> x_ripemd160 X (x_sha256 X key) = d -> signed doc (address_program d) sig key ->
   spends X doc cf neg1 ux lx).
Proof. exact address_redeemed. Qed.
Print Assumptions C92_redeemed.
(* what a redemption document of the library accepts *)
Theorem C92_signed : forall K f v lt sq l sig pub,
  signed (Some (document K f v lt sq)) l sig pub <-> signature_fine K f (cleanup_script_code l sig) sig pub.
Proof. exact signed_fine. Qed.
Print Assumptions C92_signed.
Theorem C92_signed_code : forall K f v lt sq l sig pub, has_flag FLAG_REQUIRE_FORKID f = true ->
  signed (Some (document K f v lt sq)) l sig pub -> signature_fine K f l sig pub.
Proof. exact signed_code. Qed.
Print Assumptions C92_signed_code.
(* the configurations of the library leave enough room *)
Theorem C92_library_enough : forall f c memory operations, memory < 2 ^ 31 -> operations <= 500 ->
  has_flag FLAG_GENESIS_STACK f = true \/ memory <= 520 ->
  enough (script_config f c) memory operations /\ c_max_memory (script_config f c) < 2 ^ 63.
Proof. exact library_enough. Qed.
Print Assumptions C92_library_enough.

Example C92_example :
  let key := repeat x02 33 in let sig := key ++ [x41] in let cf := script_config genesis_profile true in
  let doc := Some (ex_document genesis_profile) in
  exists lx ux, p2a_script (repeat x01 20) = Some lx /\ p2a_redeem sig key = Some ux /\
    standard ex_externals /\ c_max_memory cf < 2 ^ 63 /\ enough cf (2 * (len sig + len key) + 232) 5 /\
    has_flag FLAG_SIGPUSHONLY (c_flags cf) = true /\
    spends ex_externals doc cf [x81] ux lx /\ signed doc (address_program (repeat x01 20)) sig key /\
    (exists ux', p2a_redeem (repeat x03 33 ++ [x41]) key = Some ux' /\ ~ spends ex_externals doc cf [x81] ux' lx) /\
    (exists lx', p2a_script (repeat x05 20) = Some lx' /\ ~ spends ex_externals doc cf [x81] ux lx').
Proof.
  do 2 eexists. do 2 (split; [vm_compute; reflexivity|]). split; [|split; [|split; [|split; [|split; [|split; [|split]]]]]].
  - split; [|intros b; repeat split; reflexivity]. intros n m _. split; reflexivity.
  - vm_compute. reflexivity.
  - apply library_enough; [vm_compute; reflexivity|discriminate|left; vm_compute; reflexivity].
  - vm_compute. reflexivity.
  - vm_compute. reflexivity.
  - vm_compute. reflexivity.
  - eexists. split; [vm_compute; reflexivity|]. vm_compute. discriminate.
  - eexists. split; [vm_compute; reflexivity|]. vm_compute. discriminate.
Qed.
(* before genesis as well *)
Example C92_example_old :
  let key := repeat x02 65 in let sig := repeat x02 65 ++ [x41] in let cf := script_config pre_genesis_profile true in
  exists lx ux, p2a_script (repeat x01 20) = Some lx /\ p2a_redeem sig key = Some ux /\
    enough cf (2 * (len sig + len key) + 232) 5 /\ spends ex_externals (Some (ex_document pre_genesis_profile)) cf [x81] ux lx.
Proof.
  do 2 eexists. do 2 (split; [vm_compute; reflexivity|]). split; [apply library_enough; [vm_compute; reflexivity|discriminate|right; vm_compute; discriminate]|].
  vm_compute. reflexivity.
Qed.
(* a key in the locking script *)
Example C92_example_pubkey :
  let key := repeat x02 33 in let sig := key ++ [x41] in let cf := script_config genesis_profile false in
  exists lx ux, p2p_script key = Some lx /\ p2p_redeem sig = Some ux /\ spends ex_externals (Some (ex_document genesis_profile)) cf [x81] ux lx.
Proof. do 2 eexists. do 2 (split; [vm_compute; reflexivity|]). vm_compute. reflexivity. Qed.
(* without SIGPUSHONLY, as before genesis, anyone can spend it: see C62 *)
Theorem C92_protected_refuted : exists lx, p2a_script (repeat x05 20) = Some lx /\
  spends ex_externals (Some (ex_document pre_genesis_profile)) (script_config pre_genesis_profile true) [x81] [OP_1; OP_0; OP_IF; OP_ENDIF] lx.
Proof. eexists. split; [vm_compute; reflexivity|]. vm_compute. reflexivity. Qed.
Print Assumptions C92_protected_refuted.
