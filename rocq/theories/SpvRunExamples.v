From Coq Require Import Lia ZifyBool ZifyNat ZifyN.
From Verif Require Import Base BaseProofs WireModel WireSpec TextModel SecpModel SecpSpec SecpExamples ScriptModel ScriptSpec StackModel StackSpec MachineModel MachineSpec.
From Verif Require Import PatternModel PatternSpec SighashModel SighashSpec ExtModel StraightSpec PayRunSpec RedeemModel RedeemSpec RedeemProofs RedeemExamples.
From Verif Require Import MerkleModel WorkModel BeefModel SpvModel AncModel AncSpec AncProofs SpvRunModel SpvRunSpec SpvRunProofs.
Local Open Scope N_scope.

(* a transaction with the outputs that are spent in RedeemExamples, the id to which they refer, and a block of it alone *)
Definition ex_paid : tx := {| tx_version := 1; tx_inputs := []; tx_outputs :=
  [{| out_value := 1000; out_script := ex_address_script |}; {| out_value := 1000; out_script := ex_key_script |}; {| out_value := 0; out_script := repeat x07 40 |}]; tx_locktime := 0x07070707 |}.
Definition ex_paid_id : bytes := repeat x07 32.
Definition ex_paid_block : header := {| h_version := 1; h_previous := repeat x00 32; h_merkle_root := ex_paid_id; h_timestamp := 1000; h_target := 0x207fffff; h_nonce := 0 |}.
Definition ex_paid_conf : confirmation := mkconf (mkpath 0 []) 1 ex_paid_block.
Definition ex_wallet (d : bytes) : dbtx := mkdbtx (if bytes_eqb d ex_paid_id then Some ex_paid else None) ex_paid_conf.
Definition ex_one_root (d : bytes) : bool := bytes_eqb d ex_paid_id.
Lemma ex_paid_is : tx_id (ex_cut 32) ex_paid = ex_paid_id.
Proof. vm_compute. reflexivity. Qed.
Lemma ex_header_ok : header_valid (ex_cut 32) ex_paid_block = true.
Proof. vm_compute. reflexivity. Qed.
Lemma ex_wallet_mined : look_mined ex_wallet (ex_cut 32) ex_one_root.
Proof.
  intros x t T C. unfold ex_wallet in *. cbn [x_tx x_conf] in *. destruct (bytes_eqb x ex_paid_id) eqn:E; [|discriminate]. assert (t = ex_paid) as -> by congruence.
  split; [reflexivity|]. split; [exact ex_header_ok|]. cbn [ex_paid_conf c_path c_header]. rewrite ex_paid_is. reflexivity.
Qed.
Lemma ex_wallet_ranked : ranked ex_wallet 1.
Proof.
  exists (fun _ => 0%nat). split; [intros; constructor|]. intros x t i T C. exfalso. unfold ex_wallet, dbtx_confirmed, dbtx_valid in *. cbn [x_tx x_conf] in *. rewrite T in C. discriminate C.
Qed.
Definition ex_payment : tx := match redeem (by_default (ex_world ex_verify)) ex_redeemable with Ret t => xtx_plain t | _ => ex_paid end.
Lemma ex_payment_refs i : In i (tx_inputs ex_payment) -> op_digest (in_ref i) = ex_paid_id.
Proof.
  assert (F : forallb (fun i => bytes_eqb (op_digest (in_ref i)) ex_paid_id) (tx_inputs ex_payment) = true) by (vm_compute; reflexivity).
  intros I0. rewrite forallb_forall in F. apply bytes_eqb_eq, F, I0.
Qed.
Lemma ex_unproved a : unproved ex_wallet [ex_payment] a -> a = ex_payment.
Proof.
  intros U. induction U as [t [<- |[]]|t i a U IH I0 Xa C]; [reflexivity|]. subst t. apply ex_payment_refs in I0. rewrite I0 in C. vm_compute in C. discriminate C.
Qed.
Lemma payment_example : let w := ex_world ex_verify in exists t, redeem (by_default w) ex_redeemable = Ret t /\
  sound w /\ machine_of w ex_machine /\ itx_wf (design_incomplete (design_of ex_redeemable)) /\ N.of_nat (length (rd_inputs ex_redeemable)) <= 2 ^ 32 /\
  Forall (from_wallet w ex_wallet) (rd_inputs ex_redeemable) /\ design_funded wrap64 ex_redeemable /\ look_mined ex_wallet (w_hash w) ex_one_root /\ ranked ex_wallet 1 /\
  dbtx_confirmed (ex_wallet (tx_id (w_hash w) (xtx_plain t))) = false /\ known_inputs ex_wallet [xtx_plain t] /\ ancestors_ok w ex_machine ex_wallet wrap64 (At 500) (xtx_plain t).
Proof.
  assert (R : exists t, redeem (by_default (ex_world ex_verify)) ex_redeemable = Ret t) by (eexists; vm_compute; reflexivity). destruct R as (t & R).
  assert (P : xtx_plain t = ex_payment) by (unfold ex_payment; rewrite R; reflexivity).
  exists t. split; [exact R|]. rewrite P. clear t R P.
  split; [apply ex_world_sound|]. split; [apply ex_machine_of|]. split; [exact ex_redeemable_wf|]. split; [vm_compute; discriminate|]. split.
  { apply Forall_cons; [|apply Forall_cons; [|apply Forall_nil]]; (split; [eexists; eexists; first [exact ex_ready_address|exact ex_ready_key]|]); exists ex_paid; split; reflexivity. }
  split; [vm_compute; discriminate|]. split; [exact ex_wallet_mined|]. split; [exact ex_wallet_ranked|]. split; [vm_compute; reflexivity|]. split.
  - intros t i U I0. apply ex_unproved in U. subst t. apply ex_payment_refs in I0. rewrite I0. reflexivity.
  - intros a U D. apply ex_unproved in U. contradiction.
Qed.
Lemma payment_runs : exists p, generate_proof true ex_wallet (ex_cut 32) 1 [ex_payment] = Done (Some p) /\
  validate (ex_cut 32) wrap64 (script_passes (ex_world ex_verify) ex_machine) ex_one_root NegInf (At 500) p = Done true /\
  validate (ex_cut 32) wrap64 (script_passes (ex_world ex_verify) ex_machine) ex_one_root PosInf (At 2000) p = Done true.
Proof. eexists. split; [vm_compute; reflexivity|]. split; vm_compute; reflexivity. Qed.

(* ---- a payment with the one signature of a key *)
Definition ex_once_tx : tx := {| tx_version := 1; tx_inputs := [{| in_ref := {| op_digest := ex_paid_id; op_index := 0 |}; in_script := ex_once_script; in_seq := 4294967295 |}];
  tx_outputs := [{| out_value := 900; out_script := [x51] |}]; tx_locktime := 0 |}.
Definition ex_once_proof : aproof := mkaproof [ex_once_tx] [(ex_paid_id, Some (mkanode ex_paid (Confirmed ex_paid_conf)))].
Definition ex_once_doc : sdoc := {| sd_tx := itx_of ex_once_tx; sd_index := 0; sd_value := 1000; sd_code := address_program ex_address |}.
Lemma ex_once_in k a : node_in (ap_map ex_once_proof) k a -> k = ex_paid_id /\ a = mkanode ex_paid (Confirmed ex_paid_conf).
Proof.
  assert (S0 : forall s, submap (ap_map ex_once_proof) s -> s = ap_map ex_once_proof).
  { intros s SU. induction SU as [|k' t s m' SU IH I0]; [reflexivity|]. subst s. destruct I0 as [E|[]]. exfalso. congruence. }
  intros (s & SU & I0). rewrite (S0 s SU) in I0. destruct I0 as [E|[]]. split; congruence.
Qed.
Lemma ex_once_names d pre : sighash_write (ex_cut 32) ex_once_doc d = Some pre -> nth 3 (ex_cut 32 pre) x00 = d.
Proof. destruct d; vm_compute; intros E; injection E as <-; reflexivity. Qed.
Lemma ex_once_free : collision_free ex_once ex_once_doc [(ex_signed_doc, ex_loose)].
Proof.
  intros doc d pre [E | []] W. assert (E1 : doc = ex_signed_doc) by congruence. assert (E2 : d = ex_loose) by congruence. subst doc d.
  assert (P : pre = ex_preimage) by (vm_compute in W |- *; congruence). subst pre.
  split; [vm_compute; discriminate |]. split.
  - intros d pre W' Q. cbn [w_hash ex_once ex_world] in W', Q, W. pose proof (ex_once_names d pre W') as N1. rewrite Q, (ex_names _ _ W) in N1. subst d.
    assert (W2 : sighash_write (ex_cut 32) ex_once_doc ex_loose = Some ex_preimage) by (vm_compute; reflexivity). congruence.
  - assert (A : acp_bit ex_loose) by (unfold acp_bit; vm_compute; discriminate).
    intros m n Hm. inversion Hm as [? B|? B|? B|? ? B]; try contradiction; discriminate B.
Qed.
Lemma authorised_example : sound ex_once /\ machine_of ex_once ex_machine /\ well_keyed (w_hash ex_once) (ap_map ex_once_proof) /\ ~ confused (w_hash ex_once) (ap_map ex_once_proof) /\
  validate (w_hash ex_once) wrap64 (script_passes ex_once ex_machine) ex_one_root NegInf (At 500) ex_once_proof = Done true /\ itx_wf (itx_of ex_once_tx) /\
  p2a_script ex_address = Some ex_address_script /\ sdoc_wf ex_signed_doc /\ signed_only ex_once ex_address [(ex_signed_doc, ex_loose)] /\ collision_free ex_once ex_once_doc [(ex_signed_doc, ex_loose)].
Proof.
  split; [apply ex_world_sound|]. split; [apply ex_machine_of|]. split; [intros k a N0; destruct (ex_once_in k a N0) as (-> & ->); exact ex_paid_is|]. split.
  { intros (k & a & l & b & A & B & NE & _). destruct (ex_once_in k a A) as (_ & ->), (ex_once_in l b B) as (_ & ->). apply NE. reflexivity. }
  split; [vm_compute; reflexivity|]. split.
  { split; [split; vm_compute; (discriminate || reflexivity)|]. split; [split; [reflexivity|]|split; [split; [reflexivity|]|reflexivity]]; repeat (apply Forall_cons || apply Forall_nil).
    - split; [split; reflexivity|reflexivity].
    - split; [split; vm_compute; (discriminate || reflexivity)|vm_compute; reflexivity]. }
  split; [vm_compute; reflexivity|]. split; [exact ex_signed_wf|]. split; [exact ex_signed_only|exact ex_once_free].
Qed.
Definition ex_thief : tx := {| tx_version := 1; tx_inputs := [{| in_ref := {| op_digest := ex_paid_id; op_index := 0 |}; in_script := no_signature; in_seq := 0 |}];
  tx_outputs := [{| out_value := 1000; out_script := [x51] |}]; tx_locktime := 0 |}.
Lemma before_example : let w := ex_world ex_verify in sound w /\ machine_of w ex_machine /\ mined (w_hash w) ex_one_root ex_paid ex_paid_conf /\ limit_gt (At 2000) (At 1000) = true /\
  at_index (tx_outputs ex_paid) 0 = Some {| out_value := 1000; out_script := ex_address_script |} /\ plain_lock ex_address_script /\ takes w ex_thief ex_paid 0 /\
  funded wrap64 ex_thief [{| out_value := 1000; out_script := ex_address_script |}] /\
  validate (w_hash w) wrap64 (script_passes w ex_machine) ex_one_root PosInf (At 2000) (mkaproof [ex_thief] [(ex_paid_id, Some (mkanode ex_paid (Confirmed ex_paid_conf)))]) = Done true.
Proof.
  split; [apply ex_world_sound|]. split; [apply ex_machine_of|]. split; [apply (ex_wallet_mined ex_paid_id ex_paid); reflexivity|]. split; [reflexivity|]. split; [reflexivity|].
  split; [apply (address_plain ex_address); [vm_compute; reflexivity|vm_compute; reflexivity]|]. split; [exists 0; unfold ex_thief; cbn [tx_inputs]; change (w_hash (ex_world ex_verify)) with (ex_cut 32); rewrite ex_paid_is; reflexivity|].
  split; [vm_compute; discriminate|vm_compute; reflexivity].
Qed.
