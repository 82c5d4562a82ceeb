(* Sample data for redeeming boost outputs. *)
From Coq Require Import Lia Permutation.
From Verif Require Import Base BaseProofs WireModel WireSpec TextModel SecpModel SecpSpec SecpExamples ScriptModel ScriptSpec MachineModel MachineSpec MachineExamples PatternModel.
From Verif Require Import SighashModel SighashSpec ExtModel WorkModel WorkSpec BoostModel BoostSpec BoostExamples StraightSpec PayRunSpec PayRunProofs BoostRunSpec BoostRunRedeem BoostRunExamples.
From Verif Require Import RedeemModel RedeemSpec RedeemExamples BoostRedeemModel BoostRedeemSpec BoostRedeemProofs.
Local Open Scope N_scope.

(* the world of RedeemExamples.v with another hash function *)
Definition ex_bworld : world :=
  {| w_ripemd := ex_head 20; w_sha := ex_cut 32; w_hash := fun b => ex_cut 32 (ex_cut 32 b); w_parse := ex_parse; w_ser := ex_ser; w_der := ex_signature;
     w_ecdsa := ex_verify; w_sign := fun s h => s ++ h; w_compressed := fun k => len k =? 33; w_minimal := fun _ => true;
     w_normalized := fun _ => true; w_neg1 := [x81] |}.
Lemma ex_bworld_sound : sound ex_bworld /\ machine_of ex_bworld ex_machine /\ twice ex_bworld.
Proof.
  split; [|split].
  - destruct (ex_world_sound ex_verify) as [A B C D E F]. constructor; try assumption. intros b. exact (ex_cut_len 32 _).
  - exact (ex_machine_of ex_verify).
  - intros b. reflexivity.
Qed.
Lemma ex_miner : miner ex_bworld (c_flags ex_redeem_config) (ex_key ex_secret).
Proof. constructor; [exact ex_secret_ok|exact (ex_world_signs _ ex_secret_ok)|reflexivity|reflexivity]. Qed.

Definition ex_b_ref (n : N) : outpoint := {| op_digest := repeat x07 32; op_index := n |}.
Definition ex_b_script : bytes := match output_write ex_run_bounty with Some s => s | None => [] end.
Definition ex_b_cand : bcand :=
  {| bn_script := ex_b_script; bn_prevouts := [{| bv_ref := ex_b_ref 0; bv_value := 1000 |}; {| bv_ref := ex_b_ref 1; bv_value := 2000 |}] |}.
Definition ex_b_outs : list WireModel.output := [{| out_value := 2900; out_script := [x51] |}].
Definition ex_b_solution (timestamp nonce : N) : solution :=
  {| so_share := {| sh_timestamp := timestamp; sh_nonce := nonce; sh_extra2 := repeat x44 8; sh_bits := None |}; so_extra1 := 0x0a00000a |}.
Lemma ex_b_for : candidate_for ex_bworld ex_b_cand ex_run_bounty.
Proof. split; [exact ex_run_bounty_writable|]. split; vm_compute; reflexivity. Qed.
Lemma ex_b_spendable : spendable ex_b_cand ex_b_outs.
Proof.
  split; [|split; [|vm_compute; discriminate]].
  - split; [split; vm_compute; (discriminate||reflexivity)|]. split; [split; [reflexivity|]|split; [split; [reflexivity|]|reflexivity]].
    + repeat (apply Forall_cons || apply Forall_nil); (split; [split; vm_compute; reflexivity|vm_compute; reflexivity]).
    + repeat (apply Forall_cons || apply Forall_nil). split; [split; vm_compute; (discriminate||reflexivity)|vm_compute; reflexivity].
  - repeat (apply Forall_cons || apply Forall_nil); split; vm_compute; (discriminate||reflexivity).
Qed.
Lemma ex_b_solution_wf t n : u32 t -> u32 n -> solution_wf (ex_b_solution t n).
Proof. intros A B. split; [exact A|]. split; [exact B|]. split; [vm_compute; reflexivity|exact Logic.I]. Qed.
Lemma ex_b_collects : collects ex_bworld ex_redeem_config ex_run_bounty (ex_key ex_secret) (ex_b_solution 0x5e6dc081 7).
Proof.
  constructor.
  - split; [vm_compute; discriminate|]. split; vm_compute; reflexivity.
  - discriminate.
  - vm_compute. reflexivity.
  - apply custom_numbers; [vm_compute; reflexivity|]. split; [split; vm_compute; discriminate|]. split; vm_compute; reflexivity.
  - intros _. repeat (apply Forall_cons || apply Forall_nil); vm_compute; reflexivity.
Qed.

(* a set as a list: the new element is put in front *)
Definition ex_insert (l : list bprevout) (v : bprevout) : list bprevout := if existsb (fun u => outpoint_eqb (bv_ref u) (bv_ref v)) l then l else v :: l.
Lemma ex_insert_set : set_insertion ex_insert.
Proof.
  intros l v. unfold ex_insert. destruct (existsb _ l) eqn:E; split; intros H.
  - exfalso. apply H. apply existsb_exists in E as (u & Hu & Eu). apply outpoint_eqb_iff in Eu. rewrite <- Eu. now apply in_map.
  - split; [reflexivity|auto].
  - reflexivity.
  - exfalso. apply in_map_iff in H as (u & Eu & Hu). assert (T : existsb (fun u => outpoint_eqb (bv_ref u) (bv_ref v)) l = true).
    { apply existsb_exists. exists u. split; [assumption|]. apply outpoint_eqb_iff. assumption. } congruence.
Qed.
Definition ex_utxo (n : N) (value : Z) (script : bytes) : utxo := {| ut_ref := ex_b_ref n; ut_output := {| out_value := value; out_script := script |} |}.

(* outputs of two kinds *)
Definition ex_mixed : bcand := {| bn_script := ex_b_script; bn_prevouts := [{| bv_ref := ex_b_ref 1; bv_value := 2000 |}; {| bv_ref := ex_b_ref 0; bv_value := 1000 |}] |}.
Definition ex_mixed_tx : tx := Eval vm_compute in
  match redeemed_by ex_bworld ex_mixed (ex_key ex_secret) (ex_b_solution 0x5e6dc081 7) ex_b_outs with Ret b => tx_of_slice b | _ => tx_of_slice [] end.
