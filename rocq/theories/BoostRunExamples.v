From Verif Require Import Base ScriptModel NumModel StackModel MachineModel MachineSpec MachineExamples.
From Verif Require Import WireSpec WorkModel PatternModel BoostModel BoostSpec BoostExamples StraightSpec BoostRunSpec.
Local Open Scope N_scope.

Definition ex_run_key : bytes := repeat x02 33.
Definition ex_run_contract (target : N) (data : bytes) : output := contract_output (-5) ex_content target [x07] 9 data (repeat x01 20) true.
Definition ex_run_bounty : output := bounty_output 120 ex_content 0x207fffff [x23; x12] 26248 [x94] false.
Definition ex_run_input : input := contract_input (ex_run_key ++ [x41]) ex_run_key 7 0x5e6dc081 (repeat x44 32) 0x0a00000a (Some (-2)%Z).
Definition ex_run_claim : input := bounty_input (ex_run_key ++ [x41]) ex_run_key 7 0x5e6dc081 (repeat x44 8) 0x0a00000a None (repeat x01 20).
Definition ex_run_doc (f : flag) : option rdoc := Some (ex_document f).

Lemma ex_run_contract_writable target data : target <? 4294967296 = true -> len data <? 2147483648 = true -> writable_output (ex_run_contract target data).
Proof.
  intros T D. split; [|split; [reflexivity|split; [|discriminate]]].
  - split; [reflexivity|]. split; [now apply ex_i32|]. split; [reflexivity|]. split; now apply ex_u32.
  - change (2 ^ 31) with 2147483648. now apply N.ltb_lt.
Qed.
Lemma ex_run_bounty_writable : writable_output ex_run_bounty.
Proof.
  split; [|split; [reflexivity|split; [reflexivity|discriminate]]]. split; [reflexivity|]. split; [now apply ex_i32|]. split; [reflexivity|]. split; now apply ex_u32.
Qed.
Lemma ex_run_input_writable : writable_input ex_run_input /\ extra2_fits ex_run_input.
Proof.
  split; [|vm_compute; discriminate]. split; [|split; [reflexivity|split; [reflexivity|discriminate]]]. split; [reflexivity|]. split; [now left|].
  split; [now apply ex_u32|]. split; [now apply ex_u32|]. split; [now apply ex_u32|now apply ex_i32].
Qed.
Lemma ex_run_claim_writable : writable_input ex_run_claim /\ extra2_fits ex_run_claim.
Proof.
  split; [|reflexivity]. split; [|split; [reflexivity|split; [reflexivity|discriminate]]]. split; [reflexivity|]. split; [now left|].
  split; [now apply ex_u32|]. split; [now apply ex_u32|]. split; [now apply ex_u32|exact Logic.I].
Qed.
Lemma ex_standard : standard ex_externals.
Proof. split; [|intros b; repeat split; reflexivity]. intros n m _. split; reflexivity. Qed.
(* every hash is zero *)
Definition ex_zero_externals : externals :=
  {| x_ripemd160 := x_ripemd160 ex_externals; x_sha1 := x_sha1 ex_externals; x_sha256 := fun _ => repeat x00 32; x_div := Z.quot; x_mod := Z.rem |}.
