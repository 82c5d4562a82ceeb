(* Scripts and values for the examples of PropertiesBoost.  The first two scripts are on the chain (test/testBoost.cpp 428-441, 494-505). *)
From Coq Require Import Lia ZifyBool ZifyNat ZifyN.
From Verif Require Import Base ScriptModel ScriptSpec WireSpec NumModel WorkModel PatternModel PatternSpec BoostModel BoostSpec.
Local Open Scope N_scope.

Definition ex_script1 : bytes :=
  [x08; x62; x6f; x6f; x73; x74; x70; x6f; x77; x75; x04; x00; x00; x00; x00; x20; x35; xb8; xfc; xb6; x88; x2f; x93; xbd; xdb;
   x92; x8c; x98; x72; x19; x8b; xcd; xf0; x57; xab; x93; xed; x61; x5a; xd9; x38; xf2; x4a; x63; xab; xde; x58; x81; x04; xff;
   xff; x00; x1d; x14; x00; x00; x00; x00; x00; x00; x00; x00; x00; x00; x00; x00; x00; x00; x00; x00; x00; x00; x00; x00; x04;
   x00; x00; x00; x00; x20; x00; x00; x00; x00; x00; x00; x00; x00; x00; x00; x00; x00; x00; x00; x00; x00; x00; x00; x00; x00;
   x00; x00; x00; x00; x00; x00; x00; x00; x00; x00; x00; x00; x7e; x7c; x55; x7a; x76; x6b; x7e; x52; x79; x6b; x55; x7a; x82;
   x54; x88; x7e; x55; x7a; x82; x58; x88; x7e; x7c; x7e; xaa; x7c; x6b; x7e; x7e; x7c; x82; x54; x88; x7e; x6c; x7e; x7c; x82;
   x54; x88; x7e; xaa; x01; x00; x7e; x81; x6c; x82; x54; x88; x53; x7f; x76; x81; x53; x01; x21; xa5; x69; x6b; x76; x81; x00;
   xa0; x69; x1d; x00; x00; x00; x00; x00; x00; x00; x00; x00; x00; x00; x00; x00; x00; x00; x00; x00; x00; x00; x00; x00; x00;
   x00; x00; x00; x00; x00; x00; x00; x7e; x6c; x53; x94; x58; x95; x99; x01; x00; x7e; x81; x9f; x69; x76; xa9; x6c; x88; xac].
Definition ex_script2 : bytes :=
  [x08; x62; x6f; x6f; x73; x74; x70; x6f; x77; x75; x04; x78; x00; x00; x00; x20; x32; x55; x93; x00; x00; x00; x00; x00; x00;
   x00; x00; x00; x00; x00; x00; x00; x00; x00; x00; x00; x00; x00; x00; x00; x00; x00; x00; x00; x00; x00; x00; x00; x04; xff;
   xff; x00; x1d; x14; x23; x12; x00; x00; x00; x00; x00; x00; x00; x00; x00; x00; x00; x00; x00; x00; x00; x00; x00; x00; x04;
   x88; x66; x00; x00; x20; x94; x00; x00; x00; x00; x00; x00; x00; x00; x00; x00; x00; x00; x00; x00; x00; x00; x00; x00; x00;
   x00; x00; x00; x00; x00; x00; x00; x00; x00; x00; x00; x00; x7e; x7c; x55; x7a; x76; x6b; x7e; x52; x79; x6b; x55; x7a; x82;
   x54; x88; x7e; x55; x7a; x82; x58; x88; x7e; x7c; x7e; xaa; x7c; x6b; x7e; x7e; x7c; x82; x54; x88; x7e; x6c; x7e; x7c; x82;
   x54; x88; x7e; xaa; x01; x00; x7e; x81; x6c; x82; x54; x88; x53; x7f; x76; x81; x53; x01; x21; xa5; x69; x6b; x76; x81; x00;
   xa0; x69; x1d; x00; x00; x00; x00; x00; x00; x00; x00; x00; x00; x00; x00; x00; x00; x00; x00; x00; x00; x00; x00; x00; x00;
   x00; x00; x00; x00; x00; x00; x00; x7e; x6c; x53; x94; x58; x95; x99; x01; x00; x7e; x81; x9f; x69; x76; xa9; x6c; x88; xac].
Definition ex_content : bytes :=
  [x35; xb8; xfc; xb6; x88; x2f; x93; xbd; xdb; x92; x8c; x98; x72; x19; x8b; xcd; xf0; x57; xab; x93; xed; x61; x5a; xd9; x38; xf2; x4a; x63; xab; xde; x58; x81].
Definition ex_output1 : output := bounty_output 0 ex_content 0x1d00ffff (repeat x00 20) 0 (repeat x00 32) false.
Definition ex_output2 : output := bounty_output 120 ([x32; x55; x93] ++ repeat x00 29) 0x1d00ffff ([x23; x12] ++ repeat x00 18) 26248 (x94 :: repeat x00 31) false.
(* a contract with version bits *)
Definition ex_contract : output := contract_output (-5) ex_content 0x207fffff [x07] 9 [x81; x00] (repeat x11 20) true.
(* a contract with a tag of 21 bytes *)
Definition ex_long : output := contract_output 1 ex_content 0x207fffff (repeat x01 21) 9 [] (repeat x11 20) false.
(* the same output as ex_output1, with the number 5 written as a push of two bytes *)
Definition ex_roundabout : bytes := firstn 114 ex_script1 ++ [x02; x05; x00] ++ skipn 115 ex_script1.

Definition ex_input : input := contract_input (repeat x30 71) (x02 :: repeat x22 32) 7 0x5e6dc081 (repeat x44 32) 0x0a00000a (Some (-2)%Z).
Definition ex_bounty_input : input := bounty_input (repeat x30 72) (x03 :: repeat x22 32) 7 0x5e6dc081 (repeat x44 8) 0x0a00000a None (repeat x55 20).
(* a signature of 73 bytes *)
Definition ex_high : input := bounty_input (repeat x30 73) (x03 :: repeat x22 32) 7 0x5e6dc081 (repeat x44 8) 0x0a00000a None (repeat x55 20).
(* hash functions for the examples *)
Definition ex_low_hash (b : bytes) : bytes := n2b (len b) :: repeat x00 31.
Definition ex_h160 (b : bytes) : bytes := repeat x55 20.

Ltac by_compute := repeat (split; [vm_compute; reflexivity|]); vm_compute; reflexivity.
Lemma ex_i32 z : ((-2147483648 <=? z) && (z <? 2147483648))%Z = true -> i32 z.
Proof. unfold i32. change (2 ^ 31)%Z with 2147483648%Z. lia. Qed.
Lemma ex_u32 n : n <? 4294967296 = true -> u32 n.
Proof. unfold u32. change (2 ^ 32) with 4294967296. lia. Qed.
Lemma ex_output1_sound : sound_output ex_output1.
Proof.
  split; [|split; [vm_compute; discriminate|reflexivity]]. split; [reflexivity|]. split; [now apply ex_i32|]. split; [reflexivity|]. split; now apply ex_u32.
Qed.
Lemma ex_contract_sound : sound_output ex_contract.
Proof.
  split; [|split; [vm_compute; discriminate|exact Logic.I]]. split; [reflexivity|]. split; [now apply ex_i32|]. split; [reflexivity|]. split; now apply ex_u32.
Qed.
Lemma ex_input_sound : sound_input ex_input.
Proof.
  split; [|split; [vm_compute; discriminate|reflexivity]]. split; [reflexivity|]. split; [now left|]. split; [now apply ex_u32|]. split; [now apply ex_u32|].
  split; [now apply ex_u32|now apply ex_i32].
Qed.
Lemma ex_bounty_sound : sound_input ex_bounty_input.
Proof.
  split; [|split; [reflexivity|exact Logic.I]]. split; [reflexivity|]. split; [now left|]. split; [now apply ex_u32|]. split; [now apply ex_u32|].
  split; [now apply ex_u32|exact Logic.I].
Qed.
Lemma ex_high_sound : sound_input ex_high.
Proof.
  split; [|split; [reflexivity|exact Logic.I]]. split; [reflexivity|]. split; [now left|]. split; [now apply ex_u32|]. split; [now apply ex_u32|].
  split; [now apply ex_u32|exact Logic.I].
Qed.
