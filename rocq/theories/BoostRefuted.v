From Coq Require Import Lia ZifyBool ZifyNat ZifyN.
From Verif Require Import Base ScriptModel ScriptSpec WireModel WireSpec NumModel WorkModel.
From Verif Require Import PatternModel PatternSpec BoostModel BoostSpec BoostProofs BoostWrite BoostInput BoostTotal BoostWork BoostExamples.
Local Open Scope N_scope.

Lemma long_contract : exists o s, writable_output o /\ output_valid o = true /\ output_write o = Some s /\
  forall neg1, len neg1 < 4 -> output_read neg1 s = Ret no_output.
Proof.
  assert (W : writable_output ex_long).
  { split; [|split; [vm_compute; reflexivity|split; [vm_compute; reflexivity|discriminate]]].
    split; [reflexivity|]. split; [now apply ex_i32|]. split; [reflexivity|]. split; now apply ex_u32. }
  exists ex_long. eexists. split; [exact W|]. split; [reflexivity|]. assert (E := output_write_exact ex_long W). split; [exact E|].
  intros neg1 L. rewrite (output_round_trip neg1 ex_long _ L W ltac:(discriminate) E). reflexivity.
Qed.
Lemma rewritten : exists a b o, a <> b /\ sound_output o /\ output_read [x81] a = Ret o /\ output_read [x81] b = Ret o.
Proof.
  exists ex_script1, ex_roundabout, ex_output1. split; [intros X; apply (f_equal len) in X; vm_compute in X; discriminate|].
  split; [exact ex_output1_sound|]. by_compute.
Qed.
Lemma version_of_type : exists a b, output_read [x81] a = Ret ex_output1 /\ output_read [x81] b = Ret ex_output2 /\ bo_category ex_output1 <> bo_category ex_output2 /\
  output_version [x81] a = Ret 1%Z /\ output_version [x81] b = Ret 1%Z.
Proof.
  exists ex_script1, ex_script2. split; [vm_compute; reflexivity|]. split; [vm_compute; reflexivity|]. split; [discriminate|]. by_compute.
Qed.
Lemma estimate_short : exists i s, sound_input i /\ len (bi_sig i) = signature_max /\ len (bi_extra2 i) = 8 /\ input_write i = Some s /\
  input_expected_size (bi_type i) (has_bits i) true < len s.
Proof. exists ex_high. eexists. split; [exact ex_high_sound|]. by_compute. Qed.
Lemma candidates_confused : (forall a b, bcandidate_eqb a b = true <-> bc_script a = bc_script b) /\
  exists a b, a <> b /\ bcandidate_eqb a b = true.
Proof.
  split; [exact candidates_equal|]. exists {| bc_script := []; bc_prevouts := [] |}, {| bc_script := []; bc_prevouts := [([], 1%Z)] |}.
  split; [discriminate|reflexivity].
Qed.
