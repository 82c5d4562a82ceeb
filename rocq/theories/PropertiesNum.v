(* C12, C14: script numbers. *)
From Verif Require Import Base ScriptModel NumModel NumSpec NumProofs ShiftProofs.
Local Open Scope N_scope.

(* C12 *)
Theorem C12_encoding : forall z, sn_val (sn_enc z) = z /\ is_minimal_number (sn_enc z) = true.
Proof. exact enc_canonical. Qed.
Print Assumptions C12_encoding.
Theorem C12_value_is_sign_and_magnitude : forall b z, number_of b z <-> sn_val b = z.
Proof. exact number_of_iff. Qed.
Print Assumptions C12_value_is_sign_and_magnitude.
Theorem C12_minimal_is_canonical : forall b, is_minimal_number b = true <-> sn_enc (sn_val b) = b.
Proof. exact minimal_iff. Qed.
Print Assumptions C12_minimal_is_canonical.
Theorem C12_minimal_injective : forall a b, is_minimal_number a = true -> is_minimal_number b = true ->
  sn_val a = sn_val b -> a = b.
Proof. exact minimal_inj. Qed.
Print Assumptions C12_minimal_injective.
Theorem C12_shortest : forall b z, number_of b z -> (length (sn_enc z) <= length b)%nat.
Proof. exact enc_shortest_spec. Qed.
Print Assumptions C12_shortest.
Theorem C12_zero_and_trim : sn_enc 0 = [] /\
  forall b, sn_val (trim_number b) = sn_val b /\ is_minimal_number (trim_number b) = true.
Proof. exact zero_and_trim. Qed.
Print Assumptions C12_zero_and_trim.
Theorem C12_extend : forall b n, len b <= n -> len (extend_number b n) = n /\ sn_val (extend_number b n) = sn_val b.
Proof. exact extend_keeps. Qed.
Print Assumptions C12_extend.
Theorem C12_sign_tests : forall b z, number_of b z ->
  nonzero b = negb (z =? 0)%Z /\ is_zero b = (z =? 0)%Z /\
  is_negative b = (z <? 0)%Z /\ is_positive b = (0 <? z)%Z.
Proof. exact sign_tests. Qed.
Print Assumptions C12_sign_tests.
Example C12_example : sn_enc (-1) = [x81] /\ sn_enc 128 = [x80; x00] /\ sn_enc (-255) = [xff; x80] /\
  sn_val [x00; x80] = 0%Z /\ is_minimal_number [x00; x80] = false /\ is_minimal_number [x80] = false /\
  number_of [xff; x80] (-255) /\ extend_number [x81] 4 = [x01; x00; x00; x80] /\ trim_number [x01; x00; x00; x80] = [x81].
Proof. repeat split. apply number_of_iff. reflexivity. Qed.

(* C14 *)
Theorem C14_operand_exact : forall b minimal max,
  (max < len b -> read_integer b minimal max = inl E_SCRIPTNUM_OVERFLOW) /\
  (len b <= max -> minimal = true -> (forall z, b <> sn_enc z) -> read_integer b minimal max = inl E_SCRIPTNUM_MINENCODE) /\
  (len b <= max -> minimal = false \/ (exists z, b = sn_enc z) -> read_integer b minimal max = inr b).
Proof. exact read_integer_exact. Qed.
Print Assumptions C14_operand_exact.
Example C14_example : read_integer [x01; x00] true 4 = inl E_SCRIPTNUM_MINENCODE /\
  read_integer [x01; x00] false 4 = inr [x01; x00] /\
  read_integer (repeat x01 5) false 4 = inl E_SCRIPTNUM_OVERFLOW /\ read_integer (sn_enc 70000) true 4 = inr (sn_enc 70000).
Proof. repeat split. Qed.
