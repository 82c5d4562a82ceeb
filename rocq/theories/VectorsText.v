(* The model run on the values of /repo/test: testBase58Check.cpp, testFormat.cpp. *)
From Coq Require Import String.
From Verif Require Import Base WireModel TextModel SecpModel Sha256Spec Ripemd160Spec CurveSpec.
Local Open Scope N_scope.
Local Open Scope string_scope.

Definition unhex (s : string) : bytes := match hex_read (text s) with Some b => b | None => [] end.

(* testBase58Check.cpp *)
Succeed Example base58_0 : check_encode sha256d [] (x00 :: unhex "010203fdfeff") = text "14HV44ipwoaqfg" /\
  check_decode sha256d (text "14HV44ipwoaqfg") = x00 :: unhex "010203fdfeff" :=
  ltac:(split; vm_compute; reflexivity).
Succeed Example base58_3 : check_encode sha256d [] (x03 :: unhex "010203fdfeff") = text "kCr8KebD6cWdVj" /\
  check_decode sha256d (text "kCr8KebD6cWdVj") = x03 :: unhex "010203fdfeff" :=
  ltac:(split; vm_compute; reflexivity).

(* testFormat.cpp 13-21 *)
Succeed Example wif_wiki : let w := text "5HueCGU8rMjxEXxiPuD5BDku4MkFqeZyd4dZ1jvhTVqvbTLvyTJ" in
  wif_encode sha256d [] (wif_decode sha256d w) = w :=
  ltac:(vm_compute; reflexivity).
Succeed Example address_wiki : let a := text "127NVqnjf8gB9BFAW2dnQeM6wqmy1gbGtv" in
  let d := address_decode sha256d a in address_encode sha256d [] (fst d) (snd d) = a :=
  ltac:(vm_compute; reflexivity).

(* testFormat.cpp 88-135: a secret in its two forms, the public key in its two forms, the address.  That
   the keys are those of the secret is checked of the first only, with the curve of CurveSpec.v *)
Definition format_ok (wif wif' pub addr : string) : Prop :=
  let s := wif_decode sha256d (text wif) in
  let s' := wif_decode sha256d (text wif') in
  secret_valid s = true /\ s_compressed s = true /\ secret_valid s' = true /\ s_compressed s' = false /\
  s_value s = s_value s' /\
  wif_encode sha256d [] s = text wif /\ wif_encode sha256d [] s' = text wif' /\
  address_encode sha256d [] NetMain (sha_hash160 (unhex pub)) = text addr /\
  address_decode sha256d (text addr) = (NetMain, sha_hash160 (unhex pub)).
Definition format_bad (wif wif' addr : string) : Prop :=
  secret_valid (wif_decode sha256d (text wif)) = false /\ secret_valid (wif_decode sha256d (text wif')) = false /\
  address_valid (address_decode sha256d (text addr)) = false.
Succeed Example format_1 : format_ok
  "L2rW8amvjR19iSZ1wVU9keXBqEjQ9fMSCw9bsSKSmSCXTxqfz2Bn"
  "5K6KqPc6q8FXyWogBXvH2jV8tiB4S5AALUDpmxadei44jTV6p4S"
  "02DE7A990579BCA352633D340F05E7E7158661B0DCA0BA40A5AB5E0328A312216F"
  "1AWfki61q1phyV1SA6Ytp38c9Ft5kipwV8" :=
  ltac:(vm_compute; repeat split).
Succeed Example format_2 : format_ok
  "KzmVx4hyCB6GAQoxMQae8GnokPG2hrJCP6Z7EjZS9MJZhf7pbpmW"
  "5Jcun6poGDi4tXKLnrkRGhHGaPiU7zPUW2FyhGXupf8c3xFKwA5"
  "023EA79C33BC21008356CA4C0E06A896014D94AD5216F54C44A3A94E1C8B39B1B1"
  "1DKsEVtWQ6QGWBQ32fVDuCYQasxawApdqm" :=
  ltac:(vm_compute; repeat split).
Succeed Example format_3 : format_ok
  "L2HMpTWtyCdQkhL1tTQDSP4ssw7DVazacTBEzkAv1DSi8jjask6a"
  "5JxpK17mrSHrnhQLgkbG42q1CYHpEj94Y9CPCixGBUHhb32UErf"
  "03F063CDE7542B8FA3BC55739B44DA63B38AEE8583CD9E3C351D0BB2F5968D6805"
  "13GYJRir1xn5cyVWqLzQPaiZr9BLJdfKAv" :=
  ltac:(vm_compute; repeat split).
Succeed Example format_4 : format_ok
  "L1vXPxhPFAe5taRGcmxcUuKKmmnbV1Q59TazBTFwHsVugRhQbGJU"
  "5Jt6XaTpdjxyqqojWQKwiDJkDs2GWuerRaDEQfaHqEFhwGeMMo3"
  "035A5CA5E685803CB8CD54198F3CFD71187F85F940EAECCE0D5D6551911306738C"
  "1DXj3zwApeKaSCyEZD5Pjkzai8p5XmwxzY" :=
  ltac:(vm_compute; repeat split).
Succeed Example format_bad_1 : format_bad "IamJUNK" "IamJUNK" "IamJUNK" :=
  ltac:(vm_compute; repeat split).
Succeed Example format_bad_2 : format_bad "KzmVx4hyCB6GAQoxMQae8GnokPG2hMJCP6Z7EjZS9MJZhf7pbpmW" "5Jcun6poGDi4tXKLnrkMGhHGaPiU7zPUW2FyhGXupf8c3xFKwA5" "1DKsEVtWQ6QGWBQ32fVDuCYQasxaCApdqm" :=
  ltac:(vm_compute; repeat split).
Succeed Example format_keys : let s := s_value (wif_decode sha256d (text "L2rW8amvjR19iSZ1wVU9keXBqEjQ9fMSCw9bsSKSmSCXTxqfz2Bn")) in
  secret_to_public cv_encode true s = unhex "02DE7A990579BCA352633D340F05E7E7158661B0DCA0BA40A5AB5E0328A312216F" /\
  secret_to_public cv_encode false s = unhex
  "04DE7A990579BCA352633D340F05E7E7158661B0DCA0BA40A5AB5E0328A312216FF40F50C2B6E03D863B19B9B679787FB75634F8BD00C2F2400196999CC9AB8E76" :=
  ltac:(split; vm_compute; reflexivity).
