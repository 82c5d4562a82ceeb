(* C34, C35, C36, C75: text forms. *)
From Verif Require Import Base BaseProofs MerkleModel MerkleExamples TextModel TextSpec TextProofs TextFormProofs TextExamples.
From Coq Require Import String List.
Import ListNotations.
Local Open Scope list_scope.
Local Open Scope N_scope.

(* C34: base 58 notation matches byte strings with strings over the alphabet one to one *)
Theorem C34_notation_function : forall s d1 d2, b58_text s d1 -> b58_text s d2 -> d1 = d2.
Proof. exact b58_text_fun. Qed.
Print Assumptions C34_notation_function.
Theorem C34_notation_unique : forall s1 s2 d, b58_text s1 d -> b58_text s2 d -> s1 = s2.
Proof. exact b58_text_inj. Qed.
Print Assumptions C34_notation_unique.
Theorem C34_notation_total : forall d, exists s, b58_text s d.
Proof. exact b58_text_total. Qed.
Print Assumptions C34_notation_total.
Theorem C34_notation_alphabet : forall s, (exists d, b58_text s d) <-> Forall (fun c => In c b58_chars) s.
Proof. exact b58_text_chars. Qed.
Print Assumptions C34_notation_alphabet.
Example C34_notation_ok : b58_text (text "1163Rw") [x00; x00; x0f; x02; xb6].
Proof. exists 2%nat, [5; 2; 24; 54], [x0f; x02; xb6]. repeat split; try discriminate; try (vm_compute; reflexivity). repeat constructor. Qed.
(* encode and decode *)
Theorem C34_encode_exact : forall H e58 s v, e58 = [] \/ nonzero (append_checksum H v) ->
  check_encode H e58 v = s <-> b58_text s (append_checksum H v).
Proof. exact encode_exact. Qed.
Print Assumptions C34_encode_exact.
Theorem C34_decode_exact : forall H, (forall m, length (H m) = 32%nat) -> forall s v, v <> [] ->
  check_decode H s = v <-> b58_text s (append_checksum H v).
Proof. exact decode_exact. Qed.
Print Assumptions C34_decode_exact.
Theorem C34_roundtrip : forall H e58, (forall m, length (H m) = 32%nat) -> forall v, v <> [] -> e58 = [] \/ nonzero (append_checksum H v) ->
  check_decode H (check_encode H e58 v) = v.
Proof. exact check_roundtrip. Qed.
Print Assumptions C34_roundtrip.
Example C34_roundtrip_ok : nonzero (append_checksum ex_hash32 ex_payload) /\
  check_encode ex_hash32 [] ex_payload = text "1143c94iCLPB1" /\ check_decode ex_hash32 (text "1143c94iCLPB1") = ex_payload /\ check_decode ex_hash32 (text "1143c94iCLPB2") = [].
Proof. split; [exists x12; split; [right; right; left; reflexivity|discriminate]|]. repeat split; vm_compute; reflexivity. Qed.
Theorem C34_injective : forall H e58, (forall m, length (H m) = 32%nat) -> forall v w,
  e58 = [] \/ (nonzero (append_checksum H v) /\ nonzero (append_checksum H w)) -> check_encode H e58 v = check_encode H e58 w -> v = w.
Proof. exact check_encode_inj. Qed.
Print Assumptions C34_injective.
Theorem C34_one_text : forall H e58, (forall m, length (H m) = 32%nat) -> forall s v, v <> [] -> e58 = [] \/ nonzero (append_checksum H v) ->
  check_decode H s = v -> s = check_encode H e58 v.
Proof. exact check_canonical. Qed.
Print Assumptions C34_one_text.
(* only when value and checksum consist of zeros does the empty case of the library matter *)
Theorem C34_all_zero : forall H e58 v n, append_checksum H v = repeat x00 n -> check_encode H e58 v = repeat char_one n ++ e58.
Proof. exact encode_zeros. Qed.
Print Assumptions C34_all_zero.
Example C34_all_zero_ok : append_checksum ex_zero_hash [x00] = repeat x00 5 /\ check_decode ex_zero_hash (check_encode ex_zero_hash [char_one] [x00]) = [x00; x00].
Proof. split; vm_compute; reflexivity. Qed.
(* recover *)
Theorem C34_recover_sound : forall H, (forall m, length (H m) = 32%nat) -> forall s r, r <> [] -> check_recover H s = r ->
  exists t, (t = s \/ one_edit s t) /\ b58_text t (append_checksum H r).
Proof. exact recover_sound. Qed.
Print Assumptions C34_recover_sound.
Theorem C34_recover_complete : forall H, (forall m, length (H m) = 32%nat) -> forall s,
  check_recover H s = [] <-> forall t r, (t = s \/ one_edit s t) -> r <> [] -> ~ b58_text t (append_checksum H r).
Proof. exact recover_complete. Qed.
Print Assumptions C34_recover_complete.
Theorem C34_recover_valid : forall H s v, v <> [] -> check_decode H s = v -> check_recover H s = v.
Proof. exact recover_valid. Qed.
Print Assumptions C34_recover_valid.
Example C34_recover_ok : check_valid (check_recover ex_hash32 (text "1143c94iCLPB2")) = true /\ check_recover ex_hash32 (text "1143c94iCLPB1") = ex_payload.
Proof. split; vm_compute; reflexivity. Qed.

(* C35: addresses *)
Theorem C35_address_roundtrip : forall H e58, (forall m, length (H m) = 32%nat) -> forall n d, n <> NetInvalid -> length d = 20%nat ->
  e58 = [] \/ nonzero (append_checksum H (prefix_of n :: d)) ->
  address_decode H (address_encode H e58 n d) = (n, d) /\ (25 <= length (address_encode H e58 n d) <= 35)%nat.
Proof. exact address_roundtrip. Qed.
Print Assumptions C35_address_roundtrip.
Theorem C35_address_injective : forall H e58, (forall m, length (H m) = 32%nat) -> forall n m d f, n <> NetInvalid -> m <> NetInvalid -> length d = 20%nat -> length f = 20%nat ->
  e58 = [] \/ (nonzero (append_checksum H (prefix_of n :: d)) /\ nonzero (append_checksum H (prefix_of m :: f))) ->
  address_encode H e58 n d = address_encode H e58 m f -> n = m /\ d = f.
Proof. exact address_inj. Qed.
Print Assumptions C35_address_injective.
Theorem C35_address_decode_exact : forall H, (forall m, length (H m) = 32%nat) -> forall s n d, n <> NetInvalid ->
  address_decode H s = (n, d) <->
  (5 <= length s <= 35)%nat /\ exists payload, (length payload <= 20)%nat /\ b58_text s (append_checksum H (prefix_of n :: payload)) /\ d = payload ++ repeat x00 (20 - length payload).
Proof. exact address_decode_exact. Qed.
Print Assumptions C35_address_decode_exact.
Theorem C35_address_valid_exact : forall H s, address_valid (address_decode H s) = true <->
  exists n d, n <> NetInvalid /\ address_decode H s = (n, d) /\ d <> repeat x00 20.
Proof. exact address_valid_exact. Qed.
Print Assumptions C35_address_valid_exact.
(* an address is not the only text for its digest: a shorter payload is filled up with zeros *)
Theorem C35_short_payload_refuted : forall H e58, (forall m, length (H m) = 32%nat) -> forall n p, n <> NetInvalid -> (length p <= 20)%nat ->
  e58 = [] \/ nonzero (append_checksum H (prefix_of n :: p)) ->
  (5 <= length (address_encode H e58 n p) <= 35)%nat -> address_decode H (address_encode H e58 n p) = (n, p ++ repeat x00 (20 - length p)).
Proof. exact address_short. Qed.
Print Assumptions C35_short_payload_refuted.
Example C35_short_payload_ok : address_decode ex_hash32 (address_encode ex_hash32 [] NetMain ex_hash160) = (NetMain, ex_hash160) /\
  address_decode ex_hash32 (address_encode ex_hash32 [] NetMain (removelast ex_hash160)) = (NetMain, ex_hash160) /\
  bytes_eqb (address_encode ex_hash32 [] NetMain (removelast ex_hash160)) (address_encode ex_hash32 [] NetMain ex_hash160) = false /\
  address_valid (address_decode ex_hash32 (address_encode ex_hash32 [] NetTest [x07])) = true.
Proof. repeat split; vm_compute; reflexivity. Qed.
Theorem C35_invalid_network_is_written_as_test_refuted : forall H e58 d, address_encode H e58 NetInvalid d = address_encode H e58 NetTest d.
Proof. exact address_invalid_is_test. Qed.
Print Assumptions C35_invalid_network_is_written_as_test_refuted.
(* WIF *)
Theorem C35_wif_roundtrip : forall H e58, (forall m, length (H m) = 32%nat) -> forall s, length (s_value s) = 32%nat -> secret_valid s = true ->
  wif_decode H (wif_encode H e58 s) = s.
Proof. exact wif_roundtrip. Qed.
Print Assumptions C35_wif_roundtrip.
Theorem C35_wif_decode_exact : forall H, (forall m, length (H m) = 32%nat) -> forall t s, s_net s <> NetInvalid ->
  wif_decode H t = s <-> length (s_value s) = 32%nat /\ b58_text t (append_checksum H (wif_payload s)).
Proof. exact wif_decode_exact. Qed.
Print Assumptions C35_wif_decode_exact.
Theorem C35_wif_one_text : forall H e58, (forall m, length (H m) = 32%nat) -> forall t s, s_net s <> NetInvalid -> secret_valid s = true -> wif_decode H t = s -> t = wif_encode H e58 s.
Proof. exact wif_canonical. Qed.
Print Assumptions C35_wif_one_text.
Theorem C35_wif_invalid_is_empty : forall H e58 s, secret_valid s = false -> wif_encode H e58 s = [].
Proof. exact wif_encode_invalid. Qed.
Print Assumptions C35_wif_invalid_is_empty.
Example C35_wif_ok : secret_valid ex_secret = true /\ wif_decode ex_hash32 (wif_encode ex_hash32 [] ex_secret) = ex_secret /\ wif_decode ex_hash32 [] = secret_none /\
  len (wif_encode ex_hash32 [] ex_secret) = 52.
Proof. repeat split; vm_compute; reflexivity. Qed.

(* C75: which keys are accepted *)
Theorem C75_valid_exact : forall v, secp_secret_valid v = true <-> usable (le_val v).
Proof. exact secp_valid_exact. Qed.
Print Assumptions C75_valid_exact.
Theorem C75_library_exact : forall v, seckey_verify v = true <-> usable (be_val v).
Proof. exact seckey_verify_exact. Qed.
Print Assumptions C75_library_exact.
Theorem C75_reversed : forall v, seckey_verify v = secp_secret_valid (rev v).
Proof. exact seckey_reversed. Qed.
Print Assumptions C75_reversed.
(* the two disagree in both directions *)
Theorem C75_valid_is_not_usable_refuted : (secp_secret_valid ex_only_little = true /\ seckey_verify ex_only_little = false) /\
  (secp_secret_valid ex_only_big = false /\ seckey_verify ex_only_big = true).
Proof. exact ex_keys_disagree. Qed.
Print Assumptions C75_valid_is_not_usable_refuted.
(* a WIF text is decoded whatever its key *)
Theorem C75_wif_any_key : forall H, (forall m, length (H m) = 32%nat) -> forall n v c, n <> NetInvalid -> length v = 32%nat -> exists t, wif_decode H t = mksecret n v c.
Proof. exact wif_unusable. Qed.
Print Assumptions C75_wif_any_key.

(* C36: BIP 276 *)
Theorem C36_read_exact : forall H, (forall m, length (H m) = 32%nat) -> forall z n d,
  bip276_read H z = Ret (Some (n, d)) <-> b2n n <= 2 /\ d <> [] /\ z = bip276_write H x01 n d.
Proof. exact bip276_read_exact. Qed.
Print Assumptions C36_read_exact.
Theorem C36_read_write : forall H, (forall m, length (H m) = 32%nat) -> forall v n b,
  bip276_read H (bip276_write H v n b) = if negb (b2n v =? 1) || (2 <? b2n n) || (length b =? 0)%nat then Ret None else Ret (Some (n, b)).
Proof. exact bip276_read_write. Qed.
Print Assumptions C36_read_write.
Example C36_read_write_ok : bip276_write ex_hash32 x01 x01 [x76; xa9] = text "bitcoin-script:010176a975757575" /\
  bip276_read ex_hash32 (text "bitcoin-script:010176a975757575") = Ret (Some (x01, [x76; xa9])) /\
  bip276_read ex_hash32 (text "bitcoin-script:010176a975757576") = Ret None /\ bip276_read ex_hash32 (bip276_write ex_hash32 x01 x01 []) = Ret None.
Proof. repeat split; vm_compute; reflexivity. Qed.
(* upper-case text without the prefix passes the pattern and ends in the use of a failed read *)
Theorem C36_undefined_exact : forall H, (forall m, length (H m) = 32%nat) -> forall z, bip276_read H z = Undef <->
  (28 <= length z)%nat /\ Nat.Even (length z) /\ is_upper_hex z /\ hex_read (skipn (length z - 8) z) = Some (checksum H (firstn (length z - 8) z)).
Proof. exact bip276_undef_exact. Qed.
Print Assumptions C36_undefined_exact.
Theorem C36_undefined_refuted : forall H, (forall m, length (H m) = 32%nat) -> forall b, (10 <= length b)%nat ->
  let t := hex_write_upper b in bip276_read H (t ++ hex_write_upper (checksum H t)) = Undef.
Proof. exact bip276_undef_exists. Qed.
Print Assumptions C36_undefined_refuted.
Example C36_undefined_ok : (10 <= length ex_hash160)%nat /\ hex_write_upper [xab; x0f] = text "AB0F".
Proof. split; [vm_compute; repeat constructor|vm_compute; reflexivity]. Qed.
