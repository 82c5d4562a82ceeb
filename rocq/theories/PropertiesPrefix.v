(* C135: what a text form shows of itself. *)
From Verif Require Import Base BaseProofs MerkleModel MerkleExamples TextModel TextSpec TextExamples HdModel HdSpec HdExamples PrefixSpec PrefixProofs.
From Coq Require Import String List.
Import ListNotations.
Local Open Scope list_scope.
Local Open Scope N_scope.

(* addresses: 1 and 24 to 33 characters on the main network, m or n and 33 characters otherwise *)
Theorem C135_address_main : forall H e58, (forall m, length (H m) = 32%nat) -> forall d, length d = 20%nat -> e58 = [] \/ nonzero (d ++ checksum H (x00 :: d)) ->
  exists k, (24 <= k <= 33)%nat /\ begins ["1"%string] k (address_encode H e58 NetMain d).
Proof. exact address_main_begins. Qed.
Print Assumptions C135_address_main.
Theorem C135_address_other : forall H e58, (forall m, length (H m) = 32%nat) -> forall n d, length d = 20%nat -> n <> NetMain ->
  begins ["m"; "n"]%string 33 (address_encode H e58 n d).
Proof. exact address_test_begins. Qed.
Print Assumptions C135_address_other.
(* the first letter of a text that is read as an address says for which network it is read *)
Theorem C135_address_read : forall H, (forall m, length (H m) = 32%nat) -> forall s,
  (fst (address_decode H s) = NetMain -> exists t, s = text "1" ++ t) /\
  (fst (address_decode H s) = NetTest -> exists c t, s = c :: t /\ text "1" <> [c]).
Proof. exact address_read_begins. Qed.
Print Assumptions C135_address_read.
(* secrets *)
Theorem C135_wif_write : forall H e58, (forall m, length (H m) = 32%nat) -> forall s, length (s_value s) = 32%nat -> secret_valid s = true ->
  begins (wif_letters (s_net s) (s_compressed s)) (wif_rest (s_compressed s)) (wif_encode H e58 s).
Proof. exact wif_write_begins. Qed.
Print Assumptions C135_wif_write.
Theorem C135_wif_read : forall H, (forall m, length (H m) = 32%nat) -> forall t, s_net (wif_decode H t) <> NetInvalid ->
  begins (wif_letters (s_net (wif_decode H t)) (s_compressed (wif_decode H t))) (wif_rest (s_compressed (wif_decode H t))) t.
Proof. exact wif_read_begins. Qed.
Print Assumptions C135_wif_read.
(* extended keys *)
Theorem C135_xprv_write : forall H e58, (forall m, length (H m) = 32%nat) -> forall x, xkey_wf 32 x -> begins (xprv_letters (x_net x)) 107 (xsecret_write H e58 x).
Proof. exact xprv_write_begins. Qed.
Print Assumptions C135_xprv_write.
Theorem C135_xpub_write : forall H e58, (forall m, length (H m) = 32%nat) -> forall x, xkey_wf 33 x -> begins (xpub_letters (x_net x)) 107 (xpubkey_write H e58 x).
Proof. exact xpub_write_begins. Qed.
Print Assumptions C135_xpub_write.
Theorem C135_xprv_read : forall H, (forall m, length (H m) = 32%nat) -> forall s, xsecret_read H s <> xsecret_none -> begins (xprv_letters (x_net (xsecret_read H s))) 107 s.
Proof. exact xprv_read_begins. Qed.
Print Assumptions C135_xprv_read.
Theorem C135_xpub_read : forall H, (forall m, length (H m) = 32%nat) -> forall s, xpubkey_read H s <> xpubkey_none -> begins (xpub_letters (x_net (xpubkey_read H s))) 107 s.
Proof. exact xpub_read_begins. Qed.
Print Assumptions C135_xpub_read.
(* no text is read as two different things *)
Theorem C135_one_form : forall H, (forall m, length (H m) = 32%nat) -> forall s,
  (fst (address_decode H s) <> NetInvalid -> s_net (wif_decode H s) = NetInvalid /\ xsecret_read H s = xsecret_none /\ xpubkey_read H s = xpubkey_none) /\
  (s_net (wif_decode H s) <> NetInvalid -> xsecret_read H s = xsecret_none /\ xpubkey_read H s = xpubkey_none) /\
  (xsecret_read H s <> xsecret_none -> xpubkey_read H s = xpubkey_none).
Proof. exact one_form. Qed.
Print Assumptions C135_one_form.

Example C135_address_example : length ex_hash160 = 20%nat /\ firstn 1 (address_encode ex_hash32 [] NetMain ex_hash160) = text "1" /\
  length (address_encode ex_hash32 [] NetMain (repeat x00 20)) = 27%nat /\ length (address_encode ex_hash32 [] NetMain (repeat xff 20)) = 34%nat /\
  firstn 1 (address_encode ex_hash32 [] NetTest ex_hash160) = text "m" /\ firstn 1 (address_encode ex_hash32 [] NetTest (repeat xff 20)) = text "n".
Proof. repeat split; vm_compute; reflexivity. Qed.
Example C135_wif_example : secret_valid ex_secret = true /\ length (s_value ex_secret) = 32%nat /\ firstn 1 (wif_encode ex_hash32 [] ex_secret) = text "L" /\
  firstn 1 (wif_encode ex_hash32 [] (mksecret NetTest (s_value ex_secret) false)) = text "9".
Proof. repeat split; vm_compute; reflexivity. Qed.
Example C135_extended_example : firstn 4 (xsecret_write ex_hash32 [] ex_xsecret) = text "tprv" /\
  firstn 4 (xpubkey_write ex_hash32 [] (mkxkey (x02 :: repeat x03 32) (repeat x04 32) NetMain 1 2 3)) = text "xpub" /\ xkey_wf 32 ex_xsecret /\
  xkey_wf 33 (mkxkey (x02 :: repeat x03 32) (repeat x04 32) NetMain 1 2 3).
Proof.
  split; [vm_compute; reflexivity|]. split; [vm_compute; reflexivity|]. unfold xkey_wf.
  split; repeat split; try (vm_compute; reflexivity); discriminate.
Qed.
