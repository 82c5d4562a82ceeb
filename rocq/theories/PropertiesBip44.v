(* C90: accounts and wallets. *)
From Verif Require Import Base WireModel MerkleModel TextModel TextSpec HdModel HdSpec HdExamples Bip39Words Bip39Model Bip44Model Bip44Spec Bip44Proofs.
From Coq Require Import String List.
Import ListNotations.
Local Open Scope list_scope.
Local Open Scope N_scope.

Theorem C90_constants : purpose = 44 + 2 ^ 31 /\ coin_bitcoin = 2 ^ 31 /\ coin_testnet = 1 + 2 ^ 31 /\ coin_cash = 145 + 2 ^ 31 /\ coin_sv = 236 + 2 ^ 31 /\
  simply_cash_coin = coin_cash /\ moneybutton_coin = coin_bitcoin /\ relay_x_coin = coin_sv.
Proof. exact coins. Qed.
Print Assumptions C90_constants.
(* the path is the one of BIP 44 *)
Theorem C90_path_text : forall coin account change index fuel, coin < 2 ^ 31 -> account < 2 ^ 31 -> index < 2 ^ 31 ->
  (length (bip44_text coin account change index) <= fuel)%nat ->
  read_path fuel (bip44_text coin account change index) = Done (derivation_path account change index (harden coin)).
Proof. exact path_read. Qed.
Print Assumptions C90_path_text.
Theorem C90_path_distinct : forall a c i k a' c' i' k', a < 2 ^ 31 -> a' < 2 ^ 31 -> derivation_path a c i k = derivation_path a' c' i' k' ->
  a = a' /\ c = c' /\ i = i' /\ k = k'.
Proof. exact path_inj. Qed.
Print Assumptions C90_path_distinct.
(* accounts from 2^31 on are not refused; they are the others again *)
Theorem C90_account_refuted : forall a c i k, a < 2 ^ 31 -> derivation_path (a + 2 ^ 31) c i k = derivation_path a c i k.
Proof. exact path_alias. Qed.
Print Assumptions C90_account_refuted.
(* an account's keys are those along the whole path from the root *)
Theorem C90_keys : forall hmac h160 pub fuel x coin account index,
  and_then (from_root hmac h160 pub fuel x coin account) (fun k => secret_receive hmac h160 pub fuel k index) =
    run_map to_secret (derive_secret_path hmac h160 pub fuel x (derivation_path account false index coin)) /\
  and_then (from_root hmac h160 pub fuel x coin account) (fun k => secret_change hmac h160 pub fuel k index) =
    run_map to_secret (derive_secret_path hmac h160 pub fuel x (derivation_path account true index coin)).
Proof. exact receive_path. Qed.
Print Assumptions C90_keys.
(* the addresses of the public account are those of the keys of the secret account *)
Theorem C90_public_agrees : forall hmac h160 pub wide tweak fuel, tweak_adds pub tweak -> hmac_sized hmac ->
  forall x c index, length (x_key x) = 32%nat -> usable (be_val (x_key x)) -> plain_path hmac h160 pub x [if c : bool then 1 else 0; index] ->
  exists s, (if c then secret_change else secret_receive) hmac h160 pub fuel x index = Done s /\
    (if c then public_change else public_receive) hmac h160 tweak fuel (account_public pub x) index = Done (secret_address h160 pub wide s).
Proof. exact public_agrees. Qed.
Print Assumptions C90_public_agrees.
(* an address whose index is hardened is the hash of no key, on the main network, for every account *)
Theorem C90_hardened_refuted : forall hmac h160 tweak fuel x index,
  (forall a, 2 ^ 31 <= index -> public_receive hmac h160 tweak fuel x index = Done a \/ public_change hmac h160 tweak fuel x index = Done a -> a = (NetMain, h160 [])) /\
  (2 ^ 31 <= index -> public_account hmac h160 tweak fuel x index = Done xpubkey_none).
Proof. exact (fun hmac h160 tweak fuel x index => conj (hardened_address hmac h160 tweak fuel x index) (hardened_account hmac h160 tweak fuel x index)). Qed.
Print Assumptions C90_hardened_refuted.
(* wallets: from words to keys *)
Theorem C90_wallets : forall hmac h160 pub pbkdf2 fuel, hmac_sized hmac -> forall coin words account n c index, exists m,
  is_master hmac (pbkdf2 words (text "mnemonic") 2048 64) n m /\
  and_then (coin_wallet hmac h160 pub pbkdf2 fuel coin words account n) (fun k => (if c : bool then secret_change else secret_receive) hmac h160 pub fuel k index) =
    run_map to_secret (derive_secret_path hmac h160 pub fuel m (derivation_path account c index coin)).
Proof. exact wallet_path. Qed.
Print Assumptions C90_wallets.
Theorem C90_named_wallets : forall hmac h160 pub pbkdf2 fuel words account n,
  simply_cash_wallet hmac h160 pub pbkdf2 fuel words account n = coin_wallet hmac h160 pub pbkdf2 fuel (145 + 2 ^ 31) words account n /\
  moneybutton_wallet hmac h160 pub pbkdf2 fuel words account n = coin_wallet hmac h160 pub pbkdf2 fuel (2 ^ 31) words account n /\
  relay_x_wallet hmac h160 pub pbkdf2 fuel words account n = coin_wallet hmac h160 pub pbkdf2 fuel (236 + 2 ^ 31) words account n.
Proof. exact (fun hmac h160 pub pbkdf2 fuel words account n => conj eq_refl (conj eq_refl eq_refl)). Qed.
Print Assumptions C90_named_wallets.
(* Centbee: the pin is the passphrase, the coin type is not hardened and there is no account *)
Theorem C90_centbee : forall hmac h160 pub pbkdf2 fuel, hmac_sized hmac -> forall words pin n c index, exists m,
  is_master hmac (pbkdf2 words (text "mnemonic" ++ decimal pin) 2048 64) n m /\
  and_then (centbee_wallet hmac h160 pub pbkdf2 fuel words pin n) (fun k => (if c : bool then secret_change else secret_receive) hmac h160 pub fuel k index) =
    run_map to_secret (derive_secret_path hmac h160 pub fuel m [44 + 2 ^ 31; 0; if c then 1 else 0; index]).
Proof. exact centbee_path. Qed.
Print Assumptions C90_centbee.
Theorem C90_pins : forall a b, to_string a = to_string b -> a = b.
Proof. exact to_string_inj. Qed.
Print Assumptions C90_pins.
(* a source of addresses gives the addresses of the keys of the source of keys *)
Theorem C90_sources : forall hmac h160 pub wide tweak fuel, tweak_adds pub tweak -> hmac_sized hmac ->
  forall x, length (x_key x) = 32%nat -> usable (be_val (x_key x)) -> forall k index,
  (forall j, index <= j < index + N.of_nat k -> plain_half hmac pub x j) ->
  exists l, length l = k /\ take_source (key_next hmac h160 pub fuel x) index k = map Done l /\
    take_source (address_next hmac h160 tweak fuel (to_public pub x)) index k = map (fun s => Done (secret_address h160 pub wide s)) l.
Proof. exact sources_agree. Qed.
Print Assumptions C90_sources.
Example C90_example : bip44_text 145 3 true 7 = text "44'/145'/3'/1/7" /\
  read_path 40 (text "44'/145'/3'/1/7") = Done (derivation_path 3 true 7 coin_cash) /\
  (forall j, 0 <= j < 3 -> plain_half (ex_hmac ex_half_plain) ex_pub ex_xsecret j) /\
  length (take_source (key_next (ex_hmac ex_half_plain) ex_h160 ex_pub 0 ex_xsecret) 0 3) = 3%nat /\
  (exists s, simply_cash_wallet (ex_hmac ex_half_plain) ex_h160 ex_pub (fun _ _ _ _ => []) 0 (text "abandon") 0 NetMain = Done s /\ x_depth s = 3).
Proof.
  split; [vm_compute; reflexivity|]. split; [vm_compute; reflexivity|]. split.
  - intros j [_ J]. assert (K : j = 0 \/ j = 1 \/ j = 2) by (destruct j as [|[[|[]|]|[|[]|]|]]; auto; discriminate J).
    destruct K as [-> | [-> | ->]]; (split; [reflexivity|]; split; [vm_compute; reflexivity|]; split; [vm_compute; discriminate|vm_compute; discriminate]).
  - split; [vm_compute; reflexivity|]. eexists. split; vm_compute; reflexivity.
Qed.
