(* Proofs about accounts and wallets. *)
From Coq Require Import Lia ZifyBool ZifyNat ZifyN.
From Verif Require Import Base BaseProofs WireModel MerkleModel TextModel TextSpec HdModel HdSpec HdPathProofs HdKeyProofs HdTight Bip39Words Bip39Model Bip44Model Bip44Spec.
Local Open Scope N_scope.

Definition mnemonic_label : bytes := [x6d; x6e; x65; x6d; x6f; x6e; x69; x63].
Lemma hardened_value c : c < 2 ^ 31 -> harden c = c + 2 ^ 31.
Proof. intros L. destruct (harden_exact c ltac:(lia)) as [-> _]. destruct (N.ltb_spec c (2 ^ 31)); lia. Qed.
Lemma plain_value c : 2 ^ 31 <= c < 2 ^ 32 -> harden c = c.
Proof. intros L. destruct (harden_exact c ltac:(lia)) as [-> _]. destruct (N.ltb_spec c (2 ^ 31)); lia. Qed.
Lemma step_write_hard c : c < 2 ^ 31 -> step_write (harden c) = decimal c ++ [char_quote].
Proof. intros L. rewrite hardened_value by exact L. unfold step_write. change 0x80000000 with (2 ^ 31). destruct (N.ltb_spec (c + 2 ^ 31) (2 ^ 31)); [lia|]. replace (c + 2 ^ 31 - 2 ^ 31) with c by lia. reflexivity. Qed.
Lemma step_write_soft c : c < 2 ^ 31 -> step_write c = decimal c.
Proof. intros L. unfold step_write. change 0x80000000 with (2 ^ 31). destruct (N.ltb_spec c (2 ^ 31)); [reflexivity|lia]. Qed.
Lemma path_written coin account change index : coin < 2 ^ 31 -> account < 2 ^ 31 -> index < 2 ^ 31 ->
  path_write (derivation_path account change index (harden coin)) = bip44_text coin account change index.
Proof.
  intros C A I. unfold derivation_path, purpose. cbn [path_write]. rewrite !step_write_hard by (assumption || reflexivity). rewrite !step_write_soft by (assumption || destruct change; reflexivity).
  unfold bip44_text. rewrite <- !app_assoc. destruct change; reflexivity.
Qed.
Lemma path_bound account change index coin : coin < 2 ^ 31 -> account < 2 ^ 31 -> index < 2 ^ 31 -> Forall (fun c => c < 2 ^ 32) (derivation_path account change index (harden coin)).
Proof.
  intros C A I. unfold derivation_path, purpose. rewrite !hardened_value by (assumption || reflexivity). repeat constructor; try lia. destruct change; lia.
Qed.
Lemma path_read coin account change index fuel : coin < 2 ^ 31 -> account < 2 ^ 31 -> index < 2 ^ 31 -> (length (bip44_text coin account change index) <= fuel)%nat ->
  read_path fuel (bip44_text coin account change index) = Done (derivation_path account change index (harden coin)).
Proof. intros C A I L. rewrite <- path_written in L |- * by assumption. apply path_write_read; [apply path_bound; assumption|exact L]. Qed.
Lemma path_inj a c i k a' c' i' k' : a < 2 ^ 31 -> a' < 2 ^ 31 -> derivation_path a c i k = derivation_path a' c' i' k' -> a = a' /\ c = c' /\ i = i' /\ k = k'.
Proof.
  intros A A' E. unfold derivation_path in E. rewrite !hardened_value in E by assumption.
  pose proof (f_equal (fun l => nth 1 l 0) E) as E1. pose proof (f_equal (fun l => nth 2 l 0) E) as E2. pose proof (f_equal (fun l => nth 3 l 0) E) as E3. pose proof (f_equal (fun l => nth 4 l 0) E) as E4.
  cbn [nth] in E1, E2, E3, E4. split; [lia|]. split; [destruct c, c'; congruence|]. split; congruence.
Qed.
Lemma path_alias a c i k : a < 2 ^ 31 -> derivation_path (a + 2 ^ 31) c i k = derivation_path a c i k.
Proof. intros A. unfold derivation_path. rewrite plain_value by lia. rewrite hardened_value by exact A. reflexivity. Qed.
Lemma coins : purpose = 44 + 2 ^ 31 /\ coin_bitcoin = 2 ^ 31 /\ coin_testnet = 1 + 2 ^ 31 /\ coin_cash = 145 + 2 ^ 31 /\ coin_sv = 236 + 2 ^ 31 /\
  simply_cash_coin = coin_cash /\ moneybutton_coin = coin_bitcoin /\ relay_x_coin = coin_sv.
Proof. repeat split. Qed.
Lemma to_string_decimal n : to_string n = decimal n.
Proof. reflexivity. Qed.
Lemma to_string_inj a b : to_string a = to_string b -> a = b.
Proof. rewrite !to_string_decimal. intros E. destruct (decimal_numeral a) as (_ & _ & A). destruct (decimal_numeral b) as (_ & _ & B). rewrite <- A, <- B, E. reflexivity. Qed.

Section Bip44.
Variable hmac : bytes -> bytes -> bytes.
Variable h160 : bytes -> bytes.
Variable pub : bytes -> bytes.
Variable wide : bytes -> bytes.
Variable tweak : bytes -> bytes -> bytes.
Variable pbkdf2 : bytes -> bytes -> N -> N -> bytes.
Variable fuel : nat.
Notation derive := (derive_secret_path hmac h160 pub fuel).

Lemma receive_path x coin account index :
  and_then (from_root hmac h160 pub fuel x coin account) (fun k => secret_receive hmac h160 pub fuel k index) = run_map to_secret (derive x (derivation_path account false index coin)) /\
  and_then (from_root hmac h160 pub fuel x coin account) (fun k => secret_change hmac h160 pub fuel k index) = run_map to_secret (derive x (derivation_path account true index coin)).
Proof.
  unfold from_root, secret_receive, secret_change, derive_secret_path.
  change (derivation_path account false index coin) with ([purpose; coin; harden account] ++ [receive_index; index]).
  change (derivation_path account true index coin) with ([purpose; coin; harden account] ++ [change_index; index]).
  rewrite !derive_path_app. unfold and_then. destruct (derive_path _ _ [purpose; coin; harden account]); split; reflexivity.
Qed.
Lemma public_agrees : tweak_adds pub tweak -> hmac_sized hmac -> forall x c index, length (x_key x) = 32%nat -> usable (be_val (x_key x)) ->
  plain_path hmac h160 pub x [if c : bool then 1 else 0; index] ->
  exists s, (if c then secret_change else secret_receive) hmac h160 pub fuel x index = Done s /\
    (if c then public_change else public_receive) hmac h160 tweak fuel (account_public pub x) index = Done (secret_address h160 pub wide s).
Proof.
  intros T S x c index L U P. destruct (commute_path hmac h160 pub tweak T S fuel _ x L U P) as (y & E1 & E2). exists (to_secret y).
  destruct c; unfold secret_change, secret_receive, public_change, public_receive, account_public, receive_index, change_index; rewrite E1, E2; split; reflexivity.
Qed.
Lemma hardened_address x index a : 2 ^ 31 <= index -> public_receive hmac h160 tweak fuel x index = Done a \/ public_change hmac h160 tweak fuel x index = Done a -> a = (NetMain, h160 []).
Proof.
  intros B [E|E]; unfold public_receive, public_change, derive_pubkey_path in E; cbn [derive_path] in E.
  - destruct (HdModel.derive_pubkey hmac h160 tweak fuel x receive_index) as [y| |]; try discriminate. rewrite derive_pubkey_hardened in E by exact B. cbn [run_map] in E.
    assert (X : forall p q : net * bytes, Done p = Done q -> p = q) by (intros p q; congruence). apply X in E. symmetry. exact E.
  - destruct (HdModel.derive_pubkey hmac h160 tweak fuel x change_index) as [y| |]; try discriminate. rewrite derive_pubkey_hardened in E by exact B. cbn [run_map] in E.
    assert (X : forall p q : net * bytes, Done p = Done q -> p = q) by (intros p q; congruence). apply X in E. symmetry. exact E.
Qed.
Lemma hardened_account x a : 2 ^ 31 <= a -> public_account hmac h160 tweak fuel x a = Done xpubkey_none.
Proof. intros B. unfold public_account, derive_pubkey_path. cbn [derive_path]. rewrite derive_pubkey_hardened by exact B. reflexivity. Qed.

Lemma wallet_path : hmac_sized hmac -> forall coin words account n c index, exists m,
  is_master hmac (pbkdf2 words mnemonic_label 2048 64) n m /\
  and_then (coin_wallet hmac h160 pub pbkdf2 fuel coin words account n) (fun k => (if c : bool then secret_change else secret_receive) hmac h160 pub fuel k index) =
    run_map to_secret (derive m (derivation_path account c index coin)).
Proof.
  intros S coin words account n c index. eexists. split; [apply (proj1 (seed_master hmac S _ _ _)); reflexivity|]. unfold coin_wallet, seed_read. rewrite app_nil_r. change (text _) with mnemonic_label.
  destruct (receive_path (secret_from_seed hmac (pbkdf2 words mnemonic_label 2048 64) n) coin account index) as [R C]. destruct c; [exact C|exact R].
Qed.
Lemma centbee_path : hmac_sized hmac -> forall words pin n c index, exists m,
  is_master hmac (pbkdf2 words (mnemonic_label ++ decimal pin) 2048 64) n m /\
  and_then (centbee_wallet hmac h160 pub pbkdf2 fuel words pin n) (fun k => (if c : bool then secret_change else secret_receive) hmac h160 pub fuel k index) =
    run_map to_secret (derive m [44 + 2 ^ 31; 0; if c then 1 else 0; index]).
Proof.
  intros S words pin n c index. eexists. split; [apply (proj1 (seed_master hmac S _ _ _)); reflexivity|]. unfold centbee_wallet, seed_read. rewrite to_string_decimal.
  change (text _) with mnemonic_label. unfold derive_secret_path.
  change [44 + 2 ^ 31; 0; if c then 1 else 0; index] with ([purpose; centbee_coin] ++ [if c then change_index else receive_index; index]). rewrite derive_path_app.
  unfold and_then. destruct (derive_path _ _ [purpose; centbee_coin]); [|reflexivity|reflexivity]. destruct c; reflexivity.
Qed.

Lemma sources_agree : tweak_adds pub tweak -> hmac_sized hmac -> forall x, length (x_key x) = 32%nat -> usable (be_val (x_key x)) -> forall k index,
  (forall j, index <= j < index + N.of_nat k -> plain_half hmac pub x j) ->
  exists l, length l = k /\ take_source (key_next hmac h160 pub fuel x) index k = map Done l /\
    take_source (address_next hmac h160 tweak fuel (to_public pub x)) index k = map (fun s => Done (secret_address h160 pub wide s)) l.
Proof.
  intros T S x L U. induction k as [|k IH]; intros index P; [exists []; repeat split|].
  assert (P0 : plain_half hmac pub x index) by (apply P; lia). destruct (commute_path hmac h160 pub tweak T S fuel [index] x L U (conj P0 Logic.I)) as (y & E1 & E2).
  assert (B : index < 2 ^ 31) by (destruct P0; assumption). assert (W : w32 (index + 1) = index + 1) by (unfold w32; apply N.mod_small; lia).
  destruct (IH (index + 1)) as (l & Ll & K & A); [intros j J; apply P; lia|]. exists (to_secret y :: l). split; [cbn [length]; lia|].
  change (take_source (key_next hmac h160 pub fuel x) index (Datatypes.S k)) with (run_map to_secret (derive x [index]) :: take_source (key_next hmac h160 pub fuel x) (w32 (index + 1)) k).
  change (take_source (address_next hmac h160 tweak fuel (to_public pub x)) index (Datatypes.S k)) with
    (run_map (pubkey_address h160) (derive_pubkey_path hmac h160 tweak fuel (to_public pub x) [index]) :: take_source (address_next hmac h160 tweak fuel (to_public pub x)) (w32 (index + 1)) k).
  rewrite E1, E2, W, K, A. split; reflexivity.
Qed.
End Bip44.
