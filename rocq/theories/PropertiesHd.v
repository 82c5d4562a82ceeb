(* C37 - C39, C76: BIP 32. *)
From Verif Require Import Base BaseProofs WireModel MerkleModel MerkleExamples TextModel TextSpec TextExamples HdModel HdSpec HdPathProofs HdKeyProofs HdTextProofs HdTight HdExamples.
From Coq Require Import String List.
Import ListNotations.
Local Open Scope list_scope.
Local Open Scope N_scope.

(* C37 *)
Theorem C37_roundtrip : forall l fuel, Forall (fun c => c < 2 ^ 32) l -> (length (path_write l) <= fuel)%nat -> read_path fuel (path_write l) = Done l.
Proof. exact path_write_read. Qed.
Print Assumptions C37_roundtrip.
Theorem C37_well_formed : forall t l fuel, path_text t l -> (length t <= fuel)%nat -> read_path fuel t = Done l.
Proof. exact read_path_text. Qed.
Print Assumptions C37_well_formed.
Theorem C37_ends : forall p fuel, Forall path_char p -> (length p <= fuel)%nat -> exists l, read_path fuel p = Done l.
Proof. exact read_path_ends. Qed.
Print Assumptions C37_ends.
(* on any other character the parser never returns *)
Theorem C37_never_ends_refuted : forall ds c r, Forall (fun c => is_digit c = true) ds -> horner 10 (map digit_value ds) < 2147483648 -> ~ path_char c ->
  forall fuel, read_path fuel (ds ++ c :: r) = More.
Proof. exact (fun ds c r F B P fuel => read_path_stuck ds c r fuel F B P). Qed.
Print Assumptions C37_never_ends_refuted.
Theorem C37_never_ends_later_refuted : forall t l ds c r, path_text t l -> l <> [] -> ds <> [] -> Forall (fun c => is_digit c = true) ds ->
  horner 10 (map digit_value ds) < 2147483648 -> ~ path_char c -> forall fuel, read_path fuel (t ++ char_slash :: ds ++ c :: r) = More.
Proof. exact (fun t l ds c r T Nl Nd F B P fuel => read_path_stuck_later t l ds c r fuel T Nl Nd F B P). Qed.
Print Assumptions C37_never_ends_later_refuted.
(* a number that is too large gives the empty path, and so the key itself *)
Theorem C37_too_large_refuted : forall ds r fuel, ds <> [] -> Forall (fun c => is_digit c = true) ds -> 2147483648 <= horner 10 (map digit_value ds) -> (length ds <= fuel)%nat ->
  read_path fuel (ds ++ r) = Done [] /\
  forall hmac h160 pub x, derive_secret_text hmac h160 pub fuel x (ds ++ r) = Done x.
Proof.
  intros ds r fuel Ne F B L. pose proof (read_path_over ds r fuel Ne F B L) as E. split; [exact E|].
  intros hmac h160 pub x. unfold derive_secret_text. rewrite E. reflexivity.
Qed.
Print Assumptions C37_too_large_refuted.
(* whatever follows a quote is not looked at; a path may begin with a slash *)
Theorem C37_lenient_refuted :
  (forall t n c u l fuel, numeral t n -> n < 2147483648 -> path_text u l -> (length t + length u + 2 <= fuel)%nat ->
     read_path fuel (t ++ char_quote :: c :: u) = Done (n + 2147483648 :: l)) /\
  (forall t l fuel, path_text t l -> l <> [] -> (length t < fuel)%nat -> read_path fuel (char_slash :: t) = Done (0 :: l)).
Proof. exact (conj read_path_skip read_path_slash). Qed.
Print Assumptions C37_lenient_refuted.
(* hardening adds 2^31 to a plain index and softening takes it off *)
Theorem C37_harden : forall c, c < 2 ^ 32 ->
  harden c = (if c <? 2 ^ 31 then c + 2 ^ 31 else c) /\ soften c = c mod 2 ^ 31 /\ (hardened c = true <-> 2 ^ 31 <= c) /\
  hardened (harden c) = true /\ hardened (soften c) = false /\ harden c < 2 ^ 32.
Proof. exact harden_exact. Qed.
Print Assumptions C37_harden.
Theorem C37_soften : forall c, c < 2 ^ 31 -> soften (harden c) = c.
Proof. exact soften_harden. Qed.
Print Assumptions C37_soften.
Example C37_example : path_write ex_path = text "44'/0'/0/5/2147483647" /\ read_path 30 (text "44'/0'/0/5/2147483647") = Done ex_path /\
  ~ path_char "m"%byte /\ read_path 1000 (text "m/0") = More /\ read_path 30 (text "2147483648/1") = Done [] /\ read_path 30 (text "1'x2") = Done [2147483649; 2].
Proof.
  split; [exact ex_path_written|]. split; [vm_compute; reflexivity|]. split; [intros [C|[C|C]]; discriminate|].
  split; [vm_compute; reflexivity|]. split; vm_compute; reflexivity.
Qed.

(* C38 *)
Theorem C38_secret_exact : forall hmac h160 pub x fuel i y, i < 4294967296 ->
  derive_secret hmac h160 pub fuel x i = Done y <->
  exists j, (j <= fuel)%nat /\ (forall k, (k < j)%nat -> ~ takes_secret hmac pub x (w32 (i + N.of_nat k))) /\
    takes_secret hmac pub x (w32 (i + N.of_nat j)) /\ y = secret_child hmac h160 pub x (w32 (i + N.of_nat j)).
Proof. exact derive_secret_exact. Qed.
Print Assumptions C38_secret_exact.
Theorem C38_secret_unfinished : forall hmac h160 pub x fuel i, i < 4294967296 ->
  derive_secret hmac h160 pub fuel x i = More <-> forall k, (k <= fuel)%nat -> ~ takes_secret hmac pub x (w32 (i + N.of_nat k)).
Proof. exact derive_secret_more. Qed.
Print Assumptions C38_secret_unfinished.
Theorem C38_public_exact : forall hmac h160 tweak x fuel i y, i < 2 ^ 31 ->
  derive_pubkey hmac h160 tweak fuel x i = Done y <->
  exists j, (j <= fuel)%nat /\ (forall k, (k < j)%nat -> ~ takes_public hmac x (i + N.of_nat k)) /\
    ((i + N.of_nat j < 2 ^ 31 /\ takes_public hmac x (i + N.of_nat j) /\ y = public_child hmac h160 tweak x (i + N.of_nat j)) \/
     (i + N.of_nat j = 2 ^ 31 /\ y = xpubkey_none)).
Proof. exact derive_pubkey_exact. Qed.
Print Assumptions C38_public_exact.
Theorem C38_bip32 : forall hmac h160 pub x i, i < 4294967296 ->
  (forall fuel y, ckd_priv hmac h160 pub x i = Some y -> derive_secret hmac h160 pub fuel x i = Done y) /\
  (forall fuel, ckd_priv hmac h160 pub x i = None -> be_val (half_secret hmac pub x i) <> secp_order ->
     derive_secret hmac h160 pub (S fuel) x i = derive_secret hmac h160 pub fuel x (w32 (i + 1))).
Proof. exact ckd_priv_exact. Qed.
Print Assumptions C38_bip32.
Theorem C38_commute : forall hmac h160 pub tweak, tweak_adds pub tweak -> hmac_sized hmac ->
  forall fuel l x, length (x_key x) = 32%nat -> usable (be_val (x_key x)) -> plain_path hmac h160 pub x l ->
  exists y, derive_secret_path hmac h160 pub fuel x l = Done y /\ derive_pubkey_path hmac h160 tweak fuel (to_public pub x) l = Done (to_public pub y).
Proof. exact commute_path. Qed.
Print Assumptions C38_commute.
Theorem C38_concatenation : forall step a x b, derive_path step x (a ++ b) =
  match derive_path step x a with Done y => derive_path step y b | Bad => Bad | More => More end.
Proof. exact derive_path_app. Qed.
Print Assumptions C38_concatenation.
Theorem C38_hardened_public : forall hmac h160 tweak, (forall t, tweak [] t = []) ->
  (forall fuel x i, 2 ^ 31 <= i -> derive_pubkey hmac h160 tweak fuel x i = Done xpubkey_none) /\
  (forall fuel a i b x y, 2 ^ 31 <= i -> derive_pubkey_path hmac h160 tweak fuel x (a ++ i :: b) = Done y -> x_key y = []).
Proof. exact (fun hmac h160 tweak TE => conj (derive_pubkey_hardened hmac h160 tweak) (fun fuel a i b x y => hardened_step_loses hmac h160 tweak fuel a i b x y TE)). Qed.
Print Assumptions C38_hardened_public.
(* the public derivation compares the left half with the order in the wrong byte order: it skips an
   index that BIP 32 and the secret derivation take *)
Theorem C38_byte_order_refuted : forall hmac h160 pub tweak, tweak_adds pub tweak -> hmac_sized hmac ->
  forall fuel x i, length (x_key x) = 32%nat -> usable (be_val (x_key x)) -> i < 2 ^ 31 ->
  be_val (half_secret hmac pub x i) < secp_order -> secp_order < le_val (half_secret hmac pub x i) -> sum_key hmac pub x i <> 0 ->
  derive_secret hmac h160 pub fuel x i = Done (secret_child hmac h160 pub x i) /\
  ckd_pub hmac h160 tweak (to_public pub x) i = Some (to_public pub (secret_child hmac h160 pub x i)) /\
  (forall y, derive_pubkey hmac h160 tweak fuel (to_public pub x) i = Done y -> y <> to_public pub (secret_child hmac h160 pub x i)).
Proof. exact commute_fails. Qed.
Print Assumptions C38_byte_order_refuted.
(* BIP 32 has no child when the left half is the order; this code gives the parent's secret again *)
Theorem C38_order_refuted : forall hmac h160 pub fuel x i, length (x_key x) = 32%nat -> usable (be_val (x_key x)) -> be_val (half_secret hmac pub x i) = secp_order ->
  ckd_priv hmac h160 pub x i = None /\ exists y, derive_secret hmac h160 pub fuel x i = Done y /\ x_key y = x_key x.
Proof. exact order_repeats_key. Qed.
Print Assumptions C38_order_refuted.
Theorem C38_text : forall hmac h160 pub fuel x t l, path_text t l -> (length t <= fuel)%nat ->
  derive_secret_text hmac h160 pub fuel x t = derive_secret_path hmac h160 pub fuel x l.
Proof. exact text_derive. Qed.
Print Assumptions C38_text.
Theorem C38_seed : forall hmac, hmac_sized hmac -> forall seed n x, secret_from_seed hmac seed n = x <-> is_master hmac seed n x.
Proof. exact seed_master. Qed.
Print Assumptions C38_seed.
(* BIP 32 rejects a seed whose left half is no secret; this code does not *)
Theorem C38_seed_refuted : forall hmac, hmac_sized hmac -> forall seed n, ~ usable (be_val (firstn 32 (hmac bip32_label seed))) ->
  is_master hmac seed n (secret_from_seed hmac seed n) /\ forall x, ~ bip32_master hmac seed n x.
Proof. exact seed_unusable. Qed.
Print Assumptions C38_seed_refuted.
(* a source of keys gives the children one after the other *)
Theorem C38_source : forall step key k i, i < 2 ^ 32 ->
  source_keys (hd_next step key) i k = map (fun j => step key (w32 (i + N.of_nat j))) (seq 0 k).
Proof. exact source_exact. Qed.
Print Assumptions C38_source.
Example C38_more_example : hmac_sized (ex_hmac ex_half_order) /\ ~ usable (be_val (firstn 32 (ex_hmac ex_half_order bip32_label [x01]))) /\
  is_master (ex_hmac ex_half_plain) [x01] NetMain (secret_from_seed (ex_hmac ex_half_plain) [x01] NetMain).
Proof.
  split; [apply ex_hmac_sized; reflexivity|]. split; [intros [_ C]; vm_compute in C; discriminate C|].
  apply seed_master; [apply ex_hmac_sized|]; reflexivity.
Qed.
Example C38_example :
  tweak_adds ex_pub ex_tweak /\ (forall t, ex_tweak [] t = []) /\ hmac_sized (ex_hmac ex_half_plain) /\ hmac_sized (ex_hmac ex_only_big) /\
  length (x_key ex_xsecret) = 32%nat /\ usable (be_val (x_key ex_xsecret)) /\
  plain_path (ex_hmac ex_half_plain) ex_h160 ex_pub ex_xsecret [0; 2147483647; 5] /\
  be_val (half_secret (ex_hmac ex_only_big) ex_pub ex_xsecret 3) < secp_order /\ secp_order < le_val (half_secret (ex_hmac ex_only_big) ex_pub ex_xsecret 3) /\
  sum_key (ex_hmac ex_only_big) ex_pub ex_xsecret 3 <> 0 /\
  be_val (half_secret (ex_hmac ex_half_order) ex_pub ex_xsecret 3) = secp_order.
Proof.
  split; [exact ex_tweak_adds|]. split; [exact ex_tweak_empty|]. split; [apply ex_hmac_sized; reflexivity|]. split; [apply ex_hmac_sized; reflexivity|].
  split; [reflexivity|]. split; [split; vm_compute; reflexivity|].
  split; [cbn [plain_path]; unfold plain_half; repeat split; try (vm_compute; reflexivity); vm_compute; discriminate|].
  split; [vm_compute; reflexivity|]. split; [vm_compute; reflexivity|]. split; [vm_compute; discriminate|]. vm_compute; reflexivity.
Qed.

(* C39 *)
Theorem C39_secret_roundtrip : forall H e58, (forall m, length (H m) = 32%nat) -> forall x, xkey_wf 32 x -> xsecret_read H (xsecret_write H e58 x) = x.
Proof. exact xsecret_roundtrip. Qed.
Print Assumptions C39_secret_roundtrip.
Theorem C39_public_roundtrip : forall H e58, (forall m, length (H m) = 32%nat) -> forall x, xkey_wf 33 x -> xpubkey_read H (xpubkey_write H e58 x) = x.
Proof. exact xpubkey_roundtrip. Qed.
Print Assumptions C39_public_roundtrip.
Theorem C39_secret_exact : forall H, (forall m, length (H m) = 32%nat) -> forall s x, xsecret_read H s = x <->
  (exists b, xkey_wf 32 x /\ b58_text s (append_checksum H (x_payload xprv_main xprv_test [b] x))) \/
  (x = xsecret_none /\ ~ exists b y, xkey_wf 32 y /\ b58_text s (append_checksum H (x_payload xprv_main xprv_test [b] y))).
Proof. exact xsecret_read_exact. Qed.
Print Assumptions C39_secret_exact.
Theorem C39_public_exact : forall H, (forall m, length (H m) = 32%nat) -> forall s x, xpubkey_read H s = x <->
  (xkey_wf 33 x /\ b58_text s (append_checksum H (x_payload xpub_main xpub_test [] x))) \/
  (x = xpubkey_none /\ ~ exists y, xkey_wf 33 y /\ b58_text s (append_checksum H (x_payload xpub_main xpub_test [] y))).
Proof. exact xpubkey_read_exact. Qed.
Print Assumptions C39_public_exact.
Theorem C39_public_canonical : forall H e58, (forall m, length (H m) = 32%nat) -> forall s, xpubkey_read H s <> xpubkey_none -> xpubkey_write H e58 (xpubkey_read H s) = s.
Proof. exact xpubkey_canonical. Qed.
Print Assumptions C39_public_canonical.
(* the byte before the secret is not looked at, so each secret has other texts *)
Theorem C39_secret_canonical_refuted : forall H e58, (forall m, length (H m) = 32%nat) -> forall x b, xkey_wf 32 x -> b <> x00 ->
  exists s, s <> xsecret_write H e58 x /\ xsecret_read H s = x.
Proof. exact xsecret_two_texts. Qed.
Print Assumptions C39_secret_canonical_refuted.
(* keys without a network come back as test keys, and uncompressed public keys do not come back *)
Theorem C39_other_keys_refuted : forall H e58, (forall m, length (H m) = 32%nat) ->
  (forall k c d p q, xsecret_write H e58 (mkxkey k c NetInvalid d p q) = xsecret_write H e58 (mkxkey k c NetTest d p q) /\
                     xpubkey_write H e58 (mkxkey k c NetInvalid d p q) = xpubkey_write H e58 (mkxkey k c NetTest d p q)) /\
  (forall x, length (x_chain x) = 32%nat -> length (x_key x) <> 33%nat -> xpubkey_read H (xpubkey_write H e58 x) = xpubkey_none).
Proof. exact (fun H e58 H32 => conj (xsecret_invalid_is_test H e58) (xpubkey_other_size H e58 H32)). Qed.
Print Assumptions C39_other_keys_refuted.
Theorem C39_valid_exact : forall x, xsecret_valid x = true <-> usable (le_val (x_key x)) /\ x_net x <> NetInvalid.
Proof. exact xvalid_exact. Qed.
Print Assumptions C39_valid_exact.
(* the bytes of a secret are big-endian, but valid reads them as a little-endian number *)
Theorem C39_valid_refuted : exists x y, xkey_wf 32 x /\ usable (be_val (x_key x)) /\ xsecret_valid x = false /\
  xkey_wf 32 y /\ ~ usable (be_val (x_key y)) /\ xsecret_valid y = true.
Proof. exact xvalid_wrong. Qed.
Print Assumptions C39_valid_refuted.
Theorem C39_prefixes : be_val (x_version :: xprv_main) = 0x0488ADE4 /\ be_val (x_version :: xprv_test) = 0x04358394 /\
  be_val (x_version :: xpub_main) = 0x0488B21E /\ be_val (x_version :: xpub_test) = 0x043587CF.
Proof. exact prefixes. Qed.
Print Assumptions C39_prefixes.
Example C39_example : xkey_wf 32 ex_xsecret /\ xsecret_read ex_hash32 (xsecret_write ex_hash32 [] ex_xsecret) = ex_xsecret /\
  xpubkey_read ex_hash32 (xpubkey_write ex_hash32 [] (to_public ex_pub ex_xsecret)) = to_public ex_pub ex_xsecret.
Proof. split; [exact ex_xsecret_wf|]. split; vm_compute; reflexivity. Qed.

(* C76: the depth and the network along a path, and repeated keys *)
Theorem C76_fields : forall hmac h160 pub fuel l x y, x_depth x < 256 -> derive_secret_path hmac h160 pub fuel x l = Done y ->
  x_depth y = (x_depth x + N.of_nat (length l)) mod 256 /\ x_net y = x_net x.
Proof. exact secret_path_fields. Qed.
Print Assumptions C76_fields.
(* the depth of a child is not greater than that of its parent at 255 *)
Theorem C76_depth_refuted : exists hmac h160 pub x y, x_depth x = 255 /\ derive_secret_path hmac h160 pub 0 x [7] = Done y /\ x_depth y = 0.
Proof. exists (ex_hmac ex_half_plain), ex_h160, ex_pub, ex_xsecret. eexists. split; [reflexivity|]. split; vm_compute; reflexivity. Qed.
Print Assumptions C76_depth_refuted.
(* an index that is skipped gives the same key as the next one, also across the boundary of the hardened indices *)
Theorem C76_skipped_index_repeats : forall hmac h160 pub x i fuel, ~ takes_secret hmac pub x i ->
  derive_secret hmac h160 pub (S fuel) x i = derive_secret hmac h160 pub fuel x (w32 (i + 1)).
Proof. exact (fun hmac h160 pub x i fuel => proj2 (derive_secret_step hmac h160 pub (S fuel) x i)). Qed.
Print Assumptions C76_skipped_index_repeats.
Example C76_example : ~ takes_secret (ex_hmac (repeat xff 32)) ex_pub ex_xsecret 2147483647.
Proof. intros [C _]. vm_compute in C. apply C. reflexivity. Qed.
