(* Addresses, WIF and BIP 276. *)
From Verif Require Import Base BaseProofs WireModel MerkleModel TextModel TextSpec TextProofs.
From Coq Require Import ZifyBool ZifyNat ZifyN.
Ltac Zify.zify_post_hook ::= Z.div_mod_to_equations.
Local Open Scope N_scope.

(* ---- the length of a text ---- *)
Lemma horner_lt base ds : 1 <= base -> Forall (fun d => d < base) ds -> horner base ds < base ^ N.of_nat (length ds).
Proof.
  intros B F. rewrite horner_rev, <- rev_length. apply Forall_rev in F. induction F as [|d r D F IH]; cbn [num length]; [reflexivity|].
  replace (N.of_nat (S (length r))) with (N.succ (N.of_nat (length r))) by lia. rewrite N.pow_succ_r'. nia.
Qed.
Lemma horner_ge base ds : 1 <= base -> ds <> [] -> hd 1 ds <> 0 -> base ^ N.of_nat (length ds - 1) <= horner base ds.
Proof.
  intros B N Z. destruct ds as [|d r]; [congruence|]. rewrite horner_rev. cbn [rev hd length] in *. rewrite num_app, rev_length. cbn [num].
  replace (S (length r) - 1)%nat with (length r) by lia. rewrite N.mul_0_r, N.add_0_r. nia.
Qed.
Lemma pow_cmp base a b : 2 <= base -> base ^ a < base ^ b -> a < b.
Proof. intros B L. apply (N.pow_lt_mono_r_iff base); [lia|exact L]. Qed.
Lemma b58_25 m : (m <= 25)%nat -> 256 ^ N.of_nat m <= 58 ^ (10 + N.of_nat m).
Proof.
  intros L. assert (X : forallb (fun k => 256 ^ N.of_nat k <=? 58 ^ (10 + N.of_nat k)) (seq 0 26) = true) by (vm_compute; reflexivity).
  rewrite forallb_forall in X. apply N.leb_le, X, List.in_seq. lia.
Qed.
Lemma text_length_25 s d : b58_text s d -> length d = 25%nat -> (25 <= length s <= 35)%nat.
Proof.
  intros (z & ds & r & -> & -> & F & N & M & E). rewrite !app_length, !repeat_length, map_length. intros L.
  assert (U : (length ds <= 10 + length r)%nat).
  { destruct ds as [|x ds]; [cbn; lia|]. assert (G := horner_ge 58 (x :: ds) ltac:(lia) ltac:(discriminate) N).
    assert (Lt := horner_lt 256 (map b2n r) ltac:(lia) (b2n_map_lt r)). rewrite map_length in Lt. rewrite E in G.
    assert (C := b58_25 (length r) ltac:(lia)). assert (P : 58 ^ N.of_nat (length (x :: ds) - 1) < 58 ^ (10 + N.of_nat (length r))) by (eapply N.le_lt_trans; [exact G|]; eapply N.lt_le_trans; [exact Lt|exact C]).
    apply pow_cmp in P; lia. }
  assert (V : (length r <= length ds)%nat).
  { destruct r as [|x r]; [cbn; lia|]. assert (G := horner_ge 256 (map b2n (x :: r)) ltac:(lia) ltac:(discriminate) (proj2 (hd_bytes (x :: r)) M)). rewrite map_length in G.
    assert (Lt := horner_lt 58 ds ltac:(lia) F). rewrite E in Lt.
    assert (P : 58 ^ N.of_nat (length (x :: r) - 1) < 58 ^ N.of_nat (length ds)).
    { eapply N.le_lt_trans; [|exact Lt]. eapply N.le_trans; [|exact G]. apply N.pow_le_mono_l. lia. }
    apply pow_cmp in P; [|lia]. cbn [length] in *. lia. }
  lia.
Qed.

Section Forms.
Variable H : bytes -> bytes.
Variable e58 : bytes.
Hypothesis H32 : forall m, length (H m) = 32%nat.

(* ---- addresses ---- *)
Lemma address_decode_exact s n d : n <> NetInvalid ->
  address_decode H s = (n, d) <->
  (5 <= length s <= 35)%nat /\ exists payload, (length payload <= 20)%nat /\ b58_text s (append_checksum H (prefix_of n :: payload)) /\ d = payload ++ repeat x00 (20 - length payload).
Proof.
  intros N. unfold address_decode. split.
  - destruct (Nat.ltb_spec 35 (length s)) as [A|A]; cbn [orb]; [intros X; exfalso; unfold address_none in X; congruence|].
    destruct (Nat.ltb_spec (length s) 5) as [B|B]; [intros X; exfalso; unfold address_none in X; congruence|].
    destruct (check_decode H s) as [|v p] eqn:E; [intros X; exfalso; unfold address_none in X; congruence|].
    destruct (byte_eqb v address_main || byte_eqb v address_test) eqn:V; cbn [negb]; [|intros X; exfalso; unfold address_none in X; congruence].
    destruct (Nat.ltb_spec 20 (length p)) as [C|C]; [intros X; exfalso; unfold address_none in X; congruence|].
    intros X. split; [lia|]. exists p. split; [exact C|]. assert (D : d = p ++ repeat x00 (20 - length p)) by congruence. split; [|exact D].
    assert (v = prefix_of n) as <-; [|apply decode_exact; [exact H32|discriminate|exact E]].
    destruct (byte_eqb v address_main) eqn:V1.
    + apply byte_eqb_eq in V1. assert (n = NetMain) as -> by congruence. exact V1.
    + cbn [orb] in V. apply byte_eqb_eq in V. assert (n = NetTest) as -> by congruence. exact V.
  - intros ([L1 L2] & p & P & T & ->). apply decode_exact in T; [|exact H32|discriminate]. rewrite T.
    assert (Nat.ltb 35 (length s) = false) as -> by (apply Nat.ltb_ge; lia). assert (Nat.ltb (length s) 5 = false) as -> by (apply Nat.ltb_ge; lia). cbn [orb].
    assert (Nat.ltb 20 (length p) = false) as -> by (apply Nat.ltb_ge; lia). destruct n; [congruence| |]; reflexivity.
Qed.
Lemma address_roundtrip n d : n <> NetInvalid -> length d = 20%nat -> e58 = [] \/ nonzero (append_checksum H (prefix_of n :: d)) ->
  address_decode H (address_encode H e58 n d) = (n, d) /\ (25 <= length (address_encode H e58 n d) <= 35)%nat.
Proof.
  intros N L G. unfold address_encode. change (match n with NetMain => address_main | _ => address_test end) with (prefix_of n).
  assert (T := encode_text H e58 (prefix_of n :: d) G).
  assert (X := text_length_25 _ _ T ltac:(unfold append_checksum; rewrite app_length, checksum_length by exact H32; cbn [length]; lia)). split; [|exact X].
  apply address_decode_exact; [exact N|]. split; [lia|]. exists d. split; [lia|]. split; [exact T|]. rewrite L, Nat.sub_diag. symmetry. apply app_nil_r.
Qed.
Lemma address_inj n m d f : n <> NetInvalid -> m <> NetInvalid -> length d = 20%nat -> length f = 20%nat ->
  e58 = [] \/ (nonzero (append_checksum H (prefix_of n :: d)) /\ nonzero (append_checksum H (prefix_of m :: f))) ->
  address_encode H e58 n d = address_encode H e58 m f -> n = m /\ d = f.
Proof.
  intros N M Ld Lf G E. apply check_encode_inj in E; [|exact H32|exact G]. split; [|congruence]. destruct n, m; try congruence; discriminate E.
Qed.
(* a shorter payload is filled up with zeros *)
Lemma address_short n p : n <> NetInvalid -> (length p <= 20)%nat -> e58 = [] \/ nonzero (append_checksum H (prefix_of n :: p)) ->
  (5 <= length (address_encode H e58 n p) <= 35)%nat -> address_decode H (address_encode H e58 n p) = (n, p ++ repeat x00 (20 - length p)).
Proof.
  intros N L G B. apply address_decode_exact; [exact N|]. split; [exact B|]. exists p. split; [exact L|]. split; [|reflexivity]. exact (encode_text H e58 _ G).
Qed.
Lemma address_invalid_is_test d : address_encode H e58 NetInvalid d = address_encode H e58 NetTest d.
Proof. reflexivity. Qed.
Lemma address_valid_exact s : address_valid (address_decode H s) = true <->
  exists n d, n <> NetInvalid /\ address_decode H s = (n, d) /\ d <> repeat x00 20.
Proof.
  unfold address_valid. destruct (address_decode H s) as [n d]. cbn [fst snd]. rewrite andb_true_iff, negb_true_iff.
  assert (X : bytes_eqb d (repeat x00 20) = false <-> d <> repeat x00 20).
  { destruct (bytes_eqb d (repeat x00 20)) eqn:E; [apply bytes_eqb_eq in E; split; [discriminate|contradiction]|].
    split; [|reflexivity]. intros _ Y. apply bytes_eqb_eq in Y. congruence. }
  rewrite X. split.
  - intros [D N]. exists n, d. split; [destruct n; congruence|]. auto.
  - intros (n' & d' & N & E & D). assert (n' = n) as -> by congruence. assert (d' = d) as -> by congruence. split; [exact D|]. destruct n; congruence.
Qed.

(* ---- WIF ---- *)
Lemma payload_nonzero s : nonzero (append_checksum H (wif_payload s)).
Proof. exists (wif_prefix (s_net s)). split; [left; reflexivity|]. destruct (s_net s); discriminate. Qed.
Lemma wif_decode_exact t s : s_net s <> NetInvalid -> wif_decode H t = s <-> length (s_value s) = 32%nat /\ b58_text t (append_checksum H (wif_payload s)).
Proof.
  intros N. unfold wif_decode. split.
  - assert (BAD : secret_none = s -> False) by (intros <-; apply N; reflexivity).
    destruct (check_decode H t) as [|p r] eqn:E; [intros X; destruct (BAD X)|]. apply decode_exact in E; [|exact H32|discriminate].
    destruct ((S (length r) =? 33)%nat || (S (length r) =? 34)%nat) eqn:S1; cbn [negb]; [|intros X; destruct (BAD X)].
    destruct (byte_eqb p wif_main || byte_eqb p wif_test) eqn:P; cbn [negb]; [|intros X; destruct (BAD X)].
    assert (PF : p = wif_prefix (if byte_eqb p wif_main then NetMain else NetTest)).
    { destruct (byte_eqb p wif_main) eqn:P1; [apply byte_eqb_eq in P1; exact P1|]. cbn [orb] in P. apply byte_eqb_eq in P. exact P. }
    destruct (Nat.eqb_spec (S (length r)) 34) as [C|C]; cbn [andb].
    + destruct (byte_eqb (nth 32 r x00) wif_suffix) eqn:Sx; cbn [negb]; [|intros X; destruct (BAD X)]. intros <-. cbn [s_value s_net s_compressed].
      split; [rewrite firstn_length; lia|]. unfold wif_payload. cbn [s_value s_net s_compressed]. rewrite <- PF. apply byte_eqb_eq in Sx.
      replace (firstn 32 r ++ [wif_suffix]) with r; [exact E|]. rewrite <- (firstn_skipn 32 r) at 1. f_equal.
      rewrite <- Sx. clear - C. assert (L : length (skipn 32 r) = 1%nat) by (rewrite skipn_length; lia). rewrite <- (firstn_skipn 32 r) at 2. rewrite app_nth2 by (rewrite firstn_length; lia).
      rewrite firstn_length. replace (32 - Nat.min 32 (length r))%nat with 0%nat by lia. destruct (skipn 32 r) as [|x [|y q]]; try discriminate L. reflexivity.
    + intros <-. cbn [s_value s_net s_compressed]. assert (L : length r = 32%nat) by (clear - S1 C; lia).
      split; [rewrite firstn_length; lia|]. unfold wif_payload. cbn [s_value s_net s_compressed]. rewrite <- PF, app_nil_r. rewrite firstn_all2 by lia. exact E.
  - intros [L T]. apply decode_exact in T; [|exact H32|discriminate]. rewrite T. unfold wif_payload. destruct s as [n v c]. cbn [s_net s_value s_compressed] in *. rewrite app_length, L.
    assert (F : firstn 32 (v ++ (if c then [wif_suffix] else [])) = v) by (rewrite firstn_app, L, Nat.sub_diag, firstn_all2, app_nil_r by lia; reflexivity). rewrite F.
    assert (Q : nth 32 (v ++ [wif_suffix]) x00 = wif_suffix) by (rewrite app_nth2, L by lia; reflexivity).
    destruct c; cbn [length Nat.add Nat.eqb orb negb andb]; [rewrite Q|]; destruct n; try congruence; reflexivity.
Qed.
Lemma wif_roundtrip s : length (s_value s) = 32%nat -> secret_valid s = true -> wif_decode H (wif_encode H e58 s) = s.
Proof.
  intros L V. assert (N : s_net s <> NetInvalid). { unfold secret_valid in V. apply andb_true_iff in V. destruct V as [_ V]. destruct (s_net s); congruence. }
  apply wif_decode_exact; [exact N|]. split; [exact L|]. unfold wif_encode. rewrite V. cbn [negb]. apply (encode_text H e58 (wif_payload s)). right. apply payload_nonzero.
Qed.
Lemma wif_encode_invalid s : secret_valid s = false -> wif_encode H e58 s = [].
Proof. intros V. unfold wif_encode. rewrite V. reflexivity. Qed.
Lemma wif_decode_nil : wif_decode H [] = secret_none.
Proof. reflexivity. Qed.
Lemma wif_canonical t s : s_net s <> NetInvalid -> secret_valid s = true -> wif_decode H t = s -> t = wif_encode H e58 s.
Proof.
  intros N V E. apply wif_decode_exact in E; [|exact N]. destruct E as [_ T]. unfold wif_encode. rewrite V. cbn [negb].
  symmetry. apply (encode_exact H e58 t (wif_payload s)); [right; apply payload_nonzero|exact T].
Qed.
(* the text does not have to hold a key that is usable *)
Lemma wif_unusable n v c : n <> NetInvalid -> length v = 32%nat ->
  exists t, wif_decode H t = mksecret n v c.
Proof.
  intros N L. destruct (b58_text_total (append_checksum H (wif_payload (mksecret n v c)))) as [t T]. exists t. apply wif_decode_exact; [exact N|]. split; [exact L|exact T].
Qed.
End Forms.

(* ---- secrets ---- *)
Lemma secp_valid_exact v : secp_secret_valid v = true <-> usable (le_val v).
Proof. unfold secp_secret_valid, usable. rewrite andb_true_iff, negb_true_iff, N.eqb_neq, N.ltb_lt. clear. generalize (le_val v) as n, secp_order as o. intros. lia. Qed.
Lemma seckey_verify_exact v : seckey_verify v = true <-> usable (be_val v).
Proof. unfold seckey_verify, usable. rewrite andb_true_iff, negb_true_iff, N.eqb_neq, N.ltb_lt. generalize (be_val v) as n, secp_order as o. intros. lia. Qed.
Lemma seckey_reversed v : seckey_verify v = secp_secret_valid (rev v).
Proof. reflexivity. Qed.

(* ---- hexadecimal ---- *)
Lemma hex_digit_lower k : k < 16 -> hex_digit (nth (N.to_nat k) hex_lower x00) = Some k /\ in_chars hex_lower (nth (N.to_nat k) hex_lower x00) = true.
Proof.
  intros L. assert (X : forallb (fun j => let c := nth j hex_lower x00 in match hex_digit c with Some e => (e =? N.of_nat j) && in_chars hex_lower c | None => false end) (seq 0 16) = true) by (vm_compute; reflexivity).
  rewrite forallb_forall in X. specialize (X (N.to_nat k)). cbv zeta in X. destruct (hex_digit (nth (N.to_nat k) hex_lower x00)) as [e|].
  - assert (Y : (e =? N.of_nat (N.to_nat k)) && in_chars hex_lower (nth (N.to_nat k) hex_lower x00) = true) by (apply X, List.in_seq; lia).
    apply andb_true_iff in Y. destruct Y as [Y1 Y2]. apply N.eqb_eq in Y1. rewrite N2Nat.id in Y1. subst. auto.
  - assert (Y : false = true) by (apply X, List.in_seq; lia). discriminate Y.
Qed.
Lemma hex_digit_lower_inv c : in_chars hex_lower c = true -> exists k, k < 16 /\ c = nth (N.to_nat k) hex_lower x00.
Proof.
  unfold in_chars. destruct (index_of c hex_lower) as [k|] eqn:E; [|discriminate]. intros _. apply index_of_some in E. exists (N.of_nat k).
  rewrite Nat2N.id. change (length hex_lower) with 16%nat in E. split; [lia|symmetry; apply E].
Qed.
Lemma hex_write_length b : length (hex_write b) = (2 * length b)%nat.
Proof. induction b as [|x r IH]; [reflexivity|]. unfold hex_write in *. cbn [flat_map]. rewrite app_length, IH. cbn [length]. lia. Qed.
Lemma hex_write_app a b : hex_write (a ++ b) = hex_write a ++ hex_write b.
Proof. unfold hex_write. apply flat_map_app. Qed.
Lemma hex_read_write b : hex_read (hex_write b) = Some b.
Proof.
  induction b as [|x r IH]; [reflexivity|]. change (hex_write (x :: r)) with (nth (N.to_nat (b2n x / 16)) hex_lower x00 :: nth (N.to_nat (b2n x mod 16)) hex_lower x00 :: hex_write r).
  cbn [hex_read]. pose proof (b2n_lt x). destruct (hex_digit_lower (b2n x / 16)) as [-> _]; [lia|]. destruct (hex_digit_lower (b2n x mod 16)) as [-> _]; [lia|]. rewrite IH.
  f_equal. f_equal. apply b2n_inj. rewrite b2n_n2b. lia.
Qed.
Lemma hex_write_pairs b : hex_pairs hex_lower (hex_write b) = true.
Proof.
  unfold hex_pairs. rewrite hex_write_length. apply andb_true_iff. split; [apply Nat.even_spec; exists (length b); reflexivity|].
  apply forallb_forall. intros c I. unfold hex_write in I. apply in_flat_map in I. destruct I as (x & _ & I). pose proof (b2n_lt x).
  destruct I as [<-|[<-|[]]]; apply hex_digit_lower; lia.
Qed.
Lemma hex_pairs_write s : hex_pairs hex_lower s = true -> exists b, s = hex_write b.
Proof.
  unfold hex_pairs. rewrite andb_true_iff. intros [E F]. apply Nat.even_spec in E. destruct E as [n E]. revert s E F. induction n as [|n IH]; intros s E F.
  - destruct s; [exists []; reflexivity|cbn in E; lia].
  - destruct s as [|a [|b r]]; try (cbn in E; lia). cbn [forallb] in F. rewrite !andb_true_iff in F. destruct F as (A & B & F).
    destruct (IH r) as [t T]; [cbn [length] in E; lia|exact F|]. apply hex_digit_lower_inv in A. apply hex_digit_lower_inv in B. destruct A as (x & X & ->), B as (y & Y & ->).
    exists (n2b (16 * x + y) :: t). change (hex_write (n2b (16 * x + y) :: t)) with (nth (N.to_nat (b2n (n2b (16 * x + y)) / 16)) hex_lower x00 :: nth (N.to_nat (b2n (n2b (16 * x + y)) mod 16)) hex_lower x00 :: hex_write t).
    rewrite b2n_n2b, <- T. assert (Q1 : (16 * x + y) mod 256 / 16 = x) by lia. assert (Q2 : (16 * x + y) mod 256 mod 16 = y) by lia. rewrite Q1, Q2. reflexivity.
Qed.
Lemma hex_read_odd : forall n s, length s = S (2 * n) -> hex_read s = None.
Proof.
  induction n as [|n IH]; intros s L.
  - destruct s as [|a [|b r]]; try (cbn in L; lia). reflexivity.
  - destruct s as [|a [|b r]]; try (cbn in L; lia). cbn [hex_read]. rewrite (IH r) by (cbn [length] in L; lia). destruct (hex_digit a), (hex_digit b); reflexivity.
Qed.
Lemma hex_read_total l : forall n s, (forall c, In c l -> hex_digit c <> None) -> length s = (2 * n)%nat -> Forall (fun c => In c l) s -> exists b, hex_read s = Some b /\ length b = n.
Proof.
  induction n as [|n IH]; intros s X L F.
  - destruct s; [exists []; auto|cbn in L; lia].
  - destruct s as [|a [|b r]]; try (cbn in L; lia). inversion F as [|? ? A F']; subst. inversion F' as [|? ? B F'']; subst.
    destruct (IH r X) as (t & T & Lt); [cbn [length] in L; lia|exact F''|]. cbn [hex_read]. rewrite T. apply X in A. apply X in B.
    destruct (hex_digit a) as [x|]; [|congruence]. destruct (hex_digit b) as [y|]; [|congruence]. eexists. split; [reflexivity|]. cbn. congruence.
Qed.
Lemma upper_digits c : In c hex_upper -> hex_digit c <> None.
Proof.
  intros I. assert (X : forallb (fun c => match hex_digit c with Some _ => true | None => false end) hex_upper = true) by (vm_compute; reflexivity).
  rewrite forallb_forall in X. specialize (X c I). destruct (hex_digit c); [discriminate|discriminate X].
Qed.
Lemma in_chars_in l c : in_chars l c = true <-> In c l.
Proof.
  unfold in_chars. destruct (index_of c l) as [k|] eqn:E.
  - split; [|reflexivity]. intros _. apply index_of_some in E. destruct E as [L <-]. apply nth_In. exact L.
  - apply index_of_none in E. split; [discriminate|contradiction].
Qed.
Lemma starts_with_exact p : forall s r, starts_with p s = Some r <-> s = p ++ r.
Proof.
  induction p as [|x p IH]; intros s r; cbn [starts_with app]; [split; congruence|]. destruct s as [|y s]; [split; discriminate|].
  destruct (byte_eqb x y) eqn:E.
  - apply byte_eqb_eq in E. subst. rewrite IH. split; [intros ->; reflexivity|congruence].
  - split; [discriminate|]. intros X. assert (y = x) as -> by congruence. rewrite byte_eqb_refl in E. discriminate.
Qed.
Lemma upper_not_prefix z r : z = bip276_prefix ++ r -> is_upper_hex z -> False.
Proof. intros -> U. inversion U as [|? ? A _]; subst. vm_compute in A. repeat (destruct A as [A|A]; [discriminate A|]). exact A. Qed.
Lemma upper_pairs z : hex_pairs hex_upper z = true <-> Nat.Even (length z) /\ is_upper_hex z.
Proof.
  unfold hex_pairs, is_upper_hex. rewrite andb_true_iff, Nat.even_spec, forallb_forall, Forall_forall. setoid_rewrite in_chars_in. reflexivity.
Qed.

Section Bip276.
Variable H : bytes -> bytes.
Hypothesis H32 : forall m, length (H m) = 32%nat.

Lemma bip276_length v n b : length (bip276_write H v n b) = (27 + 2 * length b)%nat.
Proof.
  unfold bip276_write. cbv zeta. rewrite !app_length, !hex_write_length, checksum_length by exact H32. cbn [length]. change (length bip276_prefix) with 15%nat. lia.
Qed.
Lemma skipn_len {A} (a b : list A) k : length a = k -> skipn k (a ++ b) = b.
Proof. intros <-. rewrite skipn_app, Nat.sub_diag, skipn_all. reflexivity. Qed.
Lemma firstn_len {A} (a b : list A) k : length a = k -> firstn k (a ++ b) = a.
Proof. intros <-. rewrite firstn_app, Nat.sub_diag, firstn_all, app_nil_r. reflexivity. Qed.

Lemma match_lower v : bip276_match (bip276_prefix ++ hex_write v) = true.
Proof.
  unfold bip276_match. assert (E : starts_with bip276_prefix (bip276_prefix ++ hex_write v) = Some (hex_write v)) by (apply starts_with_exact; reflexivity).
  rewrite E, hex_write_pairs. reflexivity.
Qed.
Lemma match_cases z : bip276_match z = true <-> (exists v, z = bip276_prefix ++ hex_write v) \/ (Nat.Even (length z) /\ is_upper_hex z).
Proof.
  split.
  - unfold bip276_match. rewrite orb_true_iff, upper_pairs. intros [X|X]; [left|right; exact X].
    destruct (starts_with bip276_prefix z) as [r|] eqn:E; [|discriminate]. apply starts_with_exact in E. apply hex_pairs_write in X. destruct X as [b ->]. exists b. exact E.
  - intros [[v ->]|X]; [apply match_lower|]. unfold bip276_match. apply orb_true_iff. right. apply upper_pairs. exact X.
Qed.

(* the text with the prefix: payload w = everything but the checksum *)
Lemma read_lower w c : (1 <= length w)%nat -> length c = 4%nat ->
  bip276_read H (bip276_prefix ++ hex_write (w ++ c)) =
  if (length w <? 3)%nat then Ret None
  else if negb (bytes_eqb c (checksum H (bip276_prefix ++ hex_write w))) then Ret None
  else match w with
  | v :: n :: d => if negb (b2n v =? 1) || (2 <? b2n n) then Ret None else Ret (Some (n, d))
  | _ => Undef
  end.
Proof.
  intros W C. unfold bip276_read. rewrite hex_write_app, app_assoc. set (t := bip276_prefix ++ hex_write w).
  assert (Lt : length t = (15 + 2 * length w)%nat) by (unfold t; rewrite app_length, hex_write_length; reflexivity).
  assert (Lc : length (hex_write c) = 8%nat) by (rewrite hex_write_length, C; reflexivity).
  assert (Lz : length (t ++ hex_write c) = (23 + 2 * length w)%nat) by (rewrite app_length, Lt, Lc; lia). rewrite Lz.
  assert (M : bip276_match (t ++ hex_write c) = true) by (unfold t; rewrite <- app_assoc, <- hex_write_app; apply match_lower). rewrite M. cbn [negb].
  replace (23 + 2 * length w - 8)%nat with (length t) by lia. rewrite skipn_len, firstn_len by reflexivity. rewrite hex_read_write.
  destruct (Nat.ltb_spec (length w) 3) as [S3|S3].
  - assert (Nat.leb (23 + 2 * length w) 27 = true) as -> by (apply Nat.leb_le; lia). reflexivity.
  - assert (Nat.leb (23 + 2 * length w) 27 = false) as -> by (apply Nat.leb_gt; lia).
    replace (23 + 2 * length w - 23)%nat with (2 * length w)%nat by lia. unfold t at 2. rewrite <- app_assoc. rewrite skipn_len by reflexivity. rewrite firstn_len by apply hex_write_length.
    rewrite hex_read_write. destruct (negb (bytes_eqb c (checksum H t))); [reflexivity|]. destruct w as [|v [|n d]]; reflexivity.
Qed.
Lemma read_upper z : (28 <= length z)%nat -> Nat.Even (length z) -> is_upper_hex z ->
  (exists c, hex_read (skipn (length z - 8) z) = Some c /\ length c = 4%nat /\
    bip276_read H z = if bytes_eqb c (checksum H (firstn (length z - 8) z)) then Undef else Ret None).
Proof.
  intros L E U. destruct (hex_read_total hex_upper 4 (skipn (length z - 8) z)) as (c & C & Lc); [exact upper_digits|rewrite skipn_length; lia| |].
  { unfold is_upper_hex in U. rewrite <- (firstn_skipn (length z - 8) z) in U. apply Forall_app in U. apply U. }
  exists c. split; [exact C|]. split; [exact Lc|]. unfold bip276_read. assert (Nat.leb (length z) 27 = false) as -> by (apply Nat.leb_gt; lia).
  assert (M : bip276_match z = true) by (apply match_cases; right; auto). rewrite M. cbn [negb]. rewrite C. destruct (bytes_eqb c _); cbn [negb]; [|reflexivity].
  destruct E as [k E]. rewrite (hex_read_odd (k - 12)); [reflexivity|]. rewrite firstn_length, skipn_length. lia.
Qed.

Lemma bip276_read_write v n b :
  bip276_read H (bip276_write H v n b) = if negb (b2n v =? 1) || (2 <? b2n n) || (length b =? 0)%nat then Ret None else Ret (Some (n, b)).
Proof.
  unfold bip276_write. cbv zeta. rewrite <- app_assoc, <- hex_write_app. rewrite read_lower by (try apply checksum_length; try exact H32; cbn [length]; lia).
  assert (X : forall x, bytes_eqb x x = true) by (intros; apply bytes_eqb_eq; reflexivity). rewrite X. cbn [negb length].
  destruct b as [|x b]; [rewrite orb_true_r; reflexivity|]. rewrite orb_false_r. reflexivity.
Qed.
Lemma bip276_read_exact z n d : bip276_read H z = Ret (Some (n, d)) <-> b2n n <= 2 /\ d <> [] /\ z = bip276_write H x01 n d.
Proof.
  split.
  - intros R. assert (A : (28 <= length z)%nat /\ bip276_match z = true).
    { unfold bip276_read in R. destruct (Nat.leb_spec (length z) 27); [discriminate R|]. destruct (bip276_match z); [split; [lia|reflexivity]|discriminate R]. }
    destruct A as [L M]. apply match_cases in M. destruct M as [[v ->]|[E U]].
    + rewrite app_length, hex_write_length in L. change (length bip276_prefix) with 15%nat in L.
      rewrite <- (firstn_skipn (length v - 4) v) in R |- *. set (w := firstn (length v - 4) v) in *. set (c := skipn (length v - 4) v) in *.
      assert (Lw : (3 <= length w)%nat) by (unfold w; rewrite firstn_length; lia). assert (Lc : length c = 4%nat) by (unfold c; rewrite skipn_length; lia).
      rewrite read_lower in R by (exact Lc || lia). assert (Nat.ltb (length w) 3 = false) as Q by (apply Nat.ltb_ge; lia). rewrite Q in R.
      destruct (bytes_eqb c _) eqn:C; cbn [negb] in R; [|discriminate R]. apply bytes_eqb_eq in C.
      destruct w as [|a [|m e]]; try discriminate R. destruct (negb (b2n a =? 1) || (2 <? b2n m)) eqn:G; [discriminate R|]. apply orb_false_iff in G. destruct G as [G1 G2].
      apply negb_false_iff, N.eqb_eq in G1. apply N.ltb_ge in G2. assert (m = n) by congruence. assert (e = d) by congruence. subst m e.
      assert (a = x01) as -> by (apply b2n_inj; exact G1). split; [exact G2|]. split; [intros ->; cbn in Lw; lia|].
      unfold bip276_write. cbv zeta. rewrite <- C, <- app_assoc, <- hex_write_app. reflexivity.
    + destruct (read_upper z L E U) as (c & _ & _ & X). rewrite X in R. destruct (bytes_eqb c _); discriminate R.
  - intros (N & D & ->). rewrite bip276_read_write. change (b2n x01) with 1. cbn [N.eqb Pos.eqb negb orb].
    assert (N.ltb 2 (b2n n) = false) as -> by (apply N.ltb_ge; exact N). destruct d; [congruence|reflexivity].
Qed.
Lemma bip276_undef_exact z : bip276_read H z = Undef <->
  (28 <= length z)%nat /\ Nat.Even (length z) /\ is_upper_hex z /\ hex_read (skipn (length z - 8) z) = Some (checksum H (firstn (length z - 8) z)).
Proof.
  split.
  - intros R. assert (A : (28 <= length z)%nat /\ bip276_match z = true).
    { unfold bip276_read in R. destruct (Nat.leb_spec (length z) 27); [discriminate R|]. destruct (bip276_match z); [split; [lia|reflexivity]|discriminate R]. }
    destruct A as [L M]. apply match_cases in M. destruct M as [[v ->]|[E U]].
    + exfalso. rewrite app_length, hex_write_length in L. change (length bip276_prefix) with 15%nat in L.
      rewrite <- (firstn_skipn (length v - 4) v) in R. set (w := firstn (length v - 4) v) in *. set (c := skipn (length v - 4) v) in *.
      assert (Lw : (3 <= length w)%nat) by (unfold w; rewrite firstn_length; lia). assert (Lc : length c = 4%nat) by (unfold c; rewrite skipn_length; lia).
      rewrite read_lower in R by (exact Lc || lia). assert (Nat.ltb (length w) 3 = false) as Q by (apply Nat.ltb_ge; lia). rewrite Q in R.
      destruct (negb (bytes_eqb c _)); [discriminate R|]. destruct w as [|a [|m e]]; [cbn in Lw; lia|cbn in Lw; lia|].
      destruct (negb (b2n a =? 1) || (2 <? b2n m)); discriminate R.
    + split; [exact L|]. split; [exact E|]. split; [exact U|]. destruct (read_upper z L E U) as (c & C & _ & X). rewrite X in R.
      destruct (bytes_eqb c _) eqn:Q; [|discriminate R]. apply bytes_eqb_eq in Q. rewrite C, Q. reflexivity.
  - intros (L & E & U & C). destruct (read_upper z L E U) as (c & C' & _ & X). rewrite X. assert (c = checksum H (firstn (length z - 8) z)) as -> by congruence.
    assert (Y : forall x, bytes_eqb x x = true) by (intros; apply bytes_eqb_eq; reflexivity). rewrite Y. reflexivity.
Qed.

(* such a text exists *)
Lemma upper_nth k : k < 16 -> hex_digit (nth (N.to_nat k) hex_upper x00) = Some k /\ In (nth (N.to_nat k) hex_upper x00) hex_upper.
Proof.
  intros L. assert (X : forallb (fun j => match hex_digit (nth j hex_upper x00) with Some e => e =? N.of_nat j | None => false end) (seq 0 16) = true) by (vm_compute; reflexivity).
  rewrite forallb_forall in X. specialize (X (N.to_nat k)). split; [|apply nth_In; change (length hex_upper) with 16%nat; lia]. destruct (hex_digit (nth (N.to_nat k) hex_upper x00)) as [e|].
  - assert (Y : (e =? N.of_nat (N.to_nat k)) = true) by (apply X, List.in_seq; lia). apply N.eqb_eq in Y. rewrite N2Nat.id in Y. congruence.
  - assert (Y : false = true) by (apply X, List.in_seq; lia). discriminate Y.
Qed.
Lemma upper_write b : hex_read (hex_write_upper b) = Some b /\ is_upper_hex (hex_write_upper b) /\ length (hex_write_upper b) = (2 * length b)%nat.
Proof.
  induction b as [|x r (A & B & C)]; [split; [reflexivity|split; [constructor|reflexivity]]|].
  change (hex_write_upper (x :: r)) with (nth (N.to_nat (b2n x / 16)) hex_upper x00 :: nth (N.to_nat (b2n x mod 16)) hex_upper x00 :: hex_write_upper r).
  pose proof (b2n_lt x). destruct (upper_nth (b2n x / 16)) as [U1 U2]; [lia|]. destruct (upper_nth (b2n x mod 16)) as [V1 V2]; [lia|]. split; [|split].
  - cbn [hex_read]. rewrite U1, V1, A. f_equal. f_equal. apply b2n_inj. rewrite b2n_n2b. lia.
  - constructor; [exact U2|]. constructor; [exact V2|exact B].
  - cbn [length]. lia.
Qed.
Lemma bip276_undef_exists b : (10 <= length b)%nat -> let t := hex_write_upper b in bip276_read H (t ++ hex_write_upper (checksum H t)) = Undef.
Proof.
  intros L t. apply bip276_undef_exact. destruct (upper_write b) as (A & B & C). destruct (upper_write (checksum H t)) as (A' & B' & C'). rewrite checksum_length in C' by exact H32.
  fold t in A, B, C. rewrite app_length, C, C'. split; [lia|]. split; [exists (length b + 4)%nat; lia|]. split; [apply Forall_app; auto|].
  replace (2 * length b + 2 * 4 - 8)%nat with (length t) by lia. rewrite skipn_len, firstn_len by reflexivity. exact A'.
Qed.
End Bip276.
