(* The text form of extended keys. *)
From Verif Require Import Base BaseProofs WireModel MerkleModel TextModel TextSpec TextProofs TextFormProofs HdModel HdSpec.
From Coq Require Import Lia ZifyBool ZifyNat ZifyN.
Local Open Scope N_scope.

Lemma cut {A} (l : list A) k : (k <= length l)%nat -> exists a b, l = a ++ b /\ length a = k.
Proof. intros L. exists (firstn k l), (skipn k l). split; [symmetry; apply firstn_skipn|]. rewrite firstn_length. lia. Qed.
Lemma be4_val b : length b = 4%nat -> be 4 (be_val b) = b /\ be_val b < 2 ^ 32.
Proof. intros L. rewrite <- L at 1. split; [apply be_be_val|]. pose proof (be_val_bound b) as B. rewrite L in B. exact B. Qed.
Lemma val_be4 n : n < 2 ^ 32 -> be_val (be 4 n) = n.
Proof. intros B. rewrite be_val_be. apply N.mod_small. exact B. Qed.

Section XText.
Variable H : bytes -> bytes.
Variable e58 : bytes.
Hypothesis H32 : forall m, length (H m) = 32%nat.
Variables main test : bytes.
Variable from : nat.
Variable none : xkey.
Hypothesis Lm : length main = 3%nat.
Hypothesis Lt : length test = 3%nat.
Hypothesis Dis : main <> test.
Hypothesis From : (44 <= from <= 77)%nat.
Notation x_read := (x_read H main test from none).
Notation wf := (xkey_wf (77 - from)).

Lemma read_payload s sep x : length sep = (from - 44)%nat -> wf x -> b58_text s (append_checksum H (x_payload main test sep x)) -> x_read s = x.
Proof.
  intros Ls (K & C & Nt & D & P & Q) T. apply (decode_exact H H32) in T; [|discriminate]. unfold HdModel.x_read. rewrite T. unfold x_payload.
  set (pre := x_prefix main test x).
  assert (Lp : length pre = 3%nat) by (unfold pre, x_prefix; destruct (x_net x); assumption).
  rewrite byte_eqb_refl. cbn [negb].
  assert (Len : length (pre ++ [n2b (x_depth x)] ++ be 4 (x_parent x) ++ be 4 (x_sequence x) ++ x_chain x ++ sep ++ x_key x) = 77%nat).
  { rewrite !app_length, !be_length. cbn [length]. lia. }
  rewrite Len. cbn [Nat.eqb negb]. cbv zeta.
  rewrite (firstn_len pre _ 3 Lp).
  assert (Net : (if bytes_eqb main pre then Some NetMain else if bytes_eqb test pre then Some NetTest else None) = Some (x_net x)).
  { unfold pre, x_prefix. destruct (x_net x); [congruence| |].
    - replace (bytes_eqb main main) with true by (symmetry; apply bytes_eqb_eq; reflexivity). reflexivity.
    - destruct (bytes_eqb main test) eqn:E; [apply bytes_eqb_eq in E; contradiction|].
      replace (bytes_eqb test test) with true by (symmetry; apply bytes_eqb_eq; reflexivity). reflexivity. }
  rewrite Net.
  assert (S3 : nth 3 (pre ++ [n2b (x_depth x)] ++ be 4 (x_parent x) ++ be 4 (x_sequence x) ++ x_chain x ++ sep ++ x_key x) x00 = n2b (x_depth x)).
  { rewrite app_nth2 by lia. rewrite Lp. reflexivity. }
  rewrite S3.
  assert (S4 : skipn 4 (pre ++ [n2b (x_depth x)] ++ be 4 (x_parent x) ++ be 4 (x_sequence x) ++ x_chain x ++ sep ++ x_key x) = be 4 (x_parent x) ++ be 4 (x_sequence x) ++ x_chain x ++ sep ++ x_key x).
  { rewrite (app_assoc pre). apply skipn_len. rewrite app_length. cbn [length]. lia. }
  rewrite S4.
  assert (S8 : skipn 8 (pre ++ [n2b (x_depth x)] ++ be 4 (x_parent x) ++ be 4 (x_sequence x) ++ x_chain x ++ sep ++ x_key x) = be 4 (x_sequence x) ++ x_chain x ++ sep ++ x_key x).
  { rewrite (app_assoc pre), (app_assoc _ (be 4 (x_parent x))). apply skipn_len. rewrite !app_length, be_length. cbn [length]. lia. }
  rewrite S8.
  assert (S12 : skipn 12 (pre ++ [n2b (x_depth x)] ++ be 4 (x_parent x) ++ be 4 (x_sequence x) ++ x_chain x ++ sep ++ x_key x) = x_chain x ++ sep ++ x_key x).
  { rewrite (app_assoc pre), (app_assoc _ (be 4 (x_parent x))), (app_assoc _ (be 4 (x_sequence x))). apply skipn_len. rewrite !app_length, !be_length. cbn [length]. lia. }
  rewrite S12.
  assert (SF : skipn from (pre ++ [n2b (x_depth x)] ++ be 4 (x_parent x) ++ be 4 (x_sequence x) ++ x_chain x ++ sep ++ x_key x) = x_key x).
  { rewrite (app_assoc pre), (app_assoc _ (be 4 (x_parent x))), (app_assoc _ (be 4 (x_sequence x))), (app_assoc _ (x_chain x)), (app_assoc _ sep). apply skipn_len.
    rewrite !app_length, !be_length. cbn [length]. lia. }
  rewrite SF.
  rewrite !(firstn_len (be 4 _) _ 4) by apply be_length. rewrite (firstn_len (x_chain x) _ 32 C). rewrite !val_be4 by assumption.
  rewrite b2n_n2b, N.mod_small by exact D. destruct x; reflexivity.
Qed.
Lemma payload_shape sep y : length sep = (from - 44)%nat -> wf y -> exists t, x_payload main test sep y = x_version :: x_prefix main test y ++ t /\ length (x_prefix main test y ++ t) = 77%nat /\
  (x_prefix main test y = main \/ x_prefix main test y = test).
Proof.
  intros Ls (K & C & Nt & D & P & Q). eexists. split; [reflexivity|]. assert (Lp : length (x_prefix main test y) = 3%nat) by (unfold x_prefix; destruct (x_net y); assumption).
  split; [rewrite !app_length, !be_length; cbn [length]; lia|]. unfold x_prefix. destruct (x_net y); auto.
Qed.
Lemma read_inv s : (x_read s = none /\ ~ exists sep y, length sep = (from - 44)%nat /\ wf y /\ b58_text s (append_checksum H (x_payload main test sep y))) \/ exists sep, length sep = (from - 44)%nat /\ wf (x_read s) /\ b58_text s (append_checksum H (x_payload main test sep (x_read s))).
Proof.
  unfold HdModel.x_read. 
  assert (NoT : forall sep y, length sep = (from - 44)%nat -> wf y -> b58_text s (append_checksum H (x_payload main test sep y)) ->
    exists t, check_decode H s = x_version :: x_prefix main test y ++ t /\ length (x_prefix main test y ++ t) = 77%nat /\ (x_prefix main test y = main \/ x_prefix main test y = test)).
  { intros sep y Ls W T. destruct (payload_shape sep y Ls W) as (t & E1 & E2). exists t. rewrite <- E1. split; [|exact E2]. apply (decode_exact H H32); [discriminate|exact T]. }
  destruct (check_decode H s) as [|v view] eqn:E.
  { left. split; [reflexivity|]. intros (sep & y & Ls & W & T). destruct (NoT sep y Ls W T) as (t & C & _). discriminate. }
  destruct (byte_eqb v x_version) eqn:V.
  2: { left. split; [reflexivity|]. intros (sep & y & Ls & W & T). destruct (NoT sep y Ls W T) as (t & C & _). assert (v = x_version) by congruence. subst v. rewrite byte_eqb_refl in V. discriminate. }
  apply byte_eqb_eq in V. subst v. cbn [negb].
  destruct (Nat.eqb_spec (length view) 77) as [L|NL].
  2: { left. split; [reflexivity|]. intros (sep & y & Ls & W & T). destruct (NoT sep y Ls W T) as (t & C & L & _). apply NL. rewrite <- L. f_equal. congruence. } cbn [negb]. cbv zeta.
  destruct (cut view 3 ltac:(lia)) as (pre & r1 & -> & Lp). rewrite app_length in L.
  destruct r1 as [|d r2]; [cbn [length] in L; lia|]. cbn [length] in L.
  destruct (cut r2 4 ltac:(lia)) as (pa & r3 & -> & Lpa). rewrite app_length in L.
  destruct (cut r3 4 ltac:(lia)) as (sq & r4 & -> & Lsq). rewrite app_length in L.
  destruct (cut r4 32 ltac:(lia)) as (ch & r5 & -> & Lch). rewrite app_length in L.
  destruct (cut r5 (from - 44) ltac:(lia)) as (sep & key & -> & Lsep). rewrite app_length in L.
  rewrite (firstn_len pre _ 3 Lp).
  set (net := if bytes_eqb main pre then Some NetMain else if bytes_eqb test pre then Some NetTest else None).
  destruct net as [n|] eqn:Net.
  2: { left. split; [reflexivity|]. intros (sp & y & Ls & W & T). destruct (NoT sp y Ls W T) as (t & C & _ & Pf).
       assert (PE : pre = x_prefix main test y).
       { assert (C' : pre ++ d :: pa ++ sq ++ ch ++ sep ++ key = x_prefix main test y ++ t) by congruence. apply app_inj_len in C'; [apply C'|]. rewrite Lp. destruct Pf as [-> | ->]; congruence. }
       unfold net in Net. destruct (bytes_eqb main pre) eqn:M; [discriminate|]. destruct (bytes_eqb test pre) eqn:M2; [discriminate|].
       rewrite PE in M, M2. destruct Pf as [Pf|Pf]; rewrite Pf in M, M2.
       - assert (bytes_eqb main main = true) by (apply bytes_eqb_eq; reflexivity). congruence.
       - assert (bytes_eqb test test = true) by (apply bytes_eqb_eq; reflexivity). congruence. } right. exists sep. split; [exact Lsep|].
  assert (S3 : nth 3 (pre ++ d :: pa ++ sq ++ ch ++ sep ++ key) x00 = d) by (rewrite app_nth2 by lia; rewrite Lp; reflexivity).
  assert (S4 : skipn 4 (pre ++ d :: pa ++ sq ++ ch ++ sep ++ key) = pa ++ sq ++ ch ++ sep ++ key).
  { change (d :: pa ++ sq ++ ch ++ sep ++ key) with ([d] ++ pa ++ sq ++ ch ++ sep ++ key). rewrite (app_assoc pre). apply skipn_len. rewrite app_length. cbn [length]. lia. }
  assert (S8 : skipn 8 (pre ++ d :: pa ++ sq ++ ch ++ sep ++ key) = sq ++ ch ++ sep ++ key).
  { change (d :: pa ++ sq ++ ch ++ sep ++ key) with ([d] ++ pa ++ sq ++ ch ++ sep ++ key). rewrite (app_assoc pre), (app_assoc _ pa). apply skipn_len. rewrite !app_length. cbn [length]. lia. }
  assert (S12 : skipn 12 (pre ++ d :: pa ++ sq ++ ch ++ sep ++ key) = ch ++ sep ++ key).
  { change (d :: pa ++ sq ++ ch ++ sep ++ key) with ([d] ++ pa ++ sq ++ ch ++ sep ++ key). rewrite (app_assoc pre), (app_assoc _ pa), (app_assoc _ sq). apply skipn_len. rewrite !app_length. cbn [length]. lia. }
  assert (SF : skipn from (pre ++ d :: pa ++ sq ++ ch ++ sep ++ key) = key).
  { change (d :: pa ++ sq ++ ch ++ sep ++ key) with ([d] ++ pa ++ sq ++ ch ++ sep ++ key). rewrite (app_assoc pre), (app_assoc _ pa), (app_assoc _ sq), (app_assoc _ ch), (app_assoc _ sep). apply skipn_len. rewrite !app_length. cbn [length]. lia. }
  rewrite S3, S4, S8, S12, SF. rewrite (firstn_len pa _ 4 Lpa), (firstn_len sq _ 4 Lsq), (firstn_len ch _ 32 Lch).
  destruct (be4_val pa Lpa) as [P1 P2]. destruct (be4_val sq Lsq) as [Q1 Q2].
  assert (NP : n <> NetInvalid /\ x_prefix main test (mkxkey key ch n (b2n d) (be_val pa) (be_val sq)) = pre).
  { unfold net in Net. destruct (bytes_eqb main pre) eqn:M.
    - apply bytes_eqb_eq in M. assert (n = NetMain) by congruence. subst. split; [discriminate|reflexivity].
    - destruct (bytes_eqb test pre) eqn:T; [|discriminate]. apply bytes_eqb_eq in T. assert (n = NetTest) by congruence. subst. split; [discriminate|reflexivity]. }
  destruct NP as [N1 N2]. split.
  - unfold xkey_wf. cbn [x_key x_chain x_net x_depth x_parent x_sequence]. split; [lia|]. split; [exact Lch|]. split; [exact N1|]. split; [apply b2n_lt|]. split; assumption.
  - apply (decode_exact H H32); [discriminate|]. rewrite E. unfold x_payload. rewrite N2. cbn [x_key x_chain x_net x_depth x_parent x_sequence]. rewrite P1, Q1, n2b_b2n. reflexivity.
Qed.
Lemma read_exact s x : x_read s = x <->
  (exists sep, length sep = (from - 44)%nat /\ wf x /\ b58_text s (append_checksum H (x_payload main test sep x))) \/
  (x = none /\ ~ exists sep y, length sep = (from - 44)%nat /\ wf y /\ b58_text s (append_checksum H (x_payload main test sep y))).
Proof.
  split.
  - intros <-. destruct (read_inv s) as [[E No]|R]; [right; split; assumption|left; exact R].
  - intros [(sep & L & W & T)|(-> & No)]; [apply (read_payload s sep); assumption|].
    destruct (read_inv s) as [[E _]|(sep & L & W & T)]; [exact E|]. exfalso. apply No. exists sep, (x_read s). auto.
Qed.
End XText.

Section XForms.
Variable H : bytes -> bytes.
Variable e58 : bytes.
Hypothesis H32 : forall m, length (H m) = 32%nat.

Lemma xsecret_read_exact s x : xsecret_read H s = x <->
  (exists b, xkey_wf 32 x /\ b58_text s (append_checksum H (x_payload xprv_main xprv_test [b] x))) \/
  (x = xsecret_none /\ ~ exists b y, xkey_wf 32 y /\ b58_text s (append_checksum H (x_payload xprv_main xprv_test [b] y))).
Proof.
  unfold xsecret_read. rewrite (read_exact H H32 xprv_main xprv_test 45 xsecret_none eq_refl eq_refl ltac:(discriminate) ltac:(lia)).
  change (77 - 45)%nat with 32%nat. change (45 - 44)%nat with 1%nat. split.
  - intros [([|b [|]] & L & W & T)|(-> & No)]; try discriminate L; [left; exists b; auto|]. right. split; [reflexivity|]. intros (b & y & W & T). apply No. exists [b], y. auto.
  - intros [(b & W & T)|(-> & No)]; [left; exists [b]; auto|]. right. split; [reflexivity|]. intros ([|b [|]] & y & L & W & T); try discriminate L. apply No. exists b, y. auto.
Qed.
Lemma xpubkey_read_exact s x : xpubkey_read H s = x <->
  (xkey_wf 33 x /\ b58_text s (append_checksum H (x_payload xpub_main xpub_test [] x))) \/
  (x = xpubkey_none /\ ~ exists y, xkey_wf 33 y /\ b58_text s (append_checksum H (x_payload xpub_main xpub_test [] y))).
Proof.
  unfold xpubkey_read. rewrite (read_exact H H32 xpub_main xpub_test 44 xpubkey_none eq_refl eq_refl ltac:(discriminate) ltac:(lia)).
  change (77 - 44)%nat with 33%nat. change (44 - 44)%nat with 0%nat. split.
  - intros [([|] & L & W & T)|(-> & No)]; try discriminate L; [left; auto|]. right. split; [reflexivity|]. intros (y & W & T). apply No. exists [], y. auto.
  - intros [(W & T)|(-> & No)]; [left; exists []; auto|]. right. split; [reflexivity|]. intros ([|] & y & L & W & T); try discriminate L. apply No. exists y. auto.
Qed.
Lemma write_secret_payload x : xsecret_write H e58 x = check_encode H e58 (x_payload xprv_main xprv_test [x00] x).
Proof. unfold xsecret_write, x_payload, x_prefix. destruct (x_net x); reflexivity. Qed.
Lemma write_pubkey_payload x : xpubkey_write H e58 x = check_encode H e58 (x_payload xpub_main xpub_test [] x).
Proof. unfold xpubkey_write, x_payload, x_prefix. destruct (x_net x); reflexivity. Qed.
Lemma x_nonzero main test sep x : nonzero (append_checksum H (x_payload main test sep x)).
Proof. exists x_version. split; [left; reflexivity|discriminate]. Qed.
Lemma xsecret_roundtrip x : xkey_wf 32 x -> xsecret_read H (xsecret_write H e58 x) = x.
Proof.
  intros W. apply xsecret_read_exact. left. exists x00. split; [exact W|]. rewrite write_secret_payload. apply encode_text; right; apply x_nonzero.
Qed.
Lemma xpubkey_roundtrip x : xkey_wf 33 x -> xpubkey_read H (xpubkey_write H e58 x) = x.
Proof.
  intros W. apply xpubkey_read_exact. left. split; [exact W|]. rewrite write_pubkey_payload. apply encode_text; right; apply x_nonzero.
Qed.
(* what is read as a public key is the only text of that key *)
Lemma xpubkey_canonical s : xpubkey_read H s <> xpubkey_none -> xpubkey_write H e58 (xpubkey_read H s) = s.
Proof.
  intros Ne. destruct (proj1 (xpubkey_read_exact s _) eq_refl) as [(W & T)|(E & _)]; [|contradiction].
  rewrite write_pubkey_payload. apply (encode_exact H e58); [right; apply x_nonzero|exact T].
Qed.
Lemma xsecret_canonical_iff s : xsecret_read H s <> xsecret_none ->
  (xsecret_write H e58 (xsecret_read H s) = s <-> b58_text s (append_checksum H (x_payload xprv_main xprv_test [x00] (xsecret_read H s)))).
Proof. intros _. rewrite write_secret_payload. apply (encode_exact H e58). right. apply x_nonzero. Qed.
(* the byte before the secret is not looked at *)
Lemma payload_sep_inj main test a b x : x_payload main test [a] x = x_payload main test [b] x -> a = b.
Proof.
  unfold x_payload. intros E. assert (E' : x_prefix main test x ++ [n2b (x_depth x)] ++ be 4 (x_parent x) ++ be 4 (x_sequence x) ++ x_chain x ++ [a] ++ x_key x =
    x_prefix main test x ++ [n2b (x_depth x)] ++ be 4 (x_parent x) ++ be 4 (x_sequence x) ++ x_chain x ++ [b] ++ x_key x) by congruence.
  do 5 apply app_inv_head in E'. cbn [app] in E'. congruence.
Qed.
Lemma xsecret_two_texts x b : xkey_wf 32 x -> b <> x00 -> exists s, s <> xsecret_write H e58 x /\ xsecret_read H s = x.
Proof.
  intros W Ne. destruct (b58_text_total (append_checksum H (x_payload xprv_main xprv_test [b] x))) as (s & T). exists s. split.
  - intros E. apply Ne. assert (T' : b58_text s (append_checksum H (x_payload xprv_main xprv_test [x00] x))).
    { rewrite E, write_secret_payload. apply encode_text; right; apply x_nonzero. }
    pose proof (b58_text_fun _ _ _ T T') as Q. apply append_inj in Q; [|exact H32]. apply (payload_sep_inj _ _ _ _ _ Q).
  - apply xsecret_read_exact. left. exists b. split; assumption.
Qed.
Lemma xsecret_invalid_is_test k c d p q : xsecret_write H e58 (mkxkey k c NetInvalid d p q) = xsecret_write H e58 (mkxkey k c NetTest d p q) /\
  xpubkey_write H e58 (mkxkey k c NetInvalid d p q) = xpubkey_write H e58 (mkxkey k c NetTest d p q).
Proof. split; reflexivity. Qed.
(* a public key of another size is written but not read *)
Lemma xpubkey_other_size x : length (x_chain x) = 32%nat -> length (x_key x) <> 33%nat -> xpubkey_read H (xpubkey_write H e58 x) = xpubkey_none.
Proof.
  intros C K. apply xpubkey_read_exact. right. split; [reflexivity|]. intros (y & (K' & C' & _) & T).
  assert (T' : b58_text (xpubkey_write H e58 x) (append_checksum H (x_payload xpub_main xpub_test [] x))).
  { rewrite write_pubkey_payload. apply encode_text; right; apply x_nonzero. }
  pose proof (b58_text_fun _ _ _ T T') as Q. apply append_inj in Q; [|exact H32]. apply K.
  assert (L : length (x_payload xpub_main xpub_test [] y) = length (x_payload xpub_main xpub_test [] x)) by (rewrite Q; reflexivity).
  unfold x_payload in L. cbn [length] in L. rewrite !app_length, !be_length in L.
  assert (length (x_prefix xpub_main xpub_test x) = 3%nat) by (unfold x_prefix; destruct (x_net x); reflexivity).
  assert (length (x_prefix xpub_main xpub_test y) = 3%nat) by (unfold x_prefix; destruct (x_net y); reflexivity).
  cbn [length] in L. lia.
Qed.
Lemma xsecret_write_inj x y : xkey_wf 32 x -> xkey_wf 32 y -> xsecret_write H e58 x = xsecret_write H e58 y -> x = y.
Proof. intros Wx Wy E. rewrite <- (xsecret_roundtrip x Wx), <- (xsecret_roundtrip y Wy), E. reflexivity. Qed.
End XForms.
