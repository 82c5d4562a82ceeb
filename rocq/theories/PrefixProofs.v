(* The letters with which the text forms begin. *)
From Verif Require Import Base BaseProofs WireModel MerkleModel TextModel TextSpec TextProofs TextFormProofs HdModel HdSpec HdTextProofs PrefixSpec.
From Coq Require Import String List Lia ZifyBool ZifyNat ZifyN.
Import ListNotations.
Local Open Scope list_scope.
Local Open Scope N_scope.

Lemma horner_app base xs ys : horner base (xs ++ ys) = horner base xs * base ^ N.of_nat (length ys) + horner base ys.
Proof. rewrite !horner_rev, rev_app_distr, num_app, rev_length. lia. Qed.

(* the digits above the last k are those of the quotient *)
Lemma digits_head ds k q : Forall (fun d => d < 58) ds -> hd 1 ds <> 0 -> Forall (fun d => d < 58) q -> q <> [] -> hd 1 q <> 0 ->
  horner 58 ds / 58 ^ N.of_nat k = horner 58 q -> exists t, ds = q ++ t /\ length t = k.
Proof.
  intros F Z Fq Nq Zq E.
  assert (Q : 1 <= horner 58 q).
  { assert (G := horner_ge 58 q ltac:(lia) Nq Zq). assert (58 ^ N.of_nat (length q - 1) <> 0) by (apply N.pow_nonzero; lia). lia. }
  assert (P : 58 ^ N.of_nat k <> 0) by (apply N.pow_nonzero; lia).
  assert (K : (k <= length ds)%nat).
  { destruct (Nat.le_gt_cases k (length ds)) as [L|L]; [exact L|exfalso].
    assert (X := horner_lt 58 ds ltac:(lia) F). assert (Y : 58 ^ N.of_nat (length ds) <= 58 ^ N.of_nat k) by (apply N.pow_le_mono_r; lia).
    rewrite N.div_small in E by (eapply N.lt_le_trans; [exact X|exact Y]). lia. }
  set (j := (length ds - k)%nat). assert (D := firstn_skipn j ds).
  assert (Lk : length (skipn j ds) = k) by (rewrite skipn_length; unfold j; lia).
  assert (Fs := F). rewrite <- D in Fs. apply Forall_app in Fs. destruct Fs as [F1 F2].
  exists (skipn j ds). split; [|exact Lk]. rewrite <- D at 1. f_equal.
  rewrite <- D in E. rewrite horner_app, Lk in E. rewrite N.div_add_l in E by exact P.
  rewrite N.div_small in E by (rewrite <- Lk; apply horner_lt; [lia|exact F2]). rewrite N.add_0_r in E.
  apply (horner_inj 58) in E; auto; [lia|].
  destruct (firstn j ds) as [|x r] eqn:X; [discriminate|]. rewrite <- D in Z. exact Z.
Qed.

(* the bytes behind a text that does not begin with a zero *)
Lemma text_head s d : b58_text s d -> hd x01 d <> x00 ->
  exists ds, s = map b58_char ds /\ Forall (fun x => x < 58) ds /\ hd 1 ds <> 0 /\ horner 58 ds = horner 256 (map b2n d).
Proof.
  intros (z & ds & r & -> & -> & F & N & M & E) X. destruct z as [|z]; [|exfalso; apply X; reflexivity].
  exists ds. cbn [repeat app]. auto.
Qed.

(* the values of the bytes h followed by m others *)
Lemma value_range h m t : length t = m ->
  horner 256 (map b2n h) * 256 ^ N.of_nat m <= horner 256 (map b2n (h ++ t)) < (horner 256 (map b2n h) + 1) * 256 ^ N.of_nat m.
Proof.
  intros L. rewrite map_app, horner_app, map_length, L. assert (X := horner_lt 256 (map b2n t) ltac:(lia) (b2n_map_lt t)). rewrite map_length, L in X. lia.
Qed.

(* all quotients from lo to hi have a known notation *)
Definition heads_ok (h : bytes) (m k : nat) (qs : list (string * list N)) : bool :=
  let lo := horner 256 (map b2n h) * 256 ^ N.of_nat m / 58 ^ N.of_nat k in
  let hi := ((horner 256 (map b2n h) + 1) * 256 ^ N.of_nat m - 1) / 58 ^ N.of_nat k in
  forallb (fun v => existsb (fun q => (horner 58 (snd q) =? v) && bytes_eqb (map b58_char (snd q)) (text (fst q)) && forallb (fun d => d <? 58) (snd q) && negb (hd 0 (snd q) =? 0)) qs)
          (map (fun i => lo + N.of_nat i) (seq 0 (S (N.to_nat (hi - lo))))).

Lemma text_begins s h t m k qs : b58_text s (h ++ t) -> hd x00 h <> x00 -> length t = m -> heads_ok h m k qs = true -> begins (map fst qs) k s.
Proof.
  intros T Z L G. assert (Z' : hd x01 (h ++ t) <> x00) by (destruct h; [exfalso; apply Z; reflexivity|exact Z]).
  destruct (text_head _ _ T Z') as (ds & -> & F & N & E). assert (R := value_range h m t L). unfold heads_ok in G. cbv zeta in G. rewrite forallb_forall in G.
  set (v := horner 58 ds / 58 ^ N.of_nat k). set (lo := horner 256 (map b2n h) * 256 ^ N.of_nat m / 58 ^ N.of_nat k) in *.
  set (hi := ((horner 256 (map b2n h) + 1) * 256 ^ N.of_nat m - 1) / 58 ^ N.of_nat k) in *.
  assert (P : 58 ^ N.of_nat k <> 0) by (apply N.pow_nonzero; lia).
  assert (V1 : lo <= v) by (unfold lo, v; apply N.div_le_mono; [exact P|rewrite E; apply R]).
  assert (V2 : v <= hi) by (unfold hi, v; apply N.div_le_mono; [exact P|rewrite E; lia]).
  assert (W : In v (map (fun i => lo + N.of_nat i) (seq 0 (S (N.to_nat (hi - lo)))))).
  { apply in_map_iff. exists (N.to_nat (v - lo)). split; [lia|]. apply List.in_seq. lia. }
  specialize (G v W). apply existsb_exists in G. destruct G as ([p q] & I & C). cbn [fst snd] in C.
  apply andb_prop in C. destruct C as [C C4]. apply andb_prop in C. destruct C as [C C3]. apply andb_prop in C. destruct C as [C1 C2].
  apply N.eqb_eq in C1. apply bytes_eqb_eq in C2. rewrite forallb_forall in C3.
  assert (Fq : Forall (fun d => d < 58) q) by (apply Forall_forall; intros x Hx; apply N.ltb_lt, C3, Hx).
  assert (Nq : q <> []) by (intros ->; discriminate C4).
  assert (Zq : hd 1 q <> 0) by (destruct q; [congruence|]; cbn [hd] in *; intros ->; discriminate C4).
  destruct (digits_head ds k q F N Fq Nq Zq) as (u & -> & Lu); [symmetry; exact C1|].
  exists p, (map b58_char u). split; [apply in_map_iff; exists (p, q); auto|]. rewrite map_app, C2, map_length. auto.
Qed.

Lemma nonzero_hd x r : x <> x00 -> nonzero (x :: r).
Proof. intros X. exists x. split; [left; reflexivity|exact X]. Qed.

Lemma b58_24 m : (m <= 24)%nat -> 256 ^ N.of_nat m <= 58 ^ (9 + N.of_nat m).
Proof.
  intros L. assert (X : forallb (fun k => 256 ^ N.of_nat k <=? 58 ^ (9 + N.of_nat k)) (seq 0 25) = true) by (vm_compute; reflexivity).
  rewrite forallb_forall in X. apply N.leb_le, X, List.in_seq. lia.
Qed.
Lemma text_zero s d : b58_text s (x00 :: d) -> (length d <= 24)%nat -> exists t, s = text "1" ++ t /\ (length d <= length t <= 9 + length d)%nat.
Proof.
  intros (z & ds & r & -> & D & F & N & M & E) L. destruct z as [|z]; [cbn [repeat app] in D; subst r; exfalso; apply M; reflexivity|].
  cbn [repeat app] in D. assert (d = repeat x00 z ++ r) as -> by congruence.
  exists (repeat char_one z ++ map b58_char ds). split; [reflexivity|]. rewrite !app_length, !repeat_length, map_length in *.
  assert (U : (length ds <= 9 + length r)%nat).
  { destruct ds as [|x ds]; [cbn; lia|]. assert (G := horner_ge 58 (x :: ds) ltac:(lia) ltac:(discriminate) N).
    assert (Lt := horner_lt 256 (map b2n r) ltac:(lia) (b2n_map_lt r)). rewrite map_length in Lt. rewrite E in G.
    assert (C := b58_24 (length r) ltac:(lia)). assert (P : 58 ^ N.of_nat (length (x :: ds) - 1) < 58 ^ (9 + N.of_nat (length r))) by (eapply N.le_lt_trans; [exact G|]; eapply N.lt_le_trans; [exact Lt|exact C]).
    apply pow_cmp in P; lia. }
  assert (V : (length r <= length ds)%nat).
  { destruct r as [|x r]; [cbn; lia|]. assert (G := horner_ge 256 (map b2n (x :: r)) ltac:(lia) ltac:(discriminate) (proj2 (hd_bytes (x :: r)) M)). rewrite map_length in G.
    assert (Lt := horner_lt 58 ds ltac:(lia) F). rewrite E in Lt.
    assert (P : 58 ^ N.of_nat (length (x :: r) - 1) < 58 ^ N.of_nat (length ds)).
    { eapply N.le_lt_trans; [|exact Lt]. eapply N.le_trans; [|exact G]. apply N.pow_le_mono_l. lia. }
    apply pow_cmp in P; [|lia]. cbn [length] in *. lia. }
  lia.
Qed.
Lemma text_not_one s x d : b58_text s (x :: d) -> x <> x00 -> exists c t, s = c :: t /\ c <> char_one.
Proof.
  intros T X. destruct (text_head _ _ T X) as (ds & -> & F & N & E). destruct ds as [|y ds].
  - exfalso. assert (G := horner_ge 256 (map b2n (x :: d)) ltac:(lia) ltac:(discriminate) (proj2 (hd_bytes (x :: d)) X)).
    assert (256 ^ N.of_nat (length (map b2n (x :: d)) - 1) <> 0) by (apply N.pow_nonzero; lia). rewrite <- E in G. change (horner 58 []) with 0 in G. lia.
  - exists (b58_char y), (map b58_char ds). split; [reflexivity|]. intros C.
    assert (B : repeat char_one 0 ++ map b58_char (y :: ds) = repeat char_one 1 ++ map b58_char ds) by (cbn [repeat app map]; rewrite C; reflexivity).
    destruct (hd_digit_cases (y :: ds) F N) as [Q|(c & t & Q & W)]; [discriminate Q|]. cbn [map] in Q. apply W. congruence.
Qed.

Lemma xkey_dec (a b : xkey) : a = b \/ a <> b.
Proof.
  assert (D : {a = b} + {a <> b}); [|destruct D; auto]. decide equality; try apply N.eq_dec; try (apply list_eq_dec; apply Byte.byte_eq_dec). decide equality.
Qed.

Section Forms.
Variable H : bytes -> bytes.
Variable e58 : bytes.
Hypothesis H32 : forall m, length (H m) = 32%nat.

Lemma check_begins h t m k qs : hd x00 h <> x00 -> (length t + 4 = m)%nat -> heads_ok h m k qs = true -> begins (map fst qs) k (check_encode H e58 (h ++ t)).
Proof.
  intros Z L G. assert (T : b58_text (check_encode H e58 (h ++ t)) (append_checksum H (h ++ t))).
  { apply encode_text. right. destruct h; [exfalso; apply Z; reflexivity|]. apply nonzero_hd, Z. }
  unfold append_checksum in T. rewrite <- app_assoc in T. eapply text_begins; [exact T|exact Z| |exact G]. rewrite app_length, checksum_length by exact H32. exact L.
Qed.

Lemma address_main_begins d : length d = 20%nat -> e58 = [] \/ nonzero (d ++ checksum H (x00 :: d)) ->
  exists k, (24 <= k <= 33)%nat /\ begins ["1"%string] k (address_encode H e58 NetMain d).
Proof.
  intros L G. unfold address_encode. change address_main with x00.
  assert (T : b58_text (check_encode H e58 (x00 :: d)) (append_checksum H (x00 :: d))).
  { apply encode_text. destruct G as [G|(x & A & B)]; [left; exact G|right; exists x; split; [right; exact A|exact B]]. }
  unfold append_checksum in T. cbn [app] in T. assert (Ld : length (d ++ checksum H (x00 :: d)) = 24%nat) by (rewrite app_length, checksum_length by exact H32; lia).
  apply text_zero in T; [|lia]. destruct T as (t & E & Lt). exists (length t). split; [lia|]. exists "1"%string, t. split; [left; reflexivity|]. auto.
Qed.
Lemma address_test_begins n d : length d = 20%nat -> n <> NetMain -> begins ["m"; "n"]%string 33 (address_encode H e58 n d).
Proof.
  intros L N. unfold address_encode. replace (match n with NetMain => address_main | _ => address_test end) with x6f by (destruct n; congruence || reflexivity).
  change (x6f :: d) with ([x6f] ++ d). apply (check_begins [x6f] d 24 33 [("m"%string, [44]); ("n"%string, [45])]); [discriminate|lia|vm_compute; reflexivity].
Qed.
Lemma address_read_begins s :
  (fst (address_decode H s) = NetMain -> exists t, s = text "1" ++ t) /\
  (fst (address_decode H s) = NetTest -> exists c t, s = c :: t /\ text "1" <> [c]).
Proof.
  destruct (address_decode H s) as [n d] eqn:E. cbn [fst]. split; intros ->; apply address_decode_exact in E; try discriminate; try exact H32; destruct E as (_ & p & L & T & _); unfold append_checksum in T; cbn [app] in T.
  - change (prefix_of NetMain) with x00 in T. apply text_zero in T; [destruct T as (t & T & _); exists t; exact T|]. rewrite app_length, checksum_length by exact H32. lia.
  - change (prefix_of NetTest) with x6f in T. apply text_not_one in T; [|discriminate]. destruct T as (c & t & T & C). exists c, t. split; [exact T|].
    intros X. apply C. change (text "1") with [char_one] in X. congruence.
Qed.

(* the texts of secrets *)
Lemma wif_text_begins t s : length (s_value s) = 32%nat -> b58_text t (append_checksum H (wif_payload s)) -> begins (wif_letters (s_net s) (s_compressed s)) (wif_rest (s_compressed s)) t.
Proof.
  intros L T. unfold append_checksum, wif_payload in T. assert (C := checksum_length H H32).
  set (ck := checksum H _) in T. assert (Lc : length ck = 4%nat) by apply C. clearbody ck. clear C. destruct s as [n v c]. cbn [s_net s_value s_compressed] in *.
  replace (wif_prefix n) with (match n with NetMain => x80 | _ => xef end) in T by (destruct n; reflexivity).
  change ((?a :: ?b) ++ ck) with ([a] ++ (b ++ ck)) in T. destruct c.
  - assert (Lt : length ((v ++ [wif_suffix]) ++ ck) = 37%nat) by (rewrite !app_length; cbn [length]; lia).
    destruct n; cbn [wif_letters wif_rest].
    + apply (text_begins t [xef] _ 37 51 [("c"%string, [35])] T); [discriminate|exact Lt|vm_compute; reflexivity].
    + apply (text_begins t [x80] _ 37 51 [("K"%string, [18]); ("L"%string, [19])] T); [discriminate|exact Lt|vm_compute; reflexivity].
    + apply (text_begins t [xef] _ 37 51 [("c"%string, [35])] T); [discriminate|exact Lt|vm_compute; reflexivity].
  - assert (Lt : length ((v ++ []) ++ ck) = 36%nat) by (rewrite !app_length; cbn [length]; lia).
    destruct n; cbn [wif_letters wif_rest].
    + apply (text_begins t [xef] _ 36 50 [("9"%string, [8])] T); [discriminate|exact Lt|vm_compute; reflexivity].
    + apply (text_begins t [x80] _ 36 50 [("5"%string, [4])] T); [discriminate|exact Lt|vm_compute; reflexivity].
    + apply (text_begins t [xef] _ 36 50 [("9"%string, [8])] T); [discriminate|exact Lt|vm_compute; reflexivity].
Qed.
Lemma wif_write_begins s : length (s_value s) = 32%nat -> secret_valid s = true -> begins (wif_letters (s_net s) (s_compressed s)) (wif_rest (s_compressed s)) (wif_encode H e58 s).
Proof.
  intros L V. apply wif_text_begins; [exact L|]. assert (N : s_net s <> NetInvalid) by (intros E; unfold secret_valid in V; rewrite E, Bool.andb_false_r in V; discriminate V).
  apply (wif_decode_exact H H32 _ s N). apply wif_roundtrip; assumption.
Qed.
Lemma wif_read_begins t : s_net (wif_decode H t) <> NetInvalid ->
  begins (wif_letters (s_net (wif_decode H t)) (s_compressed (wif_decode H t))) (wif_rest (s_compressed (wif_decode H t))) t.
Proof. intros N. destruct (proj1 (wif_decode_exact H H32 t _ N) eq_refl) as [L T]. apply wif_text_begins; assumption. Qed.

(* extended keys *)
Lemma x_rest_length sep x : length (x_chain x) = 32%nat -> (length sep + length (x_key x) = 33)%nat -> forall ck, length ck = 4%nat ->
  length (([n2b (x_depth x)] ++ be 4 (x_parent x) ++ be 4 (x_sequence x) ++ x_chain x ++ sep ++ x_key x) ++ ck) = 78%nat.
Proof. intros A B ck C. rewrite !app_length, !be_length. cbn [length]. lia. Qed.
Lemma xprv_text_begins s b x : xkey_wf 32 x -> b58_text s (append_checksum H (x_payload xprv_main xprv_test [b] x)) -> begins (xprv_letters (x_net x)) 107 s.
Proof.
  intros (A & B & _) T. unfold append_checksum in T. set (ck := checksum H _) in T. assert (Lc : length ck = 4%nat) by apply (checksum_length H H32). clearbody ck.
  assert (Lr := x_rest_length [b] x B ltac:(cbn [length]; lia) ck Lc). unfold x_payload in T. set (r := [n2b (x_depth x)] ++ _) in T, Lr. clearbody r.
  change ((x_version :: x_prefix xprv_main xprv_test x ++ r) ++ ck) with (((x04 :: x_prefix xprv_main xprv_test x) ++ r) ++ ck) in T. rewrite <- app_assoc in T.
  unfold x_prefix in T. destruct (x_net x); cbn [xprv_letters].
  - apply (text_begins s _ _ 78 107 [("tprv"%string, [51; 47; 49; 53])] T); [discriminate|exact Lr|vm_compute; reflexivity].
  - apply (text_begins s _ _ 78 107 [("xprv"%string, [55; 47; 49; 53])] T); [discriminate|exact Lr|vm_compute; reflexivity].
  - apply (text_begins s _ _ 78 107 [("tprv"%string, [51; 47; 49; 53])] T); [discriminate|exact Lr|vm_compute; reflexivity].
Qed.
Lemma xpub_text_begins s x : xkey_wf 33 x -> b58_text s (append_checksum H (x_payload xpub_main xpub_test [] x)) -> begins (xpub_letters (x_net x)) 107 s.
Proof.
  intros (A & B & _) T. unfold append_checksum in T. set (ck := checksum H _) in T. assert (Lc : length ck = 4%nat) by apply (checksum_length H H32). clearbody ck.
  assert (Lr := x_rest_length [] x B ltac:(cbn [length]; lia) ck Lc). unfold x_payload in T. set (r := [n2b (x_depth x)] ++ _) in T, Lr. clearbody r.
  change ((x_version :: x_prefix xpub_main xpub_test x ++ r) ++ ck) with (((x04 :: x_prefix xpub_main xpub_test x) ++ r) ++ ck) in T. rewrite <- app_assoc in T.
  unfold x_prefix in T. destruct (x_net x); cbn [xpub_letters].
  - apply (text_begins s _ _ 78 107 [("tpub"%string, [51; 47; 52; 34])] T); [discriminate|exact Lr|vm_compute; reflexivity].
  - apply (text_begins s _ _ 78 107 [("xpub"%string, [55; 47; 52; 34])] T); [discriminate|exact Lr|vm_compute; reflexivity].
  - apply (text_begins s _ _ 78 107 [("tpub"%string, [51; 47; 52; 34])] T); [discriminate|exact Lr|vm_compute; reflexivity].
Qed.
Lemma xprv_write_begins x : xkey_wf 32 x -> begins (xprv_letters (x_net x)) 107 (xsecret_write H e58 x).
Proof. intros W. apply (xprv_text_begins _ x00); [exact W|]. rewrite write_secret_payload. apply encode_text. right. apply x_nonzero. Qed.
Lemma xpub_write_begins x : xkey_wf 33 x -> begins (xpub_letters (x_net x)) 107 (xpubkey_write H e58 x).
Proof. intros W. apply xpub_text_begins; [exact W|]. rewrite write_pubkey_payload. apply encode_text. right. apply x_nonzero. Qed.
Lemma xprv_read_begins s : xsecret_read H s <> xsecret_none -> begins (xprv_letters (x_net (xsecret_read H s))) 107 s.
Proof.
  intros N. destruct (proj1 (xsecret_read_exact H H32 s _) eq_refl) as [(b & W & T)|(E & _)]; [apply (xprv_text_begins s b); assumption|].
  exfalso. apply N. exact E.
Qed.
Lemma xpub_read_begins s : xpubkey_read H s <> xpubkey_none -> begins (xpub_letters (x_net (xpubkey_read H s))) 107 s.
Proof.
  intros N. destruct (proj1 (xpubkey_read_exact H H32 s _) eq_refl) as [(W & T)|(E & _)]; [apply xpub_text_begins; assumption|].
  exfalso. apply N. exact E.
Qed.

(* a text is of at most one form *)
Lemma begins_length ps k s : begins ps k s -> exists p, In p ps /\ length s = (length (text p) + k)%nat.
Proof. intros (p & t & I & -> & L). exists p. split; [exact I|]. rewrite app_length, L. reflexivity. Qed.
Lemma address_short_text s : fst (address_decode H s) <> NetInvalid -> (length s <= 35)%nat.
Proof. destruct (address_decode H s) as [n d] eqn:E. cbn [fst]. intros N. apply address_decode_exact in E; [lia|exact H32|exact N]. Qed.
Lemma wif_length s : s_net (wif_decode H s) <> NetInvalid -> (length s = 51 \/ length s = 52)%nat.
Proof.
  intros N. destruct (begins_length _ _ _ (wif_read_begins s N)) as (p & I & L). rewrite L.
  destruct (s_net (wif_decode H s)), (s_compressed (wif_decode H s)); cbn [wif_letters In] in I; repeat (destruct I as [<-|I]); try contradiction; cbv; auto.
Qed.
Lemma xprv_length s : xsecret_read H s <> xsecret_none -> length s = 111%nat.
Proof.
  intros N. destruct (begins_length _ _ _ (xprv_read_begins s N)) as (p & I & L). rewrite L.
  destruct (x_net (xsecret_read H s)); cbn [xprv_letters In] in I; destruct I as [<-|[]]; reflexivity.
Qed.
Lemma xpub_length s : xpubkey_read H s <> xpubkey_none -> length s = 111%nat.
Proof.
  intros N. destruct (begins_length _ _ _ (xpub_read_begins s N)) as (p & I & L). rewrite L.
  destruct (x_net (xpubkey_read H s)); cbn [xpub_letters In] in I; destruct I as [<-|[]]; reflexivity.
Qed.
Lemma xprv_xpub s : xsecret_read H s <> xsecret_none -> xpubkey_read H s <> xpubkey_none -> False.
Proof.
  intros A B. apply xprv_read_begins in A. apply xpub_read_begins in B.
  destruct A as (p & t & I & E & _), B as (q & u & J & F & _). rewrite E in F.
  destruct (x_net (xsecret_read H s)), (x_net (xpubkey_read H s)); cbn [xprv_letters xpub_letters In] in I, J; destruct I as [<-|[]], J as [<-|[]]; cbn [text String.list_byte_of_string app] in F; discriminate F.
Qed.
Lemma one_form s :
  (fst (address_decode H s) <> NetInvalid -> s_net (wif_decode H s) = NetInvalid /\ xsecret_read H s = xsecret_none /\ xpubkey_read H s = xpubkey_none) /\
  (s_net (wif_decode H s) <> NetInvalid -> xsecret_read H s = xsecret_none /\ xpubkey_read H s = xpubkey_none) /\
  (xsecret_read H s <> xsecret_none -> xpubkey_read H s = xpubkey_none).
Proof.
  assert (A := address_short_text s). assert (W := wif_length s). assert (P := xprv_length s). assert (Q := xpub_length s). assert (R := xprv_xpub s).
  assert (Dw : s_net (wif_decode H s) = NetInvalid \/ s_net (wif_decode H s) <> NetInvalid) by (destruct (s_net (wif_decode H s)); auto; right; discriminate).
  assert (Dp : xsecret_read H s = xsecret_none \/ xsecret_read H s <> xsecret_none) by apply xkey_dec.
  assert (Dq : xpubkey_read H s = xpubkey_none \/ xpubkey_read H s <> xpubkey_none) by apply xkey_dec.
  split; [|split].
  - intros X. specialize (A X). split; [destruct Dw as [D|D]; [exact D|specialize (W D); lia]|]. split; [destruct Dp as [D|D]; [exact D|specialize (P D); lia]|destruct Dq as [D|D]; [exact D|specialize (Q D); lia]].
  - intros X. specialize (W X). split; [destruct Dp as [D|D]; [exact D|specialize (P D); lia]|destruct Dq as [D|D]; [exact D|specialize (Q D); lia]].
  - intros X. destruct Dq as [D|D]; [exact D|exfalso; exact (R X D)].
Qed.
End Forms.
