(* Positional notation and Base58Check. *)
From Verif Require Import Base BaseProofs WireModel MerkleModel TextModel TextSpec.
From Coq Require Import ZifyBool ZifyNat ZifyN.
Ltac Zify.zify_post_hook ::= Z.div_mod_to_equations.
Local Open Scope N_scope.

(* ---- digits, least first ---- *)
Fixpoint num (base : N) (ds : list N) : N := match ds with [] => 0 | d :: r => d + base * num base r end.
Definition canon (ds : list N) : Prop := last ds 1 <> 0.

Lemma canon_tail d r : canon (d :: r) -> r <> [] -> canon r.
Proof. unfold canon. destruct r; [congruence|]. intros X _. exact X. Qed.
Lemma num_zero base ds : base <> 0 -> canon ds -> num base ds = 0 -> ds = [].
Proof.
  intros B. induction ds as [|d r IH]; intros C E; [reflexivity|]. exfalso. cbn [num] in E.
  assert (d = 0) as -> by lia. assert (Z : base * num base r = 0) by lia. apply N.eq_mul_0 in Z. destruct Z as [Z|Z]; [lia|].
  destruct r as [|x r]; [apply C; reflexivity|]. specialize (IH (canon_tail _ _ C ltac:(discriminate)) Z). discriminate IH.
Qed.
Lemma num_inj base : 2 <= base -> forall xs ys, Forall (fun d => d < base) xs -> Forall (fun d => d < base) ys -> canon xs -> canon ys ->
  num base xs = num base ys -> xs = ys.
Proof.
  intros B. induction xs as [|x xs IH]; intros ys Fx Fy Cx Cy E.
  - symmetry. apply (num_zero base); [lia|exact Cy|]. symmetry. exact E.
  - destruct ys as [|y ys]; [apply (num_zero base) in E; [exact E|lia|exact Cx]|].
    cbn [num] in E. inversion Fx as [|? ? Hx Fx']; subst. inversion Fy as [|? ? Hy Fy']; subst.
    assert (D : x = y /\ num base xs = num base ys).
    { rewrite (N.mul_comm base), (N.mul_comm base (num base ys)) in E.
      assert (X1 : (x + num base xs * base) mod base = x) by (rewrite N.mod_add by lia; apply N.mod_small; exact Hx).
      assert (Y1 : (y + num base ys * base) mod base = y) by (rewrite N.mod_add by lia; apply N.mod_small; exact Hy).
      assert (X2 : (x + num base xs * base) / base = num base xs) by (rewrite N.div_add, (N.div_small x) by lia; reflexivity).
      assert (Y2 : (y + num base ys * base) / base = num base ys) by (rewrite N.div_add, (N.div_small y) by lia; reflexivity).
      split; [rewrite <- X1, <- Y1, E|rewrite <- X2, <- Y2, E]; reflexivity. }
    destruct D as [-> D]. f_equal. destruct xs as [|x2 xs].
    + symmetry. destruct ys as [|y2 ys]; [reflexivity|]. symmetry in D. apply (num_zero base) in D; [discriminate D|lia|]. apply (canon_tail y); [exact Cy|discriminate].
    + destruct ys as [|y2 ys].
      * apply (num_zero base) in D; [discriminate D|lia|]. apply (canon_tail y); [exact Cx|discriminate].
      * apply IH; auto; apply (canon_tail y); assumption || discriminate.
Qed.

Lemma digits_loop_ok base : 2 <= base -> forall fuel n, n < 2 ^ N.of_nat fuel ->
  let ds := digits_loop fuel base n in num base ds = n /\ Forall (fun d => d < base) ds /\ canon ds.
Proof.
  intros B. induction fuel as [|f IH]; intros n L; cbn [digits_loop].
  - change (2 ^ N.of_nat 0) with 1 in L. assert (n = 0) as -> by lia. split; [reflexivity|]. split; [constructor|]. unfold canon. discriminate.
  - destruct (N.eqb_spec n 0) as [->|Z]; [split; [reflexivity|split; [constructor|unfold canon; discriminate]]|].
    assert (L' : n / base < 2 ^ N.of_nat f).
    { apply N.le_lt_trans with (n / 2); [apply N.div_le_compat_l; lia|]. apply N.div_lt_upper_bound; [lia|].
      replace (N.of_nat (S f)) with (N.succ (N.of_nat f)) in L by lia. rewrite N.pow_succ_r' in L. exact L. }
    destruct (IH _ L') as (A & F & C). cbn [num]. rewrite A. split; [|split].
    + rewrite N.add_comm. symmetry. apply N.div_mod. lia.
    + constructor; [apply N.mod_lt; lia|exact F].
    + unfold canon in *. destruct (digits_loop f base (n / base)) as [|x r] eqn:E; [|exact C].
      cbn [last]. cbn [num] in A. intros M. apply Z. rewrite (N.div_mod n base) by lia. rewrite <- A, M. lia.
Qed.
Lemma digits_ok base n : 2 <= base -> num base (digits base n) = n /\ Forall (fun d => d < base) (digits base n) /\ canon (digits base n).
Proof.
  intros B. apply digits_loop_ok; [exact B|]. rewrite N2Nat.id. apply N.size_gt.
Qed.
Lemma digits_num base ds : 2 <= base -> Forall (fun d => d < base) ds -> canon ds -> digits base (num base ds) = ds.
Proof. intros B F C. destruct (digits_ok base (num base ds) B) as (X & Y & Z). apply (num_inj base); auto. Qed.

(* ---- horner ---- *)
Lemma num_app base xs ys : num base (xs ++ ys) = num base xs + base ^ N.of_nat (length xs) * num base ys.
Proof.
  induction xs as [|x xs IH]; cbn [app num length]; [change (N.of_nat 0) with 0; rewrite N.pow_0_r; lia|].
  rewrite IH. replace (N.of_nat (S (length xs))) with (N.succ (N.of_nat (length xs))) by lia. rewrite N.pow_succ_r'. ring.
Qed.
Lemma horner_from_rev base ds : forall acc, horner_from acc base ds = num base (rev ds) + acc * base ^ N.of_nat (length ds).
Proof.
  induction ds as [|d r IH]; intros acc; cbn [horner_from rev length num]; [change (N.of_nat 0) with 0; rewrite N.pow_0_r; lia|].
  rewrite IH, num_app, rev_length. cbn [num]. replace (N.of_nat (S (length r))) with (N.succ (N.of_nat (length r))) by lia. rewrite N.pow_succ_r'. ring.
Qed.
Lemma horner_rev base ds : horner base ds = num base (rev ds).
Proof. unfold horner. rewrite horner_from_rev. lia. Qed.
Lemma hd_last {A} (l : list A) d : last (rev l) d = hd d l.
Proof. destruct l as [|x r]; [reflexivity|]. cbn [rev hd]. apply last_last. Qed.
Lemma canon_rev ds : canon (rev ds) <-> hd 1 ds <> 0.
Proof. unfold canon. rewrite hd_last. reflexivity. Qed.
Lemma horner_inj base xs ys : 2 <= base -> Forall (fun d => d < base) xs -> Forall (fun d => d < base) ys -> hd 1 xs <> 0 -> hd 1 ys <> 0 ->
  horner base xs = horner base ys -> xs = ys.
Proof.
  intros B Fx Fy Cx Cy E. rewrite !horner_rev in E. apply (num_inj base) in E; auto; try (apply Forall_rev; assumption); try (apply canon_rev; assumption).
  apply (f_equal (@rev N)) in E. rewrite !rev_involutive in E. exact E.
Qed.
Lemma be_val_horner x : be_val x = horner 256 (map b2n x).
Proof.
  rewrite horner_rev, <- map_rev. unfold be_val. induction (rev x) as [|b r IH]; [reflexivity|]. cbn [le_val map num]. rewrite IH. lia.
Qed.

(* ---- characters ---- *)
Lemma index_of_some c l : forall k, index_of c l = Some k -> (k < length l)%nat /\ nth k l x00 = c.
Proof.
  induction l as [|x r IH]; intros k; cbn [index_of]; [discriminate|]. destruct (byte_eqb c x) eqn:E.
  - intros X. assert (k = 0%nat) as -> by congruence. apply byte_eqb_eq in E. subst. cbn. split; [lia|reflexivity].
  - destruct (index_of c r) as [j|]; [|discriminate]. intros X. assert (k = S j) as -> by congruence. destruct (IH j eq_refl) as [A B]. cbn. split; [lia|exact B].
Qed.
Lemma index_of_none c l : index_of c l = None <-> ~ In c l.
Proof.
  induction l as [|x r IH]; cbn [index_of In]; [tauto|]. destruct (byte_eqb c x) eqn:E.
  - apply byte_eqb_eq in E. subst. split; [discriminate|]. intros N. exfalso. apply N. left. reflexivity.
  - assert (x <> c) by (intros ->; rewrite byte_eqb_refl in E; discriminate). destruct (index_of c r); [split; [discriminate|]|]; [intros N; exfalso|].
    + destruct IH as [_ IH]. assert (X : ~ In c r) by tauto. discriminate (IH X).
    + destruct IH as [IH _]. specialize (IH eq_refl). split; [intros _ [X|X]; contradiction|reflexivity].
Qed.
Lemma b58_digit_char d : d < 58 -> b58_digit (b58_char d) = Some d.
Proof.
  intros L. assert (X : forallb (fun k => match b58_digit (b58_char (N.of_nat k)) with Some e => e =? N.of_nat k | None => false end) (seq 0 58) = true) by (vm_compute; reflexivity).
  rewrite forallb_forall in X. specialize (X (N.to_nat d)). rewrite N2Nat.id in X. destruct (b58_digit (b58_char d)).
  - assert (Y : (n =? d) = true) by (apply X, List.in_seq; lia). apply N.eqb_eq in Y. subst. reflexivity.
  - assert (Y : false = true) by (apply X, List.in_seq; lia). discriminate Y.
Qed.
Lemma b58_char_digit c d : b58_digit c = Some d -> d < 58 /\ b58_char d = c.
Proof.
  unfold b58_digit, b58_char. destruct (index_of c b58_chars) as [k|] eqn:E; [|discriminate]. intros X. assert (d = N.of_nat k) as -> by congruence.
  apply index_of_some in E. rewrite Nat2N.id. change (length b58_chars) with 58%nat in E. split; [lia|apply E].
Qed.
Lemma b58_digit_in c : In c b58_chars <-> exists d, b58_digit c = Some d.
Proof.
  unfold b58_digit. destruct (index_of c b58_chars) as [k|] eqn:E.
  - split; [eauto|]. intros _. apply index_of_some in E. destruct E as [L <-]. apply nth_In. exact L.
  - apply index_of_none in E. split; [contradiction|]. intros [d X]. discriminate X.
Qed.
Lemma char_inj a b : a < 58 -> b < 58 -> b58_char a = b58_char b -> a = b.
Proof. intros A B E. apply (f_equal b58_digit) in E. rewrite !b58_digit_char in E by assumption. congruence. Qed.
Lemma map_char_inj xs : forall ys, Forall (fun d => d < 58) xs -> Forall (fun d => d < 58) ys -> map b58_char xs = map b58_char ys -> xs = ys.
Proof.
  induction xs as [|x xs IH]; intros [|y ys] Fx Fy E; try discriminate E; [reflexivity|]. cbn [map] in E.
  inversion Fx; subst. inversion Fy; subst. assert (X : b58_char x = b58_char y) by congruence. assert (Y : map b58_char xs = map b58_char ys) by congruence.
  f_equal; [apply char_inj; assumption|apply IH; assumption].
Qed.
Lemma b58_value_map ds : Forall (fun d => d < 58) ds -> forall acc, b58_value acc (map b58_char ds) = Some (horner_from acc 58 ds).
Proof. induction 1 as [|d r D F IH]; intros acc; [reflexivity|]. cbn [map b58_value horner_from]. rewrite b58_digit_char by exact D. apply IH. Qed.
Lemma b58_value_some s : forall acc n, b58_value acc s = Some n -> exists ds, s = map b58_char ds /\ Forall (fun d => d < 58) ds /\ n = horner_from acc 58 ds.
Proof.
  induction s as [|c r IH]; intros acc n; cbn [b58_value].
  - intros E. exists []. split; [reflexivity|]. split; [constructor|]. cbn. congruence.
  - destruct (b58_digit c) as [d|] eqn:D; [|discriminate]. intros E. destruct (IH _ _ E) as (ds & -> & F & ->). destruct (b58_char_digit _ _ D) as [L <-].
    exists (d :: ds). split; [reflexivity|]. split; [constructor; assumption|reflexivity].
Qed.
Lemma char_one_zero : b58_char 0 = char_one.
Proof. reflexivity. Qed.
Lemma char_one_iff d : d < 58 -> b58_char d = char_one <-> d = 0.
Proof. intros L. rewrite <- char_one_zero. split; [apply char_inj; [exact L|reflexivity]|intros ->; reflexivity]. Qed.

(* ---- bytes ---- *)
Lemma b2n_map_lt x : Forall (fun d => d < 256) (map b2n x).
Proof. apply Forall_map, Forall_forall. intros b _. apply b2n_lt. Qed.
Lemma b2n_zero b : b2n b = 0 <-> b = x00.
Proof. split; [|intros ->; reflexivity]. intros E. apply b2n_inj. exact E. Qed.
Lemma hd_bytes x : hd 1 (map b2n x) <> 0 <-> hd x01 x <> x00.
Proof. destruct x as [|b r]; cbn [hd map]; [split; discriminate|]. rewrite b2n_zero. reflexivity. Qed.
Lemma map_n2b_b2n x : map n2b (map b2n x) = x.
Proof. rewrite map_map. rewrite <- (map_id x) at 2. apply map_ext. intros b. apply b2n_inj. rewrite b2n_n2b. apply N.mod_small, b2n_lt. Qed.
Lemma map_b2n_n2b ds : Forall (fun d => d < 256) ds -> map b2n (map n2b ds) = ds.
Proof. induction 1 as [|d r D F IH]; [reflexivity|]. cbn [map]. rewrite IH, b2n_n2b, N.mod_small by exact D. reflexivity. Qed.

(* ---- write and read ---- *)
Lemma write_digits n : exists ds, rev (map b58_char (digits 58 n)) = map b58_char ds /\ Forall (fun d => d < 58) ds /\ hd 1 ds <> 0 /\ horner 58 ds = n.
Proof.
  destruct (digits_ok 58 n) as (A & B & C); [lia|]. exists (rev (digits 58 n)). split; [symmetry; apply map_rev|]. split; [apply Forall_rev; exact B|].
  split; [rewrite <- hd_last, rev_involutive; exact C|]. rewrite horner_rev, rev_involutive. exact A.
Qed.
Lemma read_bytes n : exists x, rev (map n2b (digits 256 n)) = x /\ hd x01 x <> x00 /\ horner 256 (map b2n x) = n.
Proof.
  destruct (digits_ok 256 n) as (A & B & C); [lia|]. eexists. split; [reflexivity|].
  assert (E : map b2n (rev (map n2b (digits 256 n))) = rev (digits 256 n)) by (rewrite map_rev, map_b2n_n2b by exact B; reflexivity).
  split; [apply hd_bytes; rewrite E, <- hd_last, rev_involutive; exact C|]. rewrite E, horner_rev, rev_involutive. exact A.
Qed.

Lemma leading_split c l : exists r, l = repeat c (leading c l) ++ r /\ (r = [] \/ exists x t, r = x :: t /\ x <> c) /\ skipn (leading c l) l = r.
Proof.
  induction l as [|x l IH]; [exists []; repeat split; left; reflexivity|]. cbn [leading]. destruct (byte_eqb x c) eqn:E.
  - apply byte_eqb_eq in E. subst. destruct IH as (r & A & B & C). exists r. cbn [repeat app skipn]. rewrite <- A. auto.
  - exists (x :: l). split; [reflexivity|]. split; [right; exists x, l; split; [reflexivity|]; intros ->; rewrite byte_eqb_refl in E; discriminate|reflexivity].
Qed.
Lemma leading_repeat c z r : (r = [] \/ exists x t, r = x :: t /\ x <> c) -> leading c (repeat c z ++ r) = z.
Proof.
  intros R. induction z as [|z IH]; cbn [repeat app leading]; [|rewrite byte_eqb_refl, IH; reflexivity].
  destruct R as [->|(x & t & -> & N)]; [reflexivity|]. cbn [leading]. destruct (byte_eqb x c) eqn:E; [apply byte_eqb_eq in E; contradiction|reflexivity].
Qed.
Lemma skipn_repeat {A} (c : A) z r : skipn z (repeat c z ++ r) = r.
Proof. induction z as [|z IH]; [reflexivity|exact IH]. Qed.
Lemma hd_cases x : hd x01 x <> x00 -> x = [] \/ exists b t, x = b :: t /\ b <> x00.
Proof. destruct x as [|b t]; [auto|]. intros N. right. exists b, t. auto. Qed.
Lemma hd_digit_cases ds : Forall (fun d => d < 58) ds -> hd 1 ds <> 0 -> map b58_char ds = [] \/ exists x t, map b58_char ds = x :: t /\ x <> char_one.
Proof.
  intros F N. destruct ds as [|d r]; [left; reflexivity|]. right. exists (b58_char d), (map b58_char r). split; [reflexivity|].
  inversion F; subst. intros X. apply char_one_iff in X; auto.
Qed.

(* ---- the notation is a bijection ---- *)
Lemma b58_text_fun s d1 d2 : b58_text s d1 -> b58_text s d2 -> d1 = d2.
Proof.
  intros (z & ds & r & S1 & D1 & F1 & N1 & M1 & E1) (z' & ds' & r' & S2 & D2 & F2 & N2 & M2 & E2).
  assert (Z : z = z') by (rewrite <- (leading_repeat char_one z (map b58_char ds)) by (apply hd_digit_cases; assumption); rewrite <- S1, S2; apply leading_repeat, hd_digit_cases; assumption).
  subst z'. rewrite S1 in S2. apply app_inv_head in S2. apply map_char_inj in S2; auto. subst ds'. subst. f_equal.
  rewrite E1 in E2. apply (horner_inj 256) in E2; try apply b2n_map_lt; try (apply hd_bytes; assumption); [|lia].
  apply (f_equal (map n2b)) in E2. rewrite !map_n2b_b2n in E2. exact E2.
Qed.
Lemma b58_text_inj s1 s2 d : b58_text s1 d -> b58_text s2 d -> s1 = s2.
Proof.
  intros (z & ds & r & S1 & D1 & F1 & N1 & M1 & E1) (z' & ds' & r' & S2 & D2 & F2 & N2 & M2 & E2).
  assert (Z : z = z') by (rewrite <- (leading_repeat x00 z r) by (apply hd_cases; assumption); rewrite <- D1, D2; apply leading_repeat, hd_cases; assumption).
  subst z'. rewrite D1 in D2. apply app_inv_head in D2. subst r'. subst. f_equal. f_equal. rewrite <- E2 in E1. apply (horner_inj 58) in E1; auto. lia.
Qed.
Lemma b58_text_total d : exists s, b58_text s d.
Proof.
  destruct (leading_split x00 d) as (r & A & B & C). destruct (write_digits (horner 256 (map b2n r))) as (ds & _ & F & N & E).
  exists (repeat char_one (leading x00 d) ++ map b58_char ds), (leading x00 d), ds, r. split; [reflexivity|]. split; [exact A|]. split; [exact F|]. split; [exact N|].
  split; [|exact E]. destruct B as [->|(x & t & -> & X)]; [discriminate|exact X].
Qed.
Lemma b58_text_chars s : (exists d, b58_text s d) <-> Forall (fun c => In c b58_chars) s.
Proof.
  split.
  - intros (d & z & ds & r & -> & _ & F & _). apply Forall_app. split.
    + apply Forall_forall. intros c I. apply repeat_spec in I. subst. left. reflexivity.
    + apply Forall_map. apply Forall_impl with (2 := F). intros x L. apply b58_digit_in. exists x. apply b58_digit_char. exact L.
  - intros F. destruct (leading_split char_one s) as (r & A & B & _).
    assert (Fr : Forall (fun c => In c b58_chars) r) by (rewrite A in F; apply Forall_app in F; apply F).
    assert (X : exists ds, r = map b58_char ds /\ Forall (fun d => d < 58) ds).
    { clear - Fr. induction Fr as [|c r C F (ds & -> & D)]; [exists []; auto|]. apply b58_digit_in in C. destruct C as [d C]. apply b58_char_digit in C. destruct C as [L <-].
      exists (d :: ds). auto. }
    destruct X as (ds & -> & D). destruct (read_bytes (horner 58 ds)) as (x & _ & N & E).
    exists (repeat x00 (leading char_one s) ++ x), (leading char_one s), ds, x. split; [exact A|]. split; [reflexivity|]. split; [exact D|]. split; [|split; [exact N|symmetry; exact E]].
    destruct ds as [|d ds]; [discriminate|]. cbn [hd]. intros ->. destruct B as [B|(y & t & B & Y)]; [discriminate B|]. cbn [map] in B. apply Y. rewrite char_one_zero in B. congruence.
Qed.

Section Check.
Variable H : bytes -> bytes.
Variable e58 : bytes.
Hypothesis H32 : forall m, length (H m) = 32%nat.

Lemma checksum_length b : length (checksum H b) = 4%nat.
Proof. unfold checksum. rewrite firstn_length, H32. reflexivity. Qed.

Lemma remove_exact b v : v <> [] -> remove_checksum H b = v <-> b = append_checksum H v.
Proof.
  intros N. unfold remove_checksum, append_checksum. split.
  - destruct (Nat.ltb_spec (length b) 4) as [L|L]; [congruence|]. cbv zeta. destruct (bytes_eqb _ _) eqn:E; [|congruence].
    intros <-. apply bytes_eqb_eq in E. rewrite <- E. symmetry. apply firstn_skipn.
  - intros ->. rewrite app_length, checksum_length. destruct (Nat.ltb_spec (length v + 4) 4) as [L|L]; [destruct v; [congruence|cbn in L; lia]|]. cbv zeta.
    replace (length v + 4 - 4)%nat with (length v) by lia. rewrite firstn_app, Nat.sub_diag, firstn_all, skipn_app, Nat.sub_diag, skipn_all, app_nil_r. cbn [skipn app].
    assert (X : bytes_eqb (checksum H v) (checksum H v) = true) by (apply bytes_eqb_eq; reflexivity). rewrite X. reflexivity.
Qed.

(* what decode reads *)
Lemma decode_text s d : b58_text s d -> check_decode H s = remove_checksum H d.
Proof.
  intros (z & ds & r & -> & -> & F & N & M & E). unfold check_decode.
  assert (Z : leading char_one (repeat char_one z ++ map b58_char ds) = z) by (apply leading_repeat, hd_digit_cases; assumption).
  rewrite Z, skipn_repeat, app_length, repeat_length, map_length.
  destruct (Nat.eqb_spec z (z + length ds)) as [X|X].
  - assert (ds = []) as -> by (destruct ds; [reflexivity|cbn in X; lia]).
    assert (r = []) as ->; [|reflexivity]. assert (Q : map b2n r = []); [|destruct r; [reflexivity|discriminate Q]].
    apply (horner_inj 256); try apply b2n_map_lt; [lia|constructor|apply hd_bytes; exact M|discriminate|]. symmetry. exact E.
  - unfold b58_read. rewrite b58_value_map by exact F. destruct (read_bytes (horner_from 0 58 ds)) as (x & -> & Nx & Ex).
    assert (x = r) as ->; [|reflexivity]. change (horner_from 0 58 ds) with (horner 58 ds) in Ex. rewrite E in Ex.
    apply (horner_inj 256) in Ex; try apply b2n_map_lt; try (apply hd_bytes; assumption); [|lia]. apply (f_equal (map n2b)) in Ex. rewrite !map_n2b_b2n in Ex. exact Ex.
Qed.
Lemma decode_bad s : ~ Forall (fun c => In c b58_chars) s -> check_decode H s = [].
Proof.
  intros N. unfold check_decode. destruct (leading_split char_one s) as (r & A & B & C). rewrite C.
  destruct (Nat.eqb_spec (leading char_one s) (length s)) as [X|X].
  - exfalso. apply N. rewrite A. assert (r = []) as ->. { apply (f_equal (@length byte)) in A. rewrite app_length, repeat_length in A. destruct r; [reflexivity|cbn in A; lia]. }
    rewrite app_nil_r. apply Forall_forall. intros c I. apply repeat_spec in I. subst. left. reflexivity.
  - unfold b58_read. destruct (b58_value 0 r) as [n|] eqn:V; [|reflexivity]. exfalso. apply N. apply b58_value_some in V. destruct V as (ds & -> & F & _).
    apply b58_text_chars. rewrite A. destruct (read_bytes (horner 58 ds)) as (x & _ & Nx & Ex).
    exists (repeat x00 (leading char_one s) ++ x), (leading char_one s), ds, x. split; [reflexivity|]. split; [reflexivity|]. split; [exact F|]. split; [|split; [exact Nx|symmetry; exact Ex]].
    destruct ds as [|d ds]; [discriminate|]. cbn [hd]. intros ->. destruct B as [B|(y & t & B & Y)]; [discriminate B|]. cbn [map] in B. apply Y. rewrite char_one_zero in B. congruence.
Qed.
Lemma chars_dec s : Forall (fun c => In c b58_chars) s \/ ~ Forall (fun c => In c b58_chars) s.
Proof. destruct (Forall_dec (fun c => In c b58_chars) (fun c => in_dec Byte.byte_eq_dec c b58_chars) s); auto. Qed.
Lemma decode_exact s v : v <> [] -> check_decode H s = v <-> b58_text s (append_checksum H v).
Proof.
  intros N. split.
  - intros E. destruct (chars_dec s) as [F|F]; [|rewrite decode_bad in E by exact F; congruence].
    apply b58_text_chars in F. destruct F as [d T]. rewrite (decode_text _ _ T) in E. apply remove_exact in E; [|exact N]. subst d. exact T.
  - intros T. rewrite (decode_text _ _ T). apply remove_exact; [exact N|reflexivity].
Qed.

Lemma encode_text v : e58 = [] \/ nonzero (append_checksum H v) -> b58_text (check_encode H e58 v) (append_checksum H v).
Proof.
  intros G. unfold check_encode. set (d := append_checksum H v) in *. destruct (leading_split x00 d) as (r & A & B & C). rewrite C.
  exists (leading x00 d). destruct B as [->|(x & t & -> & X)].
  - exists [], []. rewrite app_nil_r in A. destruct G as [->|(y & I & Y)].
    + split; [reflexivity|]. rewrite app_nil_r. split; [exact A|]. split; [constructor|]. split; [discriminate|]. split; [discriminate|reflexivity].
    + exfalso. rewrite A in I. apply repeat_spec in I. contradiction.
  - cbn [b58_write]. rewrite be_val_horner. destruct (write_digits (horner 256 (map b2n (x :: t)))) as (ds & E & F & N & V). exists ds, (x :: t).
    rewrite E. split; [reflexivity|]. split; [exact A|]. split; [exact F|]. split; [exact N|]. split; [exact X|exact V].
Qed.
Lemma encode_exact s v : e58 = [] \/ nonzero (append_checksum H v) -> check_encode H e58 v = s <-> b58_text s (append_checksum H v).
Proof. intros G. split; [intros <-; apply encode_text, G|]. intros T. exact (b58_text_inj _ _ _ (encode_text v G) T). Qed.
Lemma check_roundtrip v : v <> [] -> e58 = [] \/ nonzero (append_checksum H v) -> check_decode H (check_encode H e58 v) = v.
Proof. intros N G. apply decode_exact; [exact N|]. apply encode_text, G. Qed.
Lemma check_canonical s v : v <> [] -> e58 = [] \/ nonzero (append_checksum H v) -> check_decode H s = v -> s = check_encode H e58 v.
Proof. intros N G E. symmetry. apply encode_exact; [exact G|]. apply decode_exact; assumption. Qed.
Lemma append_inj v w : append_checksum H v = append_checksum H w -> v = w.
Proof. unfold append_checksum. intros E. apply app_inj_len_r in E; [apply E|rewrite !checksum_length; reflexivity]. Qed.
Lemma check_encode_inj v w : e58 = [] \/ (nonzero (append_checksum H v) /\ nonzero (append_checksum H w)) -> check_encode H e58 v = check_encode H e58 w -> v = w.
Proof.
  intros G E. apply append_inj. apply (b58_text_fun (check_encode H e58 v)); [apply encode_text; tauto|]. rewrite E. apply encode_text. tauto.
Qed.
(* when every byte is zero, the result depends on what the library writes for an empty sequence *)
Lemma encode_zeros v n : append_checksum H v = repeat x00 n -> check_encode H e58 v = repeat char_one n ++ e58.
Proof.
  intros E. unfold check_encode. rewrite E. rewrite <- (app_nil_r (repeat x00 n)). rewrite leading_repeat by (left; reflexivity). rewrite skipn_repeat. reflexivity.
Qed.

(* recover *)
Lemma first_valid_exact l r : r <> [] -> first_valid H l = r -> exists s, In s l /\ check_decode H s = r.
Proof.
  intros N. induction l as [|s l IH]; cbn [first_valid]; [congruence|]. cbv zeta. destruct (check_decode H s) as [|b t] eqn:E; cbn [check_valid].
  - intros X. destruct (IH X) as (s' & I & D). exists s'. split; [right; exact I|exact D].
  - intros <-. exists s. split; [left; reflexivity|exact E].
Qed.
Lemma first_valid_none l : first_valid H l = [] <-> forall s, In s l -> check_decode H s = [].
Proof.
  induction l as [|s l IH]; cbn [first_valid In]; [tauto|]. cbv zeta. destruct (check_decode H s) as [|b t] eqn:E; cbn [check_valid].
  - rewrite IH. split; [intros X s' [<-|I]; auto|auto].
  - split; [discriminate|]. intros X. specialize (X s (or_introl eq_refl)). congruence.
Qed.

Lemma replace_tries_in pre post cs : forall cur s, In s (replace_tries pre post cur cs) -> exists c, In c cs /\ s = pre ++ c :: post.
Proof.
  induction cs as [|c r IH]; intros cur s; cbn [replace_tries]; [intros []|]. destruct (byte_eqb cur c).
  - intros I. destruct (IH _ _ I) as (x & X & ->). exists x. split; [right; exact X|reflexivity].
  - intros [<-|I]; [exists c; split; [left; reflexivity|reflexivity]|]. destruct (IH _ _ I) as (x & X & ->). exists x. split; [right; exact X|reflexivity].
Qed.
Lemma replace_tries_all pre post cs : forall cur c, In c cs -> c <> cur -> NoDup cs -> In (pre ++ c :: post) (replace_tries pre post cur cs).
Proof.
  induction cs as [|d r IH]; intros cur c I N D; [destruct I|]. cbn [replace_tries]. inversion D as [|? ? D1 D2]; subst. destruct (byte_eqb cur d) eqn:E.
  - apply byte_eqb_eq in E. subst. destruct I as [->|I]; [congruence|]. apply IH; assumption.
  - destruct I as [->|I]; [left; reflexivity|right]. apply IH; [exact I| |exact D2]. intros ->. contradiction.
Qed.
Lemma chars_nodup : NoDup b58_chars.
Proof.
  assert (X : forall l, (fix f (l : bytes) := match l with [] => true | x :: r => match index_of x r with None => f r | _ => false end end) l = true -> NoDup l).
  { induction l as [|x r IH]; [constructor|]. destruct (index_of x r) eqn:E; [discriminate|]. intros Y. constructor; [apply index_of_none; exact E|apply IH; exact Y]. }
  apply X. vm_compute. reflexivity.
Qed.
Lemma split_at {A} (l : list A) i x r : skipn i l = x :: r -> l = firstn i l ++ x :: r.
Proof. intros E. rewrite <- E. symmetry. apply firstn_skipn. Qed.
Lemma candidates_exact s t : (t = s \/ In t (replacements s ++ insertions s ++ deletions s)) <-> (t = s \/ one_edit s t).
Proof.
  split; (intros [->|X]; [left; reflexivity|]).
  - apply in_app_or in X. destruct X as [X|X]; [|apply in_app_or in X; destruct X as [X|X]].
    + unfold replacements in X. apply in_flat_map in X. destruct X as (i & _ & X). destruct (skipn i s) as [|c post] eqn:E; [destruct X|].
      apply replace_tries_in in X. destruct X as (y & Y & ->). right. rewrite (split_at _ _ _ _ E) at 1. constructor. exact Y.
    + unfold insertions in X. apply in_flat_map in X. destruct X as (i & _ & X). apply in_map_iff in X. destruct X as (y & <- & Y). right. rewrite <- (firstn_skipn i s) at 1. constructor. exact Y.
    + unfold deletions in X. apply in_map_iff in X. destruct X as (i & <- & I). apply List.in_seq in I. right.
      destruct (skipn i s) as [|c post] eqn:E; [exfalso; apply (f_equal (@length byte)) in E; rewrite skipn_length in E; cbn in E; lia|].
      assert (P : skipn (S i) s = post). { clear - E. revert s E. induction i as [|i IH]; intros [|x s] E; try discriminate E; [cbn in E |- *; congruence|exact (IH s E)]. }
      rewrite P. rewrite (split_at _ _ _ _ E) at 1. apply edit_delete.
  - destruct X as [a x y b Y|a y b Y|a x b].
    + destruct (Byte.byte_eq_dec x y) as [->|N]; [left; reflexivity|]. right. apply in_or_app. left. unfold replacements. apply in_flat_map. exists (length a).
      split; [apply List.in_seq; rewrite app_length; cbn [length]; lia|]. rewrite skipn_app, Nat.sub_diag, skipn_all, firstn_app, Nat.sub_diag, firstn_all, app_nil_r. cbn [skipn app].
      apply replace_tries_all; [exact Y|congruence|apply chars_nodup].
    + right. apply in_or_app. right. apply in_or_app. left. unfold insertions. apply in_flat_map. exists (length a). split; [apply List.in_seq; rewrite app_length; lia|].
      apply in_map_iff. exists y. split; [|exact Y]. rewrite skipn_app, Nat.sub_diag, skipn_all, firstn_app, Nat.sub_diag, firstn_all, app_nil_r. reflexivity.
    + right. apply in_or_app. right. apply in_or_app. right. unfold deletions. apply in_map_iff. exists (length a). split; [|apply List.in_seq; rewrite app_length; cbn [length]; lia].
      rewrite firstn_app, Nat.sub_diag, firstn_all, app_nil_r. f_equal. replace (S (length a)) with (length (a ++ [x])) by (rewrite app_length; cbn; lia).
      replace (a ++ x :: b) with ((a ++ [x]) ++ b) by (rewrite <- app_assoc; reflexivity). rewrite skipn_app, Nat.sub_diag, skipn_all. reflexivity.
Qed.
Lemma recover_sound s r : r <> [] -> check_recover H s = r -> exists t, (t = s \/ one_edit s t) /\ b58_text t (append_checksum H r).
Proof.
  intros N E. apply first_valid_exact in E; [|exact N]. destruct E as (t & I & D). exists t. split; [apply candidates_exact; destruct I as [<-|I]; auto|]. apply decode_exact; assumption.
Qed.
Lemma recover_complete s : check_recover H s = [] <-> forall t r, (t = s \/ one_edit s t) -> r <> [] -> ~ b58_text t (append_checksum H r).
Proof.
  unfold check_recover. rewrite first_valid_none. split.
  - intros X t r C N T. apply candidates_exact in C. assert (E : check_decode H t = []) by (apply X; destruct C as [->|C]; [left; reflexivity|right; exact C]).
    apply decode_exact in T; [congruence|exact N].
  - intros X t I. destruct (check_decode H t) as [|b l] eqn:E; [reflexivity|]. exfalso. apply (X t (b :: l)); [|discriminate|apply decode_exact; [discriminate|exact E]].
    apply candidates_exact. destruct I as [<-|I]; auto.
Qed.
Lemma recover_valid s v : v <> [] -> check_decode H s = v -> check_recover H s = v.
Proof. intros N E. unfold check_recover. cbn [first_valid]. cbv zeta. rewrite E. destruct v; [congruence|reflexivity]. Qed.
End Check.
