(* Derivation of keys. *)
From Verif Require Import Base BaseProofs WireModel MerkleModel TextModel TextSpec TextProofs HdModel HdSpec HdPathProofs.
From Coq Require Import Lia ZifyBool ZifyNat ZifyN.
Local Open Scope N_scope.

Lemma w32_small n : n < 4294967296 -> w32 n = n.
Proof. unfold w32. intros. apply N.mod_small. assumption. Qed.
Lemma w32_add a b : w32 (w32 a + b) = w32 (a + b).
Proof. unfold w32. apply N.add_mod_idemp_l. discriminate. Qed.
Lemma hardened_not i : hardened i = negb (i <? 2 ^ 31).
Proof. unfold hardened. change (2 ^ 31) with 0x80000000. lia. Qed.
Lemma derive_path_app step : forall a x b, derive_path step x (a ++ b) = match derive_path step x a with Done y => derive_path step y b | Bad => Bad | More => More end.
Proof. induction a as [|c a IH]; intros x b; [reflexivity|]. cbn [app derive_path]. destruct (step x c); [apply IH|reflexivity|reflexivity]. Qed.

Section Derive.
Variable hmac : bytes -> bytes -> bytes.
Variable h160 : bytes -> bytes.
Variable pub : bytes -> bytes.
Variable tweak : bytes -> bytes -> bytes.
Notation derive_secret := (derive_secret hmac h160 pub).
Notation derive_pubkey := (derive_pubkey hmac h160 tweak).
Notation secret_child := (secret_child hmac h160 pub).
Notation public_child := (public_child hmac h160 tweak).
Notation takes_secret := (takes_secret hmac pub).
Notation takes_public := (takes_public hmac).
Notation sum_key := (sum_key hmac pub).
Notation half_secret := (half_secret hmac pub).

Lemma data_spec x i : secret_data pub x i = (if i <? 2 ^ 31 then pub (x_key x) else x00 :: x_key x) ++ be 4 i.
Proof. unfold secret_data. rewrite hardened_not. destruct (i <? 2 ^ 31); reflexivity. Qed.

Lemma derive_secret_step fuel x i :
  (takes_secret x i -> derive_secret fuel x i = Done (secret_child x i)) /\
  (~ takes_secret x i -> derive_secret fuel x i = match fuel with O => More | S f => derive_secret f x (w32 (i + 1)) end).
Proof.
  assert (E : derive_secret fuel x i = if (secp_order <? be_val (half_secret x i)) || (sum_key x i =? 0) then match fuel with O => More | S f => derive_secret f x (w32 (i + 1)) end else Done (secret_child x i)).
  { unfold HdSpec.secret_child, HdSpec.takes_secret, HdSpec.sum_key, HdSpec.half_secret, HdSpec.chain_secret. rewrite <- !data_spec.
    destruct fuel; cbn [HdModel.derive_secret]; cbv zeta; destruct (secp_order <? _); cbn [orb]; reflexivity. }
  rewrite E. unfold HdSpec.takes_secret.
  destruct (N.ltb_spec secp_order (be_val (half_secret x i))) as [L|L]; cbn [orb].
  { split; [intros [T _]; exfalso; apply (N.lt_irrefl secp_order); eapply N.lt_le_trans; eassumption|reflexivity]. }
  destruct (N.eqb_spec (sum_key x i) 0) as [Z|Z].
  - split; [intros [_ T]; congruence|reflexivity].
  - split; [reflexivity|intros T; exfalso; apply T; split; assumption].
Qed.
Lemma takes_secret_dec x i : takes_secret x i \/ ~ takes_secret x i.
Proof.
  unfold HdSpec.takes_secret. destruct (N.le_gt_cases (be_val (half_secret x i)) secp_order) as [L|L].
  - destruct (N.eq_dec (sum_key x i) 0); [right; tauto|left; tauto].
  - right. intros [T _]. apply (N.lt_irrefl secp_order). eapply N.lt_le_trans; eassumption.
Qed.
Lemma takes_public_dec x i : takes_public x i \/ ~ takes_public x i.
Proof.
  unfold HdSpec.takes_public. destruct (N.le_gt_cases (le_val (half_public hmac x i)) secp_order) as [L|L]; [left; exact L|right].
  intros T. apply (N.lt_irrefl secp_order). eapply N.lt_le_trans; eassumption.
Qed.
Lemma derive_secret_exact x : forall fuel i y, i < 4294967296 ->
  derive_secret fuel x i = Done y <->
  exists j, (j <= fuel)%nat /\ (forall k, (k < j)%nat -> ~ takes_secret x (w32 (i + N.of_nat k))) /\ takes_secret x (w32 (i + N.of_nat j)) /\ y = secret_child x (w32 (i + N.of_nat j)).
Proof.
  induction fuel as [|f IH]; intros i y B.
  - destruct (derive_secret_step 0 x i) as [T F]. split.
    + destruct (takes_secret_dec x i) as [D|D]; [rewrite (T D)|rewrite (F D); discriminate]. intros E. exists O.
      rewrite N.add_0_r, w32_small by assumption. split; [lia|]. split; [intros; lia|]. split; [exact D|]. congruence.
    + intros (j & L & _ & D & ->). assert (j = O) as -> by lia. rewrite N.add_0_r, w32_small in * by assumption. apply T. exact D.
  - destruct (derive_secret_step (S f) x i) as [T F]. destruct (takes_secret_dec x i) as [D|D].
    + rewrite (T D). split.
      * intros E. exists O. rewrite N.add_0_r, w32_small by assumption. split; [lia|]. split; [intros; lia|]. split; [exact D|congruence].
      * intros (j & L & P & Dj & ->). destruct j as [|j]; [rewrite N.add_0_r, w32_small by assumption; reflexivity|].
        exfalso. apply (P O ltac:(lia)). rewrite N.add_0_r, w32_small by assumption. exact D.
    + rewrite (F D). rewrite IH by (unfold w32; apply N.mod_lt; discriminate).
      assert (Sh : forall k, w32 (w32 (i + 1) + N.of_nat k) = w32 (i + N.of_nat (S k))).
      { intros k. rewrite w32_add. f_equal. lia. }
      split.
      * intros (j & L & P & Dj & ->). exists (S j). rewrite Sh in *. split; [lia|]. split; [|split; [exact Dj|reflexivity]].
        intros [|k] K; [rewrite N.add_0_r, w32_small by assumption; exact D|]. rewrite <- Sh. apply P. lia.
      * intros (j & L & P & Dj & ->). destruct j as [|j]; [exfalso; apply D; rewrite N.add_0_r, w32_small in Dj by assumption; exact Dj|].
        exists j. rewrite Sh. split; [lia|]. split; [|split; [exact Dj|reflexivity]]. intros k K. rewrite Sh. apply P. lia.
Qed.
Lemma derive_secret_more x fuel i : i < 4294967296 -> derive_secret fuel x i = More <-> forall k, (k <= fuel)%nat -> ~ takes_secret x (w32 (i + N.of_nat k)).
Proof.
  revert i. induction fuel as [|f IH]; intros i B.
  - destruct (derive_secret_step 0 x i) as [T F]. split.
    + intros E k K. assert (k = O) as -> by lia. rewrite N.add_0_r, w32_small by assumption. intros D. rewrite (T D) in E. discriminate.
    + intros P. apply F. specialize (P O ltac:(lia)). rewrite N.add_0_r, w32_small in P by assumption. exact P.
  - destruct (derive_secret_step (S f) x i) as [T F].
    assert (Sh : forall k, w32 (w32 (i + 1) + N.of_nat k) = w32 (i + N.of_nat (S k))).
    { intros k. rewrite w32_add. f_equal. lia. }
    assert (BW : w32 (i + 1) < 4294967296) by (unfold w32; apply N.mod_lt; discriminate). split.
    + intros E k K. destruct (takes_secret_dec x i) as [D|D]; [rewrite (T D) in E; discriminate|]. rewrite (F D) in E.
      destruct k as [|k]; [rewrite N.add_0_r, w32_small by assumption; exact D|]. rewrite <- Sh. apply (proj1 (IH _ BW) E). lia.
    + intros P. assert (D : ~ takes_secret x i) by (specialize (P O ltac:(lia)); rewrite N.add_0_r, w32_small in P by assumption; exact P).
      rewrite (F D). apply (IH _ BW). intros k K. rewrite Sh. apply P. lia.
Qed.
Lemma derive_secret_not_bad x : forall fuel i, derive_secret fuel x i <> Bad.
Proof.
  induction fuel as [|f IH]; intros i; destruct (derive_secret_step 0 x i) as [T0 F0];
    [|destruct (derive_secret_step (S f) x i) as [T F]]; destruct (takes_secret_dec x i) as [D|D].
  - rewrite (T0 D). discriminate.
  - rewrite (F0 D). discriminate.
  - rewrite (T D). discriminate.
  - rewrite (F D). apply IH.
Qed.

Lemma ckd_priv_exact x i : i < 4294967296 ->
  (forall fuel y, ckd_priv hmac h160 pub x i = Some y -> derive_secret fuel x i = Done y) /\
  (forall fuel, ckd_priv hmac h160 pub x i = None -> be_val (half_secret x i) <> secp_order ->
     derive_secret (S fuel) x i = derive_secret fuel x (w32 (i + 1))).
Proof.
  intros B. unfold ckd_priv. destruct (N.leb_spec secp_order (be_val (half_secret x i))) as [L|L]; cbn [orb].
  - split; [discriminate|]. intros fuel _ Ne. apply (derive_secret_step (S fuel) x i). intros [T _]. apply Ne. apply N.le_antisymm; assumption.
  - destruct (N.eqb_spec (sum_key x i) 0) as [Z|Z].
    + split; [discriminate|]. intros fuel _ _. apply (derive_secret_step (S fuel) x i). intros [_ T]. congruence.
    + split; [|discriminate]. intros fuel y E. rewrite (proj1 (derive_secret_step fuel x i)); [|split; [apply N.lt_le_incl; exact L|exact Z]].
      unfold HdSpec.secret_child. congruence.
Qed.
(* the left half is the order itself: the child has the secret of its parent *)
Lemma order_repeats_key fuel x i : length (x_key x) = 32%nat -> usable (be_val (x_key x)) -> be_val (half_secret x i) = secp_order ->
  ckd_priv hmac h160 pub x i = None /\ exists y, derive_secret fuel x i = Done y /\ x_key y = x_key x.
Proof.
  intros L [U1 U2] E. split.
  - unfold ckd_priv. rewrite E, N.leb_refl. reflexivity.
  - assert (K : sum_key x i = be_val (x_key x)).
    { unfold HdSpec.sum_key. rewrite E. rewrite <- N.add_mod_idemp_l by discriminate. rewrite N.mod_same by discriminate. rewrite N.add_0_l. apply N.mod_small. exact U2. }
    exists (secret_child x i). split.
    + apply derive_secret_step. split; [rewrite E; apply N.le_refl|]. rewrite K. intros Z. rewrite Z in U1. discriminate U1.
    + unfold HdSpec.secret_child. cbn [x_key]. rewrite K, <- L. apply be_be_val.
Qed.

(* ---- public ---- *)
Lemma derive_pubkey_hardened fuel x i : 2 ^ 31 <= i -> derive_pubkey fuel x i = Done xpubkey_none.
Proof.
  intros L. destruct fuel; cbn [HdModel.derive_pubkey]; rewrite hardened_not; destruct (N.ltb_spec i (2 ^ 31)) as [C|C]; try reflexivity;
    exfalso; apply (N.lt_irrefl (2 ^ 31)); eapply N.le_lt_trans; eassumption.
Qed.
Lemma derive_pubkey_step fuel x i : i < 2 ^ 31 ->
  (takes_public x i -> derive_pubkey fuel x i = Done (public_child x i)) /\
  (~ takes_public x i -> derive_pubkey fuel x i = match fuel with O => More | S f => derive_pubkey f x (w32 (i + 1)) end).
Proof.
  intros B. assert (E : derive_pubkey fuel x i = if secp_order <? le_val (half_public hmac x i) then match fuel with O => More | S f => derive_pubkey f x (w32 (i + 1)) end else Done (public_child x i)).
  { destruct fuel; cbn [HdModel.derive_pubkey]; rewrite hardened_not; replace (i <? 2 ^ 31) with true by (symmetry; apply N.ltb_lt; exact B); reflexivity. }
  rewrite E. unfold HdSpec.takes_public. destruct (N.ltb_spec secp_order (le_val (half_public hmac x i))) as [L|L].
  - split; [intros T; exfalso; apply (N.lt_irrefl secp_order); eapply N.lt_le_trans; eassumption|reflexivity].
  - split; [reflexivity|intros T; exfalso; apply T; exact L].
Qed.
(* the first index that is not skipped, unless the end of the plain indices is reached *)
Lemma derive_pubkey_exact x : forall fuel i y, i < 2 ^ 31 ->
  derive_pubkey fuel x i = Done y <->
  exists j, (j <= fuel)%nat /\ (forall k, (k < j)%nat -> ~ takes_public x (i + N.of_nat k)) /\
    ((i + N.of_nat j < 2 ^ 31 /\ takes_public x (i + N.of_nat j) /\ y = public_child x (i + N.of_nat j)) \/
     (i + N.of_nat j = 2 ^ 31 /\ y = xpubkey_none)).
Proof.
  change (2 ^ 31) with 2147483648. induction fuel as [|f IH]; intros i y B.
  - destruct (derive_pubkey_step 0 x i B) as [T F]. split.
    + destruct (takes_public_dec x i) as [D|D]; [rewrite (T D)|rewrite (F D); discriminate]. intros E. exists O. rewrite N.add_0_r.
      split; [lia|]. split; [intros; lia|]. left. split; [exact B|]. split; [exact D|congruence].
    + intros (j & L & _ & [(_ & D & ->)|(Z & _)]); assert (j = O) as -> by lia; rewrite N.add_0_r in *; [apply T; exact D|lia].
  - destruct (derive_pubkey_step (S f) x i B) as [T F]. destruct (takes_public_dec x i) as [D|D].
    + rewrite (T D). split.
      * intros E. exists O. rewrite N.add_0_r. split; [lia|]. split; [intros; lia|]. left. split; [exact B|]. split; [exact D|congruence].
      * intros (j & L & P & R). destruct j as [|j].
        { rewrite N.add_0_r in R. destruct R as [(_ & _ & ->)|(Z & _)]; [reflexivity|lia]. }
        exfalso. apply (P O ltac:(lia)). rewrite N.add_0_r. exact D.
    + rewrite (F D). rewrite w32_small by lia.
      destruct (N.eq_dec (i + 1) 2147483648) as [Q|Q].
      * rewrite derive_pubkey_hardened by (change (2 ^ 31) with 2147483648; lia). split.
        { intros E. exists 1%nat. split; [lia|]. split; [intros k K; assert (k = O) as -> by lia; rewrite N.add_0_r; exact D|]. right. split; [lia|congruence]. }
        { intros (j & L & P & R). destruct j as [|j].
          - rewrite N.add_0_r in R. destruct R as [(_ & C & _)|(Z & _)]; [contradiction|lia].
          - destruct R as [(Z & _)|(_ & ->)]; [lia|reflexivity]. }
      * rewrite IH by lia.
        assert (Sh : forall k, i + 1 + N.of_nat k = i + N.of_nat (S k)) by (intros k; lia).
        split.
        { intros (j & L & P & R). exists (S j). rewrite <- Sh. split; [lia|]. split; [|exact R].
          intros [|k] K; [rewrite N.add_0_r; exact D|]. rewrite <- Sh. apply P. lia. }
        { intros (j & L & P & R). destruct j as [|j].
          - rewrite N.add_0_r in R. destruct R as [(_ & C & _)|(Z & _)]; [contradiction|lia].
          - exists j. rewrite Sh. split; [lia|]. split; [|exact R]. intros k K. rewrite Sh. apply P. lia. }
Qed.

(* ---- both ---- *)
Hypothesis TA : tweak_adds pub tweak.
Hypothesis HS : hmac_sized hmac.
Notation to_public := (to_public pub).

Lemma half_length x i : length (half_secret x i) = 32%nat.
Proof. unfold HdSpec.half_secret. rewrite firstn_length, HS. reflexivity. Qed.
Lemma half_same x i : i < 2 ^ 31 -> half_public hmac (to_public x) i = half_secret x i /\ chain_public hmac (to_public x) i = chain_secret hmac pub x i.
Proof.
  intros B. unfold half_public, HdSpec.half_secret, chain_public, chain_secret, HdModel.to_public. cbn [x_key x_chain].
  replace (i <? 2 ^ 31) with true by (symmetry; apply N.ltb_lt; exact B). split; reflexivity.
Qed.
Lemma children_same x i : length (x_key x) = 32%nat -> usable (be_val (x_key x)) -> i < 2 ^ 31 -> be_val (half_secret x i) < secp_order -> sum_key x i <> 0 ->
  public_child (to_public x) i = to_public (secret_child x i).
Proof.
  intros L U B Hlt Z. destruct (half_same x i B) as [E1 E2]. unfold HdSpec.public_child. rewrite E1, E2.
  unfold HdSpec.secret_child, HdModel.to_public. cbn [x_key x_chain x_net x_depth x_parent x_sequence].
  rewrite (proj1 TA) by (assumption || apply half_length). reflexivity.
Qed.
Lemma commute_step fuel x i : length (x_key x) = 32%nat -> usable (be_val (x_key x)) -> plain_half hmac pub x i ->
  derive_secret fuel x i = Done (secret_child x i) /\ derive_pubkey fuel (to_public x) i = Done (to_public (secret_child x i)).
Proof.
  intros L U (B & Hlt & Hle & Z). split.
  - apply derive_secret_step. split; [apply N.lt_le_incl; exact Hlt|exact Z].
  - rewrite (proj1 (derive_pubkey_step fuel (to_public x) i B)).
    + rewrite children_same by assumption. reflexivity.
    + unfold HdSpec.takes_public. rewrite (proj1 (half_same x i B)). exact Hle.
Qed.
Lemma child_usable x i : length (x_key (secret_child x i)) = 32%nat /\ (sum_key x i <> 0 -> usable (be_val (x_key (secret_child x i)))).
Proof.
  unfold HdSpec.secret_child. cbn [x_key]. rewrite be_length. split; [reflexivity|]. intros Z. rewrite be_val_be.
  assert (B : sum_key x i < secp_order) by (apply N.mod_lt; discriminate).
  rewrite N.mod_small; [split; [apply N.neq_0_lt_0; exact Z|exact B]|].
  eapply N.lt_trans; [exact B|]. vm_compute. reflexivity.
Qed.
Lemma commute_path fuel l : forall x, length (x_key x) = 32%nat -> usable (be_val (x_key x)) -> plain_path hmac h160 pub x l ->
  exists y, derive_secret_path hmac h160 pub fuel x l = Done y /\ derive_pubkey_path hmac h160 tweak fuel (to_public x) l = Done (to_public y).
Proof.
  induction l as [|i l IH]; intros x L U P; [exists x; split; reflexivity|]. destruct P as [P1 P2].
  destruct (commute_step fuel x i L U P1) as [E1 E2]. destruct (child_usable x i) as [C1 C2]. destruct P1 as (_ & _ & _ & Z).
  destruct (IH (secret_child x i) C1 (C2 Z) P2) as (y & Y1 & Y2). exists y.
  unfold derive_secret_path, derive_pubkey_path in *. cbn [derive_path]. rewrite E1, E2. split; assumption.
Qed.
Lemma pub_child_some x i : sum_key x i <> 0 -> pub (x_key (secret_child x i)) <> [].
Proof.
  intros Z E. destruct (child_usable x i) as [C1 C2]. pose proof (proj2 (proj2 TA) _ C1 (C2 Z)) as L. rewrite E in L. discriminate L.
Qed.
Lemma ckd_pub_child x i : length (x_key x) = 32%nat -> usable (be_val (x_key x)) -> i < 2 ^ 31 -> be_val (half_secret x i) < secp_order -> sum_key x i <> 0 ->
  ckd_pub hmac h160 tweak (to_public x) i = Some (to_public (secret_child x i)).
Proof.
  intros L U B Hlt Z. unfold ckd_pub. destruct (N.leb_spec (2 ^ 31) i) as [C|C]; [exfalso; apply (N.lt_irrefl i); eapply N.lt_le_trans; eassumption|].
  pose proof (children_same x i L U B Hlt Z) as E. pose proof (pub_child_some x i Z) as Ne.
  assert (K : tweak (x_key (to_public x)) (half_public hmac (to_public x) i) = pub (x_key (secret_child x i))).
  { change (tweak (x_key (to_public x)) (half_public hmac (to_public x) i)) with (x_key (public_child (to_public x) i)). rewrite E. reflexivity. }
  unfold HdSpec.public_child in E. rewrite K in E |- *. destruct (pub (x_key (secret_child x i))); [congruence|]. f_equal. exact E.
Qed.
(* read the wrong way round, the left half is above the order: the public key skips an index that the secret takes *)
Lemma commute_fails fuel x i : length (x_key x) = 32%nat -> usable (be_val (x_key x)) -> i < 2 ^ 31 ->
  be_val (half_secret x i) < secp_order -> secp_order < le_val (half_secret x i) -> sum_key x i <> 0 ->
  derive_secret fuel x i = Done (secret_child x i) /\
  ckd_pub hmac h160 tweak (to_public x) i = Some (to_public (secret_child x i)) /\
  (forall y, derive_pubkey fuel (to_public x) i = Done y -> y <> to_public (secret_child x i)).
Proof.
  intros L U B Hlt Hgt Z. split; [|split].
  - apply derive_secret_step. split; [apply N.lt_le_incl; exact Hlt|exact Z].
  - apply ckd_pub_child; assumption.
  - intros y E C. apply (derive_pubkey_exact _ fuel i y B) in E. destruct E as (j & J & P & R).
    assert (NT : ~ takes_public (to_public x) i).
    { unfold HdSpec.takes_public. rewrite (proj1 (half_same x i B)). intros T. apply (N.lt_irrefl secp_order). eapply N.lt_le_trans; eassumption. }
    destruct R as [(R1 & R2 & R3)|(R1 & R2)].
    + assert (SQ : x_sequence y = i) by (rewrite C; reflexivity).
      rewrite R3 in SQ. unfold HdSpec.public_child in SQ. cbn [x_sequence] in SQ.
      rewrite SQ in R2. contradiction.
    + apply (pub_child_some x i Z). rewrite R2 in C. change (pub (x_key (secret_child x i))) with (x_key (to_public (secret_child x i))). rewrite <- C. reflexivity.
Qed.
(* the left half is the order: the secret has a child, the public key has not *)
Lemma order_public_empty fuel x i y : i < 2 ^ 31 -> be_val (half_secret x i) = secp_order -> derive_pubkey fuel (to_public x) i = Done y -> x_sequence y = i -> x_key y = [].
Proof.
  intros B E D SQ. apply (derive_pubkey_exact _ fuel i y B) in D. destruct D as (j & J & P & [(R1 & R2 & R3)|(_ & ->)]); [|reflexivity].
  rewrite R3 in *. unfold HdSpec.public_child in *. cbn [x_sequence x_key] in *. rewrite SQ.
  apply (proj1 (proj2 TA)). rewrite (proj1 (half_same x i B)), E. apply N.le_refl.
Qed.

(* ---- depth and network ---- *)
Lemma secret_path_fields fuel l : forall x y, x_depth x < 256 -> derive_secret_path hmac h160 pub fuel x l = Done y ->
  x_depth y = (x_depth x + N.of_nat (length l)) mod 256 /\ x_net y = x_net x.
Proof.
  induction l as [|i l IH]; intros x y D E; unfold derive_secret_path in *; cbn [derive_path] in E.
  - assert (x = y) by congruence. subst y. cbn [length N.of_nat]. rewrite N.add_0_r. split; [symmetry; apply N.mod_small; exact D|reflexivity].
  - destruct (HdModel.derive_secret hmac h160 pub fuel x i) as [z| |] eqn:E1; try discriminate.
    assert (Q : x_depth z = (x_depth x + 1) mod 256 /\ x_net z = x_net x).
    { clear - E1. revert i E1. induction fuel as [|f IH]; intros i E1.
      - destruct (derive_secret_step 0 x i) as [T F]. destruct (takes_secret_dec x i) as [D|D]; [rewrite (T D) in E1|rewrite (F D) in E1; discriminate].
        assert (z = secret_child x i) by congruence. subst. split; reflexivity.
      - destruct (derive_secret_step (S f) x i) as [T F]. destruct (takes_secret_dec x i) as [D|D]; [rewrite (T D) in E1|rewrite (F D) in E1; apply (IH _ E1)].
        assert (z = secret_child x i) by congruence. subst. split; reflexivity. }
    destruct Q as [Q1 Q2]. assert (DZ : x_depth z < 256) by (rewrite Q1; apply N.mod_lt; discriminate).
    destruct (IH z y DZ E) as [R1 R2]. rewrite R1, R2, Q1, Q2. split; [|reflexivity].
    rewrite N.add_mod_idemp_l by discriminate. f_equal. cbn [length]. lia.
Qed.
(* nothing comes back from a hardened step *)
Lemma empty_stays fuel l : (forall t, tweak [] t = []) -> forall x y, x_key x = [] -> derive_pubkey_path hmac h160 tweak fuel x l = Done y -> x_key y = [].
Proof.
  intros TE. induction l as [|i l IH]; intros x y K E; unfold derive_pubkey_path in *; cbn [derive_path] in E; [congruence|].
  destruct (HdModel.derive_pubkey hmac h160 tweak fuel x i) as [z| |] eqn:E1; try discriminate. apply (IH z y); [|exact E].
  destruct (N.lt_ge_cases i (2 ^ 31)) as [B|B].
  - apply (derive_pubkey_exact _ fuel i z B) in E1. destruct E1 as (j & J & P & [(R1 & R2 & ->)|(_ & ->)]); [|reflexivity].
    unfold HdSpec.public_child. cbn [x_key]. rewrite K. apply TE.
  - rewrite derive_pubkey_hardened in E1 by assumption. assert (z = xpubkey_none) by congruence. subst. reflexivity.
Qed.
Lemma hardened_step_loses fuel a i b x y : (forall t, tweak [] t = []) -> 2 ^ 31 <= i -> derive_pubkey_path hmac h160 tweak fuel x (a ++ i :: b) = Done y -> x_key y = [].
Proof.
  intros TE B E. unfold derive_pubkey_path in E. rewrite derive_path_app in E. destruct (derive_path (HdModel.derive_pubkey hmac h160 tweak fuel) x a) as [z| |]; try discriminate.
  cbn [derive_path] in E. rewrite derive_pubkey_hardened in E by assumption. apply (empty_stays fuel b TE xpubkey_none y eq_refl E).
Qed.
End Derive.
