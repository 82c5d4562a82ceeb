From Verif Require Import Base BaseProofs ScriptModel NumModel NumSpec WireProofs ScriptProofs.
From Coq Require Import ZifyBool ZifyNat ZifyN.
Ltac Zify.zify_post_hook ::= Z.div_mod_to_equations.
Local Open Scope N_scope.

Lemma len_snoc r (l : byte) : len (r ++ [l]) = len r + 1.
Proof. unfold len. rewrite app_length. cbn. lia. Qed.

Lemma pow256_len r : 256 ^ len r = pow256 (length r).
Proof. reflexivity. Qed.

Lemma half_snoc r (l : byte) : pow256 (length (r ++ [l])) / 2 = 128 * pow256 (length r).
Proof.
  rewrite app_length. cbn [length]. replace (length r + 1)%nat with (S (length r)) by lia.
  rewrite pow256_S. replace (256 * pow256 (length r)) with ((128 * pow256 (length r)) * 2) by lia.
  apply N.div_mul. lia.
Qed.

Lemma le_val_snoc r (l : byte) : le_val (r ++ [l]) = le_val r + pow256 (length r) * b2n l.
Proof. rewrite le_val_app. cbn [le_val]. rewrite N.mul_0_r, N.add_0_r. reflexivity. Qed.

Lemma sn_val_snoc r (l : byte) : sn_val (r ++ [l]) =
  if 128 <=? b2n l then (- Z.of_N (le_val r + (b2n l - 128) * pow256 (length r)))%Z
  else Z.of_N (le_val r + b2n l * pow256 (length r)).
Proof.
  unfold sn_val. rewrite half_snoc, le_val_snoc.
  pose proof (le_val_bound r) as B. pose proof (b2n_lt l) as L.
  destruct (N.leb_spec 128 (b2n l)) as [H|H].
  - destruct (N.leb_spec (128 * pow256 (length r)) (le_val r + pow256 (length r) * b2n l)) as [K|K].
    + f_equal. f_equal. nia.
    + nia.
  - destruct (N.leb_spec (128 * pow256 (length r)) (le_val r + pow256 (length r) * b2n l)) as [K|K].
    + nia.
    + f_equal. nia.
Qed.

Lemma sn_val_nil : sn_val [] = 0%Z.
Proof. reflexivity. Qed.

Lemma number_of_iff b z : number_of b z <-> sn_val b = z.
Proof.
  split.
  - intros [ | r l H | r l H].
    + reflexivity.
    + rewrite sn_val_snoc. destruct (N.leb_spec 128 (b2n l)); [lia|]. reflexivity.
    + rewrite sn_val_snoc. destruct (N.leb_spec 128 (b2n l)); [|lia]. reflexivity.
  - intros <-. induction b as [|l r _] using rev_ind.
    + rewrite sn_val_nil. apply num_empty.
    + rewrite sn_val_snoc. destruct (N.leb_spec 128 (b2n l)).
      * apply num_neg. assumption.
      * apply num_pos. assumption.
Qed.

Lemma pow256_pow2 k : pow256 k = 2 ^ (8 * N.of_nat k).
Proof. unfold pow256. rewrite N.pow_mul_r. reflexivity. Qed.

Lemma pow256_half m : pow256 (S m) / 2 = 128 * pow256 m.
Proof.
  rewrite pow256_S. replace (256 * pow256 m) with ((128 * pow256 m) * 2) by lia.
  apply N.div_mul. lia.
Qed.

Lemma half_pow2 m : 128 * pow256 m = 2 ^ (8 * N.of_nat m + 7).
Proof. rewrite pow256_pow2, N.pow_add_r. change (2 ^ 7) with 128. lia. Qed.

Lemma size_bounds n : n <> 0 -> 2 ^ (N.size n - 1) <= n < 2 ^ N.size n.
Proof.
  intros H. rewrite (N.size_log2 n H). replace (N.succ (N.log2 n) - 1) with (N.log2 n) by lia.
  apply N.log2_spec. lia.
Qed.

Lemma sn_size_pos z : z <> 0%Z -> exists m, sn_size z = S m /\
  Z.abs_N z < 128 * pow256 m /\ (forall m', m = S m' -> 128 * pow256 m' <= Z.abs_N z).
Proof.
  intros Hz. assert (Ha : Z.abs_N z <> 0) by lia.
  exists (N.to_nat (N.size (Z.abs_N z) / 8)). split.
  - destruct z; [congruence| |]; cbn [sn_size]; lia.
  - destruct (size_bounds _ Ha) as [L U]. split.
    + rewrite half_pow2, N2Nat.id. eapply N.lt_le_trans; [exact U|].
      apply N.pow_le_mono_r; [lia|]. lia.
    + intros m' E. rewrite half_pow2. eapply N.le_trans; [|exact L].
      apply N.pow_le_mono_r; [lia|]. lia.
Qed.

Lemma sn_size_unique z m : z <> 0%Z -> Z.abs_N z < 128 * pow256 m ->
  (forall m', m = S m' -> 128 * pow256 m' <= Z.abs_N z) -> sn_size z = S m.
Proof.
  intros Hz U L. destruct (sn_size_pos z Hz) as (k & E & U' & L'). rewrite E. f_equal.
  assert (mono : forall a b, (a <= b)%nat -> pow256 a <= pow256 b).
  { intros a b Hab. unfold pow256. apply N.pow_le_mono_r; lia. }
  destruct (Nat.lt_trichotomy k m) as [H|[H|H]]; [|exact H|].
  - destruct m as [|m]; [lia|]. specialize (L m eq_refl). pose proof (mono k m ltac:(lia)). nia.
  - destruct k as [|k]; [lia|]. specialize (L' k eq_refl). pose proof (mono m k ltac:(lia)). nia.
Qed.

Lemma sn_enc_length z : length (sn_enc z) = sn_size z.
Proof. unfold sn_enc. apply le_length. Qed.

Lemma sn_val_enc z : sn_val (sn_enc z) = z.
Proof.
  destruct (Z.eq_dec z 0) as [->|Hz]; [reflexivity|].
  destruct (sn_size_pos z Hz) as (m & E & U & _).
  unfold sn_val. rewrite sn_enc_length. unfold sn_enc. rewrite E, pow256_half, le_val_le, pow256_S.
  rewrite N.mod_small.
  2:{ destruct (Z.ltb_spec z 0); lia. }
  destruct (Z.ltb_spec z 0).
  - destruct (N.leb_spec (128 * pow256 m) (Z.abs_N z + 128 * pow256 m)); lia.
  - destruct (N.leb_spec (128 * pow256 m) (Z.abs_N z + 0)); lia.
Qed.

Lemma sn_val_bound b : Z.abs_N (sn_val b) < 128 * pow256 (length b - 1) \/ b = [].
Proof.
  induction b as [|l r _] using rev_ind; [right; reflexivity|left].
  rewrite sn_val_snoc, app_length. cbn [length]. replace (length r + 1 - 1)%nat with (length r) by lia.
  pose proof (le_val_bound r) as B. pose proof (b2n_lt l) as L.
  destruct (N.leb_spec 128 (b2n l)); nia.
Qed.

Lemma sn_enc_unique b z : sn_val b = z -> z <> 0%Z -> length b = sn_size z -> b = sn_enc z.
Proof.
  intros V Hz E. destruct (sn_size_pos z Hz) as (m & E' & U & _).
  unfold sn_enc. rewrite <- E. rewrite <- (le_le_val b) at 1. f_equal.
  unfold sn_val in V. rewrite E, E', pow256_half in V. rewrite E, E', pow256_half.
  destruct (N.leb_spec (128 * pow256 m) (le_val b)); destruct (Z.ltb_spec z 0); lia.
Qed.

Lemma sn_enc_shortest b z : sn_val b = z -> (length (sn_enc z) <= length b)%nat.
Proof.
  intros V. rewrite sn_enc_length. destruct (Z.eq_dec z 0) as [->|Hz]; [cbn; lia|].
  destruct (sn_val_bound b) as [B|B]; [|subst b; rewrite sn_val_nil in V; congruence].
  rewrite V in B. destruct (sn_size_pos z Hz) as (m & E' & U & L). rewrite E'.
  destruct m as [|m].
  - destruct b; [rewrite sn_val_nil in V; congruence|cbn; lia].
  - specialize (L m eq_refl).
    destruct (Nat.le_gt_cases (S (S m)) (length b)) as [H|H]; [exact H|exfalso].
    assert (pow256 (length b - 1) <= pow256 m) by (unfold pow256; apply N.pow_le_mono_r; lia). lia.
Qed.

Lemma minimal_snoc r l : is_minimal_number (r ++ [l]) = true <->
  (b2n l mod 128 <> 0 \/ exists q p, r = q ++ [p] /\ 128 <= b2n p).
Proof.
  unfold is_minimal_number. rewrite rev_app_distr. cbn [rev app].
  rewrite orb_true_iff. split.
  - intros [H|H]; [left; lia|right].
    induction r as [|p q _] using rev_ind; [discriminate|].
    rewrite rev_app_distr in H. cbn [rev app] in H. exists q, p. split; [reflexivity|lia].
  - intros [H|(q & p & -> & H)]; [left; lia|right].
    rewrite rev_app_distr. cbn [rev app]. lia.
Qed.

Lemma abs_snoc r l : Z.abs_N (sn_val (r ++ [l])) = le_val r + (b2n l mod 128) * pow256 (length r).
Proof.
  rewrite sn_val_snoc. pose proof (b2n_lt l).
  destruct (N.leb_spec 128 (b2n l)).
  - replace (b2n l mod 128) with (b2n l - 128) by lia. rewrite Zabs2N.inj_opp, Zabs2N.id. reflexivity.
  - rewrite N.mod_small by lia. rewrite Zabs2N.id. reflexivity.
Qed.

Lemma minimal_iff b : is_minimal_number b = true <-> sn_enc (sn_val b) = b.
Proof.
  induction b as [|l r _] using rev_ind; [split; reflexivity|].
  pose proof (le_val_bound r) as B. pose proof (b2n_lt l) as L. pose proof (abs_snoc r l) as A.
  pose proof (pow256_pos (length r)) as P.
  rewrite minimal_snoc. split.
  - intros H.
    assert (Hz : sn_val (r ++ [l]) <> 0%Z).
    { intros E. rewrite E in A. change (Z.abs_N 0) with 0 in A. destruct H as [H|(q & p & -> & H)].
      - assert (0 < (b2n l mod 128) * pow256 (length r)) by (apply N.mul_pos_pos; lia). lia.
      - rewrite le_val_snoc in A. pose proof (pow256_pos (length q)).
        assert (0 < pow256 (length q) * b2n p) by (apply N.mul_pos_pos; lia). lia. }
    symmetry. apply sn_enc_unique; [reflexivity|exact Hz|].
    symmetry. rewrite app_length. cbn [length]. replace (length r + 1)%nat with (S (length r)) by lia.
    apply sn_size_unique; [exact Hz| |].
    + rewrite A. assert (b2n l mod 128 < 128) by (apply N.mod_lt; lia).
      generalize dependent (b2n l mod 128). intros x. intros. nia.
    + intros m' E. rewrite A, E. rewrite pow256_S. generalize dependent (b2n l mod 128). intros x. intros.
      destruct H as [H|(q & p & -> & H)]; [nia|].
      rewrite le_val_snoc. rewrite app_length in E. cbn [length] in E.
      replace m' with (length q) by lia. nia.
  - intros E.
    assert (Hz : sn_val (r ++ [l]) <> 0%Z).
    { intros Z0. rewrite Z0 in E. cbn in E. destruct r; discriminate. }
    destruct (sn_size_pos _ Hz) as (m & Em & U & Lo).
    assert (m = length r).
    { apply (f_equal (@length byte)) in E. rewrite sn_enc_length, Em, app_length in E. cbn [length] in E. lia. }
    subst m. destruct (N.eq_dec (b2n l mod 128) 0) as [Z0|Z0]; [right|left; exact Z0].
    rewrite A, Z0 in Lo. induction r as [|p q _] using rev_ind.
    + exfalso. rewrite Z0 in A. change (le_val []) with 0 in A. lia.
    + exists q, p. split; [reflexivity|]. specialize (Lo (length q)). rewrite le_val_snoc in Lo.
      rewrite app_length in Lo. cbn [length] in Lo. specialize (Lo ltac:(lia)).
      pose proof (le_val_bound q). pose proof (pow256_pos (length q)).
      destruct (N.le_gt_cases 128 (b2n p)) as [G|G]; [exact G|exfalso]. nia.
Qed.

Lemma sn_enc_minimal z : is_minimal_number (sn_enc z) = true.
Proof. apply minimal_iff. rewrite sn_val_enc. reflexivity. Qed.

Lemma minimal_inj a b : is_minimal_number a = true -> is_minimal_number b = true ->
  sn_val a = sn_val b -> a = b.
Proof. intros A B E. apply minimal_iff in A, B. rewrite <- A, <- B, E. reflexivity. Qed.

Lemma trim_value b : sn_val (trim_number b) = sn_val b.
Proof. apply sn_val_enc. Qed.

Lemma existsb_zero r : existsb (fun x : byte => negb (b2n x =? 0)) r = negb (le_val r =? 0).
Proof.
  induction r as [|x r IH]; [reflexivity|]. cbn [existsb le_val]. rewrite IH.
  destruct (N.eqb_spec (b2n x) 0), (N.eqb_spec (le_val r) 0), (N.eqb_spec (b2n x + 256 * le_val r) 0); cbn; lia.
Qed.

Lemma existsb_rev {A} (f : A -> bool) r : existsb f (rev r) = existsb f r.
Proof.
  induction r as [|x r IH]; [reflexivity|]. cbn [rev existsb]. rewrite existsb_app, IH. cbn.
  rewrite orb_false_r. apply orb_comm.
Qed.

Lemma nonzero_iff b : nonzero b = negb (sn_val b =? 0)%Z.
Proof.
  induction b as [|l r _] using rev_ind; [reflexivity|].
  unfold nonzero. rewrite rev_app_distr. cbn [rev app]. rewrite existsb_rev, existsb_zero.
  pose proof (abs_snoc r l) as A. pose proof (pow256_pos (length r)). pose proof (b2n_lt l).
  destruct (N.eqb_spec (le_val r) 0) as [E|E]; cbn [negb orb].
  - rewrite E in A. destruct (N.eqb_spec (b2n l) 0) as [F|F]; [|destruct (N.eqb_spec (b2n l) 128) as [G|G]].
    + rewrite F in A. change (0 mod 128) with 0 in A. rewrite N.mul_0_l in A. cbn [negb andb].
      destruct (Z.eqb_spec (sn_val (r ++ [l])) 0); [reflexivity|lia].
    + rewrite G in A. change (128 mod 128) with 0 in A. rewrite N.mul_0_l in A. cbn [negb andb].
      destruct (Z.eqb_spec (sn_val (r ++ [l])) 0); [reflexivity|lia].
    + cbn [negb andb]. assert (b2n l mod 128 <> 0) by lia.
      destruct (Z.eqb_spec (sn_val (r ++ [l])) 0); [nia|reflexivity].
  - destruct (Z.eqb_spec (sn_val (r ++ [l])) 0); [nia|reflexivity].
Qed.

Lemma is_zero_iff b : is_zero b = (sn_val b =? 0)%Z.
Proof.
  replace (is_zero b) with (negb (nonzero b)).
  - rewrite nonzero_iff. apply negb_involutive.
  - unfold nonzero, is_zero. destruct (rev b) as [|l r]; [reflexivity|].
    destruct (existsb _ r), (b2n l =? 0), (b2n l =? 128); reflexivity.
Qed.

Lemma sn_sign r l : sn_val (r ++ [l]) <> 0%Z -> ((sn_val (r ++ [l]) <? 0)%Z = (128 <=? b2n l)).
Proof.
  rewrite sn_val_snoc. destruct (N.leb_spec 128 (b2n l)); intros Z0.
  - generalize dependent (le_val r + (b2n l - 128) * pow256 (length r)). intros; lia.
  - generalize dependent (le_val r + b2n l * pow256 (length r)). intros; lia.
Qed.

Lemma is_negative_iff b : is_negative b = (sn_val b <? 0)%Z.
Proof.
  unfold is_negative. rewrite nonzero_iff. induction b as [|l r _] using rev_ind; [reflexivity|].
  rewrite last_last. destruct (Z.eqb_spec (sn_val (r ++ [l])) 0) as [E|E]; cbn [negb andb].
  - rewrite E. reflexivity.
  - symmetry. apply sn_sign. exact E.
Qed.

Lemma is_positive_iff b : is_positive b = (0 <? sn_val b)%Z.
Proof.
  unfold is_positive. rewrite nonzero_iff. induction b as [|l r _] using rev_ind; [reflexivity|].
  rewrite last_last. destruct (Z.eqb_spec (sn_val (r ++ [l])) 0) as [E|E]; cbn [negb andb].
  - rewrite E. reflexivity.
  - rewrite <- (sn_sign r l E). destruct (Z.ltb_spec (sn_val (r ++ [l])) 0), (Z.ltb_spec 0 (sn_val (r ++ [l]))); cbn; lia.
Qed.

Lemma le_val_repeat0 k : le_val (repeat x00 k) = 0.
Proof. induction k as [|k IH]; [reflexivity|]. cbn [repeat le_val]. rewrite IH. reflexivity. Qed.

Lemma extend_length b n : len b <= n -> len (extend_number b n) = n.
Proof.
  intros H. induction b as [|l r _] using rev_ind.
  - unfold extend_number. cbn [rev]. unfold len. rewrite repeat_length. lia.
  - unfold extend_number. rewrite rev_app_distr. cbn [rev app].
    destruct (N.eqb_spec (len (r ++ [l])) n) as [E|E]; [exact E|].
    unfold len in *. rewrite rev_involutive. rewrite app_length in *. cbn [app length] in *.
    rewrite !app_length, repeat_length. cbn [length]. lia.
Qed.

Lemma extend_value b n : len b <= n -> sn_val (extend_number b n) = sn_val b.
Proof.
  intros H. induction b as [|l r _] using rev_ind.
  - unfold extend_number. cbn [rev]. rewrite sn_val_nil. destruct (N.to_nat n) as [|k]; [reflexivity|].
    replace (repeat x00 (S k)) with (repeat x00 k ++ [x00]).
    + rewrite sn_val_snoc. change (b2n x00) with 0. cbn [N.leb]. rewrite le_val_repeat0. reflexivity.
    + clear. induction k as [|k IH]; [reflexivity|]. cbn [repeat app] in *. rewrite IH. reflexivity.
  - unfold extend_number. rewrite rev_app_distr. cbn [rev app].
    destruct (N.eqb_spec (len (r ++ [l])) n) as [E|E]; [reflexivity|].
    rewrite rev_involutive.
    set (k := (N.to_nat n - length (r ++ [l]) - 1)%nat).
    replace (r ++ n2b (b2n l mod 128) :: repeat x00 k ++ [n2b (128 * (b2n l / 128))])
      with ((r ++ n2b (b2n l mod 128) :: repeat x00 k) ++ [n2b (128 * (b2n l / 128))])
      by (rewrite <- app_assoc; reflexivity).
    rewrite !sn_val_snoc. pose proof (b2n_lt l).
    rewrite !le_val_app. cbn [le_val]. rewrite le_val_repeat0, N.mul_0_r, N.add_0_r.
    rewrite !b2n_n2b.
    replace ((b2n l mod 128) mod 256) with (b2n l mod 128) by lia.
    replace ((128 * (b2n l / 128)) mod 256) with (128 * (b2n l / 128)) by lia.
    destruct (N.leb_spec 128 (b2n l)) as [G|G].
    + replace (b2n l / 128) with 1 by lia. cbn [N.leb N.mul Pos.mul]. change (128 <=? 128) with true. cbv iota.
      change (128 - 128) with 0. replace (b2n l mod 128) with (b2n l - 128) by lia. lia.
    + replace (b2n l / 128) with 0 by lia. change (128 <=? 128 * 0) with false. cbv iota.
      rewrite (N.mod_small (b2n l)) by lia. lia.
Qed.

(* ---- statements used by the property file ---- *)
Lemma enc_canonical z : sn_val (sn_enc z) = z /\ is_minimal_number (sn_enc z) = true.
Proof. split; [apply sn_val_enc|apply sn_enc_minimal]. Qed.
Lemma enc_shortest_spec b z : number_of b z -> (length (sn_enc z) <= length b)%nat.
Proof. intros H. apply sn_enc_shortest, number_of_iff, H. Qed.
Lemma zero_and_trim : sn_enc 0 = [] /\
  forall b, sn_val (trim_number b) = sn_val b /\ is_minimal_number (trim_number b) = true.
Proof. split; [reflexivity|]. intros b. split; [apply trim_value|apply sn_enc_minimal]. Qed.
Lemma extend_keeps b n : len b <= n -> len (extend_number b n) = n /\ sn_val (extend_number b n) = sn_val b.
Proof. intros H. split; [apply extend_length|apply extend_value]; exact H. Qed.
Lemma sign_tests b z : number_of b z ->
  nonzero b = negb (z =? 0)%Z /\ is_zero b = (z =? 0)%Z /\
  is_negative b = (z <? 0)%Z /\ is_positive b = (0 <? z)%Z.
Proof.
  intros H. apply number_of_iff in H. subst z. rewrite nonzero_iff, is_zero_iff, is_negative_iff, is_positive_iff. auto.
Qed.
Lemma read_integer_exact b minimal max :
  (max < len b -> read_integer b minimal max = inl E_SCRIPTNUM_OVERFLOW) /\
  (len b <= max -> minimal = true -> (forall z, b <> sn_enc z) -> read_integer b minimal max = inl E_SCRIPTNUM_MINENCODE) /\
  (len b <= max -> minimal = false \/ (exists z, b = sn_enc z) -> read_integer b minimal max = inr b).
Proof.
  unfold read_integer. destruct (N.ltb_spec max (len b)) as [L|L].
  { split; [reflexivity|]. split; intros; lia. }
  split; [lia|]. split.
  - intros _ -> H. destruct (is_minimal_number b) eqn:E; [|reflexivity].
    apply minimal_iff in E. exfalso. apply (H (sn_val b)). auto.
  - intros _ [-> | (z & ->)]; [reflexivity|]. rewrite sn_enc_minimal. destruct minimal; reflexivity.
Qed.
