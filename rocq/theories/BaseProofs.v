From Verif Require Import Base.
From Coq Require Import ZifyBool ZifyNat ZifyN.
Ltac Zify.zify_post_hook ::= Z.div_mod_to_equations.

Local Open Scope N_scope.

Lemma b2n_lt (b : byte) : b2n b < 256.
Proof. unfold b2n. pose proof (Byte.to_N_bounded b). lia. Qed.

Lemma of_N_some n : n < 256 -> exists b, Byte.of_N n = Some b.
Proof.
  intros H. destruct (Byte.of_N n) eqn:E; [eauto|].
  exfalso. apply Byte.of_N_None_iff in E. lia.
Qed.

Lemma b2n_n2b n : b2n (n2b n) = n mod 256.
Proof.
  unfold b2n, n2b. destruct (of_N_some (n mod 256)) as [b Hb].
  { apply N.mod_lt. discriminate. }
  rewrite Hb. apply Byte.to_of_N. exact Hb.
Qed.

Lemma n2b_b2n b : n2b (b2n b) = b.
Proof.
  unfold n2b, b2n. rewrite N.mod_small by (pose proof (Byte.to_N_bounded b); lia).
  rewrite Byte.of_to_N. reflexivity.
Qed.

Lemma b2n_inj a b : b2n a = b2n b -> a = b.
Proof. intros H. rewrite <- (n2b_b2n a), <- (n2b_b2n b), H. reflexivity. Qed.

Lemma n2b_mod n : n2b (n mod 256) = n2b n.
Proof. unfold n2b. rewrite N.mod_mod by discriminate. reflexivity. Qed.

Lemma byte_eqb_eq a b : byte_eqb a b = true <-> a = b.
Proof. unfold byte_eqb. split; [apply Byte.byte_dec_bl | apply Byte.byte_dec_lb]. Qed.

Lemma byte_eqb_refl a : byte_eqb a a = true.
Proof. apply byte_eqb_eq; reflexivity. Qed.

Lemma byte_eqb_neq a b : byte_eqb a b = false <-> a <> b.
Proof.
  split; intros H.
  - intros ->. rewrite byte_eqb_refl in H. discriminate.
  - destruct (byte_eqb a b) eqn:E; [|reflexivity]. apply byte_eqb_eq in E. contradiction.
Qed.

Lemma byte_eqb_n a b : byte_eqb a b = (b2n a =? b2n b).
Proof.
  destruct (byte_eqb a b) eqn:E.
  - apply byte_eqb_eq in E; subst. symmetry. apply N.eqb_refl.
  - apply byte_eqb_neq in E. symmetry. apply N.eqb_neq. intros H. apply E, b2n_inj, H.
Qed.

Lemma bytes_eqb_eq a b : bytes_eqb a b = true <-> a = b.
Proof.
  revert b; induction a as [|x a IH]; intros [|y b]; cbn [bytes_eqb]; try (split; congruence).
  rewrite andb_true_iff, byte_eqb_eq, IH. split.
  - intros [-> ->]; reflexivity.
  - intros H; inversion H; auto.
Qed.

Lemma bytes_eqb_refl a : bytes_eqb a a = true.
Proof. apply bytes_eqb_eq; reflexivity. Qed.

Lemma bytes_eqb_neq a b : bytes_eqb a b = false <-> a <> b.
Proof.
  split; intros H.
  - intros ->. rewrite bytes_eqb_refl in H. discriminate.
  - destruct (bytes_eqb a b) eqn:E; [|reflexivity]. apply bytes_eqb_eq in E. contradiction.
Qed.

Definition bytes_dec (a b : bytes) : {a = b} + {a <> b}.
Proof.
  destruct (bytes_eqb a b) eqn:E.
  - left. apply bytes_eqb_eq, E.
  - right. apply bytes_eqb_neq, E.
Defined.

(* ------------------------------------------------------------------ little endian *)

Lemma pow256_0 : pow256 0 = 1. Proof. reflexivity. Qed.

Lemma pow256_S k : pow256 (S k) = 256 * pow256 k.
Proof. unfold pow256. rewrite Nat2N.inj_succ, N.pow_succ_r'. reflexivity. Qed.

Lemma pow256_pos k : 0 < pow256 k.
Proof.
  unfold pow256. apply N.neq_0_lt_0. apply N.pow_nonzero. discriminate.
Qed.

Lemma pow256_add a b : pow256 (a + b) = pow256 a * pow256 b.
Proof. unfold pow256. rewrite Nat2N.inj_add. apply N.pow_add_r. Qed.

Lemma le_length k n : length (le k n) = k.
Proof. revert n; induction k as [|k IH]; intros n; cbn [le length]; [reflexivity|]. rewrite IH; reflexivity. Qed.

Lemma le_val_bound l : le_val l < pow256 (length l).
Proof.
  induction l as [|b l IH]; cbn [le_val length].
  - rewrite pow256_0; lia.
  - rewrite pow256_S. pose proof (b2n_lt b). lia.
Qed.

Lemma le_val_le k n : le_val (le k n) = n mod pow256 k.
Proof.
  revert n; induction k as [|k IH]; intros n; cbn [le le_val].
  - rewrite pow256_0. rewrite N.mod_1_r. reflexivity.
  - rewrite IH, b2n_n2b, pow256_S.
    pose proof (pow256_pos k) as Hp.
    rewrite N.mod_mul_r; [reflexivity | discriminate | lia].
Qed.

Lemma le_le_val l : le (length l) (le_val l) = l.
Proof.
  induction l as [|b l IH]; cbn [le length le_val]; [reflexivity|].
  pose proof (b2n_lt b) as Hb.
  replace (b2n b + 256 * le_val l) with (b2n b + le_val l * 256) by lia.
  f_equal.
  - rewrite <- n2b_mod, N.mod_add, N.mod_small by lia. apply n2b_b2n.
  - rewrite N.div_add, N.div_small by lia. rewrite N.add_0_l. exact IH.
Qed.

Lemma le_inj k a b : a < pow256 k -> b < pow256 k -> le k a = le k b -> a = b.
Proof.
  intros Ha Hb H. apply (f_equal le_val) in H. rewrite !le_val_le, !N.mod_small in H; assumption.
Qed.

Lemma le_val_inj a b : length a = length b -> le_val a = le_val b -> a = b.
Proof. intros Hl H. rewrite <- (le_le_val a), <- (le_le_val b), Hl, H. reflexivity. Qed.

Lemma le_val_app a b : le_val (a ++ b) = le_val a + pow256 (length a) * le_val b.
Proof.
  induction a as [|x a IH]; cbn [app le_val length].
  - rewrite pow256_0; lia.
  - rewrite IH, pow256_S. lia.
Qed.

Lemma be_length k n : length (be k n) = k.
Proof. unfold be. rewrite rev_length. apply le_length. Qed.

Lemma be_val_be k n : be_val (be k n) = n mod pow256 k.
Proof. unfold be_val, be. rewrite rev_involutive. apply le_val_le. Qed.

Lemma be_be_val l : be (length l) (be_val l) = l.
Proof.
  unfold be, be_val. rewrite <- (rev_length l) at 1. rewrite le_le_val. apply rev_involutive.
Qed.

Lemma be_val_bound l : be_val l < pow256 (length l).
Proof. unfold be_val. rewrite <- (rev_length l). apply le_val_bound. Qed.

Lemma be_val_inj a b : length a = length b -> be_val a = be_val b -> a = b.
Proof. intros Hl H. rewrite <- (be_be_val a), <- (be_be_val b), Hl, H. reflexivity. Qed.

(* ------------------------------------------------------------------ two's complement *)

Definition srange (k : nat) (z : Z) : Prop :=
  (- Z.of_N (pow256 k) <= 2 * z < Z.of_N (pow256 k))%Z.

Lemma sle_length k z : length (sle k z) = k.
Proof. apply le_length. Qed.

Lemma sle_val_sle k z : srange k z -> sle_val (sle k z) = z.
Proof.
  unfold srange, sle_val, sle. intros H.
  pose proof (pow256_pos k) as Hp.
  rewrite le_length, le_val_le.
  set (m := Z.of_N (pow256 k)) in *.
  assert (Hm : (0 < m)%Z) by lia.
  pose proof (Z.mod_pos_bound z m Hm) as Hz.
  rewrite N.mod_small by lia.
  rewrite Z2N.id by lia.
  destruct (Z_lt_le_dec z 0) as [Hneg|Hpos].
  - assert (E : (z mod m = z + m)%Z).
    { replace z with ((z + m) + (-1) * m)%Z at 1 by lia. rewrite Z.mod_add by lia. apply Z.mod_small. lia. }
    rewrite E. destruct (2 * (z + m) <? m)%Z eqn:C; lia.
  - rewrite Z.mod_small by lia. destruct (2 * z <? m)%Z eqn:C; lia.
Qed.

Lemma sle_val_range l : srange (length l) (sle_val l).
Proof.
  unfold srange, sle_val. pose proof (le_val_bound l) as H.
  destruct (2 * Z.of_N (le_val l) <? Z.of_N (pow256 (length l)))%Z eqn:C; lia.
Qed.

Lemma sle_sle_val l : sle (length l) (sle_val l) = l.
Proof.
  unfold sle, sle_val. pose proof (le_val_bound l) as H.
  set (m := pow256 (length l)) in *.
  assert (E : Z.to_N
     ((if (2 * Z.of_N (le_val l) <? Z.of_N m)%Z then Z.of_N (le_val l)
       else (Z.of_N (le_val l) - Z.of_N m)) mod Z.of_N m)%Z = le_val l).
  { destruct (2 * Z.of_N (le_val l) <? Z.of_N m)%Z eqn:C.
    - rewrite Z.mod_small by lia. lia.
    - replace (Z.of_N (le_val l) - Z.of_N m)%Z with (Z.of_N (le_val l) + (-1) * Z.of_N m)%Z by lia.
      rewrite Z.mod_add by lia. rewrite Z.mod_small by lia. lia. }
  rewrite E. apply le_le_val.
Qed.

(* ------------------------------------------------------------------ lists *)

Lemma firstn_app_exact {A} (a b : list A) : firstn (length a) (a ++ b) = a.
Proof. rewrite firstn_app, Nat.sub_diag, firstn_all. cbn [firstn]. apply app_nil_r. Qed.

Lemma skipn_app_exact {A} (a b : list A) : skipn (length a) (a ++ b) = b.
Proof. rewrite skipn_app, Nat.sub_diag, skipn_all. reflexivity. Qed.

Lemma app_inj_len {A} (a b c d : list A) : length a = length c -> a ++ b = c ++ d -> a = c /\ b = d.
Proof.
  revert c; induction a as [|x a IH]; intros [|y c]; cbn [length app]; intros Hl H; try discriminate.
  - auto.
  - inversion H; subst. destruct (IH c) as [-> ->]; auto.
Qed.

Lemma app_inj_len_r {A} (a b c d : list A) : length b = length d -> a ++ b = c ++ d -> a = c /\ b = d.
Proof.
  intros Hl H. apply app_inj_len; [|exact H].
  apply (f_equal (@length A)) in H. rewrite !app_length in H. lia.
Qed.

(* ------------------------------------------------------------------ readers / codecs *)

(* the facts every wire codec below satisfies *)
Record codec {A} (wf : A -> Prop) (w : A -> bytes) (r : reader A) : Prop := {
  c_rt : forall a rest, wf a -> r (w a ++ rest) = Some (a, rest);
  c_ext : forall b a rest t, r b = Some (a, rest) -> r (b ++ t) = Some (a, rest ++ t);
  c_rw : forall b a rest, r b = Some (a, rest) ->
         wf a /\ exists c, b = c ++ rest /\ (length (w a) <= length c)%nat /\
                           (length (w a) = length c -> w a = c) }.

Lemma rd_bytes_app n a rest : len a = n -> rd_bytes n (a ++ rest) = Some (a, rest).
Proof.
  unfold rd_bytes, len. intros H. rewrite app_length.
  destruct (N.of_nat (length a + length rest) <? n) eqn:C; [lia|].
  replace (N.to_nat n) with (length a) by lia.
  rewrite firstn_app_exact, skipn_app_exact. reflexivity.
Qed.

Lemma rd_bytes_inv n b a rest : rd_bytes n b = Some (a, rest) -> b = a ++ rest /\ len a = n.
Proof.
  unfold rd_bytes, len. destruct (N.of_nat (length b) <? n) eqn:C; [discriminate|].
  intros H; inversion H; subst. split.
  - symmetry; apply firstn_skipn.
  - rewrite firstn_length. lia.
Qed.

Lemma rd_bytes_ext n b a rest t : rd_bytes n b = Some (a, rest) -> rd_bytes n (b ++ t) = Some (a, rest ++ t).
Proof.
  intros H. apply rd_bytes_inv in H as [-> Hl]. rewrite <- app_assoc. apply rd_bytes_app, Hl.
Qed.

Lemma codec_bytes n : codec (fun a => len a = n) (fun a => a) (rd_bytes n).
Proof.
  constructor.
  - intros a rest H. apply rd_bytes_app, H.
  - intros b a rest t. apply rd_bytes_ext.
  - intros b a rest H. apply rd_bytes_inv in H as [-> Hl]. split; [exact Hl|].
    exists a. auto.
Qed.

Lemma codec_le k : codec (fun n => n < pow256 k) (le k) (rd_le k).
Proof.
  constructor.
  - intros a rest H. unfold rd_le, rd_bind. rewrite rd_bytes_app.
    + unfold rd_ret. rewrite le_val_le, N.mod_small by exact H. reflexivity.
    + unfold len. rewrite le_length. reflexivity.
  - intros b a rest t. unfold rd_le, rd_bind. destruct (rd_bytes _ b) as [[x r']|] eqn:E; [|discriminate].
    rewrite (rd_bytes_ext _ _ _ _ t E). unfold rd_ret. congruence.
  - intros b a rest. unfold rd_le, rd_bind. destruct (rd_bytes _ b) as [[x r']|] eqn:E; [|discriminate].
    apply rd_bytes_inv in E as [-> Hl]. unfold rd_ret. intros H; inversion H; subst.
    unfold len in Hl. assert (length x = k) by lia. subst k. split.
    + apply le_val_bound.
    + exists x. rewrite le_le_val. auto.
Qed.

Lemma codec_sle k : codec (srange k) (sle k) (rd_sle k).
Proof.
  constructor.
  - intros a rest H. unfold rd_sle, rd_bind. rewrite rd_bytes_app.
    + unfold rd_ret. rewrite sle_val_sle by exact H. reflexivity.
    + unfold len. rewrite sle_length. reflexivity.
  - intros b a rest t. unfold rd_sle, rd_bind. destruct (rd_bytes _ b) as [[x r']|] eqn:E; [|discriminate].
    rewrite (rd_bytes_ext _ _ _ _ t E). unfold rd_ret. congruence.
  - intros b a rest. unfold rd_sle, rd_bind. destruct (rd_bytes _ b) as [[x r']|] eqn:E; [|discriminate].
    apply rd_bytes_inv in E as [-> Hl]. unfold rd_ret. intros H; inversion H; subst.
    unfold len in Hl. assert (length x = k) by lia. subst k. split.
    + apply sle_val_range.
    + exists x. rewrite sle_sle_val. auto.
Qed.

(* pairs of codecs, the second reader run after the first *)
Lemma codec_bind {A B C} (wfa : A -> Prop) wa ra (wfb : B -> Prop) wb rb
      (mk : A -> B -> C) (p1 : C -> A) (p2 : C -> B) :
  (forall a b, p1 (mk a b) = a) -> (forall a b, p2 (mk a b) = b) -> (forall c, mk (p1 c) (p2 c) = c) ->
  codec wfa wa ra -> codec wfb wb rb ->
  codec (fun c => wfa (p1 c) /\ wfb (p2 c)) (fun c => wa (p1 c) ++ wb (p2 c))
        (do a <- ra; do b <- rb; rd_ret (mk a b)).
Proof.
  intros P1 P2 E Ha Hb. constructor.
  - intros c rest [W1 W2]. unfold rd_bind. rewrite <- app_assoc.
    rewrite (c_rt _ _ _ Ha) by exact W1. rewrite (c_rt _ _ _ Hb) by exact W2.
    unfold rd_ret. rewrite E. reflexivity.
  - intros s c rest t. unfold rd_bind.
    destruct (ra s) as [[a s1]|] eqn:Ea; [|discriminate].
    rewrite (c_ext _ _ _ Ha _ _ _ t Ea).
    destruct (rb s1) as [[b s2]|] eqn:Eb; [|discriminate].
    rewrite (c_ext _ _ _ Hb _ _ _ t Eb). unfold rd_ret. congruence.
  - intros s c rest. unfold rd_bind.
    destruct (ra s) as [[a s1]|] eqn:Ea; [|discriminate].
    destruct (rb s1) as [[b s2]|] eqn:Eb; [|discriminate].
    unfold rd_ret. intros H; inversion H; subst. rewrite P1, P2.
    destruct (c_rw _ _ _ Ha _ _ _ Ea) as (Wa & ca & -> & La & Qa).
    destruct (c_rw _ _ _ Hb _ _ _ Eb) as (Wb & cb & -> & Lb & Qb).
    split; [auto|]. exists (ca ++ cb). rewrite !app_length. split; [apply app_assoc|]. split; [lia|].
    intros L. rewrite Qa, Qb by lia. reflexivity.
Qed.

(* change of representation *)
Lemma codec_iff {A} (wf wf' : A -> Prop) w w' r r' :
  (forall a, wf a <-> wf' a) -> (forall a, w a = w' a) -> (forall b, r b = r' b) ->
  codec wf w r -> codec wf' w' r'.
Proof.
  intros Hwf Hw Hr H. constructor.
  - intros a rest W. rewrite <- Hr, <- Hw. apply (c_rt _ _ _ H). apply Hwf, W.
  - intros b a rest t. rewrite <- !Hr. apply (c_ext _ _ _ H).
  - intros b a rest. rewrite <- Hr. intros E. destruct (c_rw _ _ _ H _ _ _ E) as (W & c & P).
    split; [apply Hwf, W|]. exists c. rewrite <- Hw. exact P.
Qed.

Lemma codec_inj {A} (wf : A -> Prop) w r a b s t :
  codec wf w r -> wf a -> wf b -> w a ++ s = w b ++ t -> a = b /\ s = t.
Proof.
  intros H Wa Wb E. pose proof (c_rt _ _ _ H a s Wa) as Ra. rewrite E in Ra.
  rewrite (c_rt _ _ _ H b t Wb) in Ra. inversion Ra; auto.
Qed.

Lemma codec_prefix {A} (wf : A -> Prop) w r a p q :
  codec wf w r -> wf a -> w a = p ++ q -> q <> [] -> r p = None.
Proof.
  intros H W E Hq. destruct (r p) as [[a' rest]|] eqn:R; [|reflexivity]. exfalso.
  pose proof (c_ext _ _ _ H _ _ _ q R) as R'. rewrite <- E in R'.
  pose proof (c_rt _ _ _ H a [] W) as R2. rewrite app_nil_r in R2. rewrite R2 in R'. inversion R' as [[Ha Hr]].
  symmetry in Hr. apply app_eq_nil in Hr as [_ ->]. contradiction.
Qed.
