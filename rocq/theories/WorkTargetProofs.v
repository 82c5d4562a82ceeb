(* Compact targets: canonical forms, greatest lower approximations, targets from difficulties. *)
From Verif Require Import Base BaseProofs WireModel MerkleModel WorkModel WorkSpec WorkProofs.
From Coq Require Import ZifyBool ZifyNat ZifyN.
Ltac Zify.zify_post_hook ::= Z.div_mod_to_equations.
Local Open Scope N_scope.

(* the shape of a non-zero target *)
Lemma expand_shape c : expand c <> 0 -> negative c = false /\ expand c = magnitude c /\ magnitude c < 2 ^ 256.
Proof.
  rewrite expand_exact. destruct (negative c); cbn [negb andb]; [congruence|]. destruct (N.ltb_spec (magnitude c) (2 ^ 256)) as [X|X]; [|congruence].
  intros _. split; [reflexivity|split; [reflexivity|exact X]].
Qed.
Lemma magnitude_cases c : magnitude c < 2 ^ 23 \/ (4 <= exponent_of c /\ magnitude c = mantissa_of c * 256 ^ (exponent_of c - 3)).
Proof.
  destruct (N.le_gt_cases (exponent_of c) 3) as [L|L].
  - left. rewrite magnitude_small by exact L. apply N.le_lt_trans with (mantissa_of c); [|apply mantissa_lt].
    apply N.div_le_upper_bound; [apply p256_ne|]. pose proof (p256_pos (3 - exponent_of c)). clear - H. nia.
  - right. split; [lia|]. apply magnitude_big. lia.
Qed.

Lemma truncated_mult n d q : q * 256 ^ d <= n -> q * 256 ^ d <= truncated n d.
Proof. intros L. unfold truncated. apply N.mul_le_mono_r. apply N.div_le_lower_bound; [apply p256_ne|]. rewrite N.mul_comm. exact L. Qed.

Lemma dropped_cases n k : 3 <= k -> (128 * 256 ^ (k - 1) <= n /\ dropped n k = k - 2) \/ (n < 128 * 256 ^ (k - 1) /\ dropped n k = k - 3).
Proof. intros K. unfold dropped. destruct (N.leb_spec (128 * 256 ^ (k - 1)) n); [left|right]; split; auto. Qed.

Lemma truncated_big n k : digit_count n k -> 3 <= k -> 128 * 256 ^ (dropped n k + 1) <= truncated n (dropped n k).
Proof.
  intros [D _] K. destruct (dropped_cases n k K) as [[L ->]|[L ->]].
  - replace (128 * 256 ^ (k - 2 + 1)) with (128 * 256 * 256 ^ (k - 2)).
    + apply truncated_mult. replace (128 * 256 * 256 ^ (k - 2)) with (128 * 256 ^ (k - 1)); [exact L|].
      replace (k - 1) with (N.succ (k - 2)) by lia. rewrite N.pow_succ_r'. lia.
    + rewrite N.pow_add_r. change (256 ^ 1) with 256. lia.
  - apply N.le_trans with (65536 * 256 ^ (k - 3)).
    + rewrite N.pow_add_r. change (256 ^ 1) with 256. lia.
    + apply truncated_mult. replace (65536 * 256 ^ (k - 3)) with (256 ^ (k - 1)); [exact D|].
      replace (k - 1) with (N.succ (N.succ (k - 3))) by lia. rewrite !N.pow_succ_r'. lia.
Qed.

(* no representable number lies between the encoding and the number encoded *)
Lemma compact_greatest junk n c : 2 ^ 24 <= n < 2 ^ 256 -> expand c <= n -> expand c <= expand (compact_of junk n).
Proof.
  intros B L. destruct (digits_of n B) as (k & D & K). rewrite (compact_of_exact junk n k D K).
  destruct (N.eq_dec (expand c) 0) as [->|Z]; [apply N.le_0_l|].
  destruct (expand_shape c Z) as (_ & E & _). rewrite E in *.
  pose proof (truncated_big n k D ltac:(lia)) as T. set (d := dropped n k) in *.
  pose proof (p256_pos d) as P. pose proof (p256_le 1 (d + 1) ltac:(lia)) as P1. change (256 ^ 1) with 256 in P1.
  destruct (magnitude_cases c) as [S|[X M]].
  - apply N.le_trans with (128 * 256 ^ (d + 1)); [|exact T].
    assert (1 <= d) by (unfold d; destruct (dropped_cases n k ltac:(lia)) as [[_ ->]|[_ ->]]; lia).
    pose proof (p256_le 2 (d + 1) ltac:(lia)) as P2. change (256 ^ 2) with 65536 in P2. change (2 ^ 23) with 8388608 in S. clear - S P2. lia.
  - rewrite M in *. destruct (N.le_gt_cases d (exponent_of c - 3)) as [Y|Y].
    + replace (exponent_of c - 3) with ((exponent_of c - 3 - d) + d) in * by lia. rewrite N.pow_add_r, N.mul_assoc in *. apply truncated_mult. exact L.
    + apply N.le_trans with (128 * 256 ^ (d + 1)); [|exact T].
      apply N.le_trans with (2 ^ 23 * 256 ^ (d - 1)).
      * apply N.mul_le_mono; [apply N.lt_le_incl; apply mantissa_lt|]. apply p256_le. lia.
      * replace (d + 1) with (N.succ (N.succ (d - 1))) by lia. rewrite !N.pow_succ_r'. change (2 ^ 23) with (128 * 65536). clear. lia.
Qed.

Lemma compact_le junk n : n < 2 ^ 256 -> expand (compact_of junk n) <= n.
Proof.
  intros B. destruct (N.lt_ge_cases n (2 ^ 24)) as [L|L]; [rewrite compact_of_small by exact L; apply N.le_0_l|].
  destruct (digits_of n (conj L B)) as (k & D & K). rewrite (compact_of_exact junk n k D K). apply truncated_le.
Qed.
Lemma compact_monotone j1 j2 n m : n <= m -> m < 2 ^ 256 -> expand (compact_of j1 n) <= expand (compact_of j2 m).
Proof.
  intros L B. destruct (N.lt_ge_cases n (2 ^ 24)) as [X|X]; [rewrite compact_of_small by exact X; apply N.le_0_l|].
  apply compact_greatest; [lia|]. apply N.le_trans with n; [apply compact_le; lia|exact L].
Qed.
Lemma compact_again junk c : 2 ^ 24 <= expand c -> expand (compact_of junk (expand c)) = expand c.
Proof.
  intros L. pose proof (expand_lt c) as B. apply N.le_antisymm; [apply compact_le; exact B|].
  apply compact_greatest; [split; assumption|apply N.le_refl].
Qed.
Lemma compact_max_greatest c : expand c <= expand compact_max.
Proof.
  replace (expand compact_max) with (expand (compact_of x00 (2 ^ 256 - 1))) by (vm_compute; reflexivity).
  apply compact_greatest; [split; [vm_compute; discriminate|reflexivity]|]. pose proof (expand_lt c). lia.
Qed.
Lemma compact_loss junk n k : digit_count n k -> 4 <= k <= 32 -> n - expand (compact_of junk n) < 256 ^ (k - 2).
Proof.
  intros D K. rewrite (compact_of_exact junk n k D K).
  assert (n - truncated n (dropped n k) < 256 ^ dropped n k).
  { unfold truncated. pose proof (N.div_mod n (256 ^ dropped n k) (p256_ne _)) as E. pose proof (N.mod_lt n (256 ^ dropped n k) (p256_ne _)) as M.
    rewrite (N.mul_comm (n / _)). generalize dependent (256 ^ dropped n k * (n / 256 ^ dropped n k)). generalize dependent (n mod 256 ^ dropped n k).
    intros. clear - E M. lia. }
  apply N.lt_le_trans with (256 ^ dropped n k); [exact H|]. apply p256_le.
  destruct (dropped_cases n k ltac:(lia)) as [[_ ->]|[_ ->]]; lia.
Qed.

(* ---- canonical forms ---- *)
Lemma compact_of_normal junk n : 2 ^ 24 <= n < 2 ^ 256 -> normal (compact_of junk n).
Proof.
  intros B. destruct (digits_of n B) as (k & D & K). pose proof (compact_of_exact junk n k D K) as X.
  pose proof (expand_lt (compact_of junk n)) as Y.
  assert (Z : 2 ^ 24 <= expand (compact_of junk n)).
  { replace (2 ^ 24) with (expand (compact_of x00 (2 ^ 24))) by (vm_compute; reflexivity). apply compact_monotone; apply B. }
  destruct (expand_shape (compact_of junk n)) as (E1 & E2 & E3); [intros E; rewrite E in Z; vm_compute in Z; congruence|].
  destruct (compact_of_encode junk n k D K) as (e & ds & C & L & _ & _ & R).
  unfold normal. rewrite <- E2. split; [exact E1|]. split; [|split; assumption].
  rewrite C. destruct (low_parts _ _ (encode_low e ds L) (proj2 R)) as [-> _]. apply R.
Qed.

Lemma base_unique m a m' a' : 2 ^ 15 <= m < 2 ^ 23 -> 2 ^ 15 <= m' < 2 ^ 23 -> m * 256 ^ a = m' * 256 ^ a' -> a = a' /\ m = m'.
Proof.
  change (2 ^ 15) with 32768. change (2 ^ 23) with 8388608. intros A B E.
  assert (W : forall m a m' a', 32768 <= m < 8388608 -> 32768 <= m' < 8388608 -> m * 256 ^ a = m' * 256 ^ a' -> a <= a').
  { clear. intros m a m' a' A B E. destruct (N.le_gt_cases a a') as [X|X]; [exact X|exfalso].
    replace a with (N.succ (a - a' - 1) + a') in E by lia. rewrite N.pow_add_r, N.mul_assoc in E. apply N.mul_cancel_r in E; [|apply p256_ne].
    rewrite N.pow_succ_r' in E. pose proof (p256_pos (a - a' - 1)). clear X. nia. }
  assert (a = a') by (apply N.le_antisymm; [apply (W m a m' a')|apply (W m' a' m a)]; auto). subst a'. split; [reflexivity|].
  apply N.mul_cancel_r in E; [exact E|apply p256_ne].
Qed.

Lemma normal_parts c : c = exponent_of c * 2 ^ 24 + N.b2n (negative c) * 2 ^ 23 + mantissa_of c.
Proof.
  unfold exponent_of, negative, mantissa_of. change (2 ^ 24) with 16777216. change (2 ^ 23) with 8388608.
  pose proof (N.div2_odd (c / 8388608)) as D. rewrite N.div2_div in D. destruct (N.odd (c / 8388608)); cbn [N.b2n] in *; lia.
Qed.

Lemma compact_canonical junk c : normal c -> compact_of junk (expand c) = c.
Proof.
  intros (E1 & M1 & M2 & M3).
  assert (X : expand c = magnitude c) by (rewrite expand_exact, E1; apply N.ltb_lt in M3; rewrite M3; reflexivity).
  rewrite X. pose proof (compact_of_normal junk (magnitude c) (conj M2 M3)) as (F1 & F2 & F3 & F4).
  assert (Y : magnitude (compact_of junk (magnitude c)) = magnitude c).
  { rewrite <- X at 2. rewrite <- (compact_again junk c) by (rewrite X; exact M2). rewrite X. symmetry.
    rewrite expand_exact, F1. apply N.ltb_lt in F4. rewrite F4. reflexivity. }
  set (c' := compact_of junk (magnitude c)) in *.
  assert (G : forall x, 2 ^ 24 <= magnitude x -> magnitude x = mantissa_of x * 256 ^ (exponent_of x - 3) /\ 4 <= exponent_of x).
  { intros x L. destruct (magnitude_cases x) as [S|[A1 A2]]; [|split; assumption]. change (2 ^ 24) with 16777216 in L. change (2 ^ 23) with 8388608 in S. lia. }
  destruct (G c M2) as [G1 G2]. destruct (G c' F3) as [G3 G4]. rewrite G1, G3 in Y.
  apply base_unique in Y; [|split; [exact F2|apply mantissa_lt]|split; [exact M1|apply mantissa_lt]].
  rewrite (normal_parts c'), (normal_parts c), E1, F1. destruct Y as [Y1 Y2]. rewrite Y2. do 3 f_equal. lia.
Qed.

(* ---- from a quotient ---- *)
Lemma scale_loop_spec fuel : forall p s e s' e', scale_loop fuel p s e = Some (s', e') ->
  exists j, s' = s + 8 * j /\ e' = e + j /\ p <= 2 ^ s' /\ (j = 0 \/ 2 ^ (s' - 8) < p).
Proof.
  induction fuel as [|f IH]; intros p s e s' e'; cbn [scale_loop]; destruct (N.ltb_spec (2 ^ s) p) as [L|L].
  - discriminate.
  - intros E. assert (s' = s /\ e' = e) as [-> ->] by (split; congruence). exists 0. split; [lia|]. split; [lia|]. split; [exact L|left; reflexivity].
  - intros E. destruct (IH _ _ _ _ _ E) as (j & -> & -> & X & Y). exists (j + 1). split; [lia|]. split; [lia|]. split; [exact X|right].
    destruct Y as [-> |Y]; [|exact Y]. replace (s + 8 + 8 * 0 - 8) with s by lia. exact L.
  - intros E. assert (s' = s /\ e' = e) as [-> ->] by (split; congruence). exists 0. split; [lia|]. split; [lia|]. split; [exact L|left; reflexivity].
Qed.
Lemma scale_loop_ends fuel : forall p s e, p <= 2 ^ (s + 8 * N.of_nat fuel) -> scale_loop fuel p s e <> None.
Proof.
  induction fuel as [|f IH]; intros p s e L; cbn [scale_loop]; destruct (N.ltb_spec (2 ^ s) p) as [X|X]; try discriminate.
  - replace (s + 8 * N.of_nat 0) with s in L by lia. lia.
  - apply IH. replace (s + 8 + 8 * N.of_nat f) with (s + 8 * N.of_nat (S f)) by lia. exact L.
Qed.
Lemma scale_loop_total p s e : exists s' e', scale_loop (N.to_nat (N.size p)) p s e = Some (s', e').
Proof.
  destruct (scale_loop (N.to_nat (N.size p)) p s e) as [[s' e']|] eqn:E; [eexists; eexists; reflexivity|].
  exfalso. revert E. apply scale_loop_ends. pose proof (N.size_gt p) as X. apply N.le_trans with (2 ^ N.size p); [lia|].
  apply N.pow_le_mono_r; [discriminate|]. lia.
Qed.
Lemma scale_exact p s : exists e, scale_of p s e /\ scale_loop (N.to_nat (N.size p)) p s 0 = Some (s + 8 * e, e).
Proof.
  destruct (scale_loop_total p s 0) as (s' & e' & E). destruct (scale_loop_spec _ _ _ _ _ _ E) as (j & E1 & E2 & L & M).
  rewrite N.add_0_l in E2. subst s' e'. exists j. split; [|exact E]. unfold scale_of.
  replace (2 ^ s * 256 ^ j) with (2 ^ (s + 8 * j)) by (rewrite N.pow_add_r, p256; reflexivity). split; [exact L|].
  destruct (N.eq_dec j 0) as [Z|Z]; [left; exact Z|right]. destruct M as [M|M]; [contradiction|].
  replace (2 ^ s * 256 ^ (j - 1)) with (2 ^ (s + 8 * j - 8)); [exact M|].
  rewrite <- p256, <- N.pow_add_r. f_equal. lia.
Qed.

Lemma mod_div_digit p w : w <> 0 -> (p mod (w * 256)) / w = (p / w) mod 256.
Proof.
  intros Z. rewrite N.mod_mul_r by (try discriminate; exact Z). rewrite N.mul_comm, N.div_add by exact Z.
  rewrite (N.div_small (p mod w)) by (apply N.mod_lt; exact Z). reflexivity.
Qed.

Lemma quotient_digits p s e : 3 <= e ->
  let T := 2 ^ (s + 8 * e) in let n := p / 2 ^ s in
  let d0 := p * 256 / T in let r0 := (p * 256) mod T in
  let d1 := r0 * 256 / T in let r1 := (r0 * 256) mod T in let d2 := r1 * 256 / T in
  d0 = n / 256 ^ (e - 1) /\ d1 = (n / 256 ^ (e - 2)) mod 256 /\ d2 = (n / 256 ^ (e - 3)) mod 256.
Proof.
  intros L. cbv zeta.
  assert (S0 : 2 ^ s <> 0) by (apply N.pow_nonzero; discriminate).
  set (W := 2 ^ s * 256 ^ (e - 3)).
  assert (W0 : W <> 0) by (apply N.neq_mul_0; split; [exact S0|apply p256_ne]).
  assert (EY : 2 ^ s * 256 ^ (e - 2) = W * 256) by (unfold W; replace (e - 2) with (N.succ (e - 3)) by lia; rewrite N.pow_succ_r'; clear; lia).
  assert (EX : 2 ^ s * 256 ^ (e - 1) = W * 256 * 256) by (unfold W; replace (e - 1) with (N.succ (N.succ (e - 3))) by lia; rewrite !N.pow_succ_r'; clear; lia).
  assert (ET : 2 ^ (s + 8 * e) = W * 256 * 256 * 256).
  { rewrite N.pow_add_r, p256. unfold W. replace e with (N.succ (N.succ (N.succ (e - 3)))) at 1 by lia. rewrite !N.pow_succ_r'. clear. lia. }
  assert (Y0 : W * 256 <> 0) by (apply N.neq_mul_0; split; [exact W0|discriminate]).
  assert (X0 : W * 256 * 256 <> 0) by (apply N.neq_mul_0; split; [exact Y0|discriminate]).
  assert (T0 : W * 256 * 256 * 256 <> 0) by (apply N.neq_mul_0; split; [exact X0|discriminate]).
  rewrite !N.div_div by (try exact S0; apply p256_ne). rewrite EX, EY. fold W. rewrite ET.
  assert (D0 : p * 256 / (W * 256 * 256 * 256) = p / (W * 256 * 256)) by (apply N.div_mul_cancel_r; [exact X0|discriminate]).
  assert (R0 : (p * 256) mod (W * 256 * 256 * 256) = p mod (W * 256 * 256) * 256) by (apply N.mul_mod_distr_r; [exact X0|discriminate]).
  rewrite D0, R0.
  assert (D1 : p mod (W * 256 * 256) * 256 * 256 / (W * 256 * 256 * 256) = (p / (W * 256)) mod 256).
  { rewrite !N.div_mul_cancel_r by (try discriminate; assumption). apply mod_div_digit. exact Y0. }
  assert (R1 : (p mod (W * 256 * 256) * 256 * 256) mod (W * 256 * 256 * 256) = p mod (W * 256) * 256 * 256).
  { rewrite !N.mul_mod_distr_r by (try discriminate; assumption). do 2 f_equal. rewrite (N.mod_mul_r p (W * 256) 256) by (try discriminate; assumption).
    rewrite (N.mul_comm (W * 256) (_ mod 256)), N.mod_add by exact Y0. apply N.mod_mod. exact Y0. }
  rewrite D1, R1. split; [reflexivity|]. split; [reflexivity|].
  rewrite !N.div_mul_cancel_r by (try discriminate; assumption). apply mod_div_digit. exact W0.
Qed.

Lemma n2b_idem_val n : n < 256 -> b2n (n2b n) = n.
Proof. intros. rewrite b2n_n2b. apply N.mod_small. assumption. Qed.

Lemma encode_inj e ds e' ds' : length ds = length ds' -> b2n e = b2n e' -> le_val ds = le_val ds' -> encode e ds = encode e' ds'.
Proof.
  intros L E V. unfold encode. apply b2n_inj in E. subst e'. assert (ds = ds') as -> ; [|reflexivity].
  rewrite <- (le_le_val ds), <- (le_le_val ds'), L, V. reflexivity.
Qed.

Lemma quotient_count p s e : scale_of p s e -> 1 <= e -> p <> 2 ^ s * 256 ^ e -> digit_count (p / 2 ^ s) e.
Proof.
  intros [L M] E Z. assert (S0 : 2 ^ s <> 0) by (apply N.pow_nonzero; discriminate). split.
  - apply N.div_le_lower_bound; [exact S0|]. destruct M as [M|M]; [clear - M E; lia|]. apply N.lt_le_incl. exact M.
  - apply N.div_lt_upper_bound; [exact S0|]. clear - L Z. generalize dependent (2 ^ s * 256 ^ e). intros. lia.
Qed.

Lemma quotient_encode p s e : scale_of p s e -> 3 <= e <= 32 -> p <> 2 ^ s * 256 ^ e ->
  let n := p / 2 ^ s in
  exists x ds, compact_of_quotient p s = Some (encode x ds) /\ length ds = 3%nat /\ b2n x = dropped n e + 3 /\
    le_val ds = n / 256 ^ dropped n e /\ 2 ^ 15 <= le_val ds < 2 ^ 23.
Proof.
  intros Sc E Z n. destruct (scale_exact p s) as (e' & Sc' & F).
  assert (e' = e) as ->.
  { assert (P : forall a b, a < b -> scale_of p s a -> scale_of p s b -> False).
    { clear. intros a b L [A1 _] [_ [B|B]]; [lia|]. assert (2 ^ s * 256 ^ a <= 2 ^ s * 256 ^ (b - 1)); [|lia]. apply N.mul_le_mono_l. apply p256_le. lia. }
    destruct (N.lt_trichotomy e' e) as [X|[X|X]]; [|exact X|]; exfalso; eapply P; eauto. }
  unfold compact_of_quotient. rewrite F.
  assert (N.ltb e 3 = false) as -> by (apply N.ltb_ge; lia). assert (N.ltb 32 e = false) as -> by (apply N.ltb_ge; lia).
  destruct (quotient_digits p s e ltac:(lia)) as (D0 & D1 & D2). cbv zeta. rewrite D2, D1, D0. clear D0 D1 D2. fold n.
  pose proof (quotient_count p s e Sc ltac:(lia) Z) as [C1 C2]. fold n in C1, C2. clear Sc Sc' F Z.
  assert (Q0 : n / 256 ^ (e - 1) < 256).
  { apply N.div_lt_upper_bound; [apply p256_ne|]. rewrite N.mul_comm, <- N.pow_succ_r'. replace (N.succ (e - 1)) with e by lia. exact C2. }
  assert (Q1 : 1 <= n / 256 ^ (e - 1)).
  { apply N.div_le_lower_bound; [apply p256_ne|]. rewrite N.mul_1_r. exact C1. }
  pose proof (quotient_digit n (e - 2)) as R1. assert (K1 : e - 2 + 1 = e - 1) by (clear - E; lia). rewrite K1 in R1.
  pose proof (quotient_digit n (e - 3)) as R2. assert (K2 : e - 3 + 1 = e - 2) by (clear - E; lia). rewrite K2 in R2.
  pose proof (N.mod_lt (n / 256 ^ (e - 2)) 256 ltac:(discriminate)) as T1.
  pose proof (N.mod_lt (n / 256 ^ (e - 3)) 256 ltac:(discriminate)) as T2.
  assert (C : (128 <=? n / 256 ^ (e - 1)) = (128 * 256 ^ (e - 1) <=? n)).
  { clear. destruct (N.leb_spec 128 (n / 256 ^ (e - 1))) as [X|X]; symmetry.
    - apply N.leb_le. rewrite N.mul_comm. apply N.le_trans with (256 ^ (e - 1) * (n / 256 ^ (e - 1))); [apply N.mul_le_mono_l; exact X|]. apply N.mul_div_le. apply p256_ne.
    - apply N.leb_gt. rewrite N.mul_comm. destruct (N.lt_ge_cases n (256 ^ (e - 1) * 128)) as [Y|Y]; [exact Y|].
      apply (N.div_le_lower_bound n (256 ^ (e - 1)) 128) in Y; [|apply p256_ne]. exfalso. apply (N.lt_irrefl 128). apply N.le_lt_trans with (n / 256 ^ (e - 1)); assumption. }
  change 0x80 with 128. unfold dropped. rewrite <- C. clear C C1 C2. change (2 ^ 15) with 32768. change (2 ^ 23) with 8388608. clearbody n.
  destruct (N.leb_spec 128 (n / 256 ^ (e - 1))) as [X|X].
  - eexists. eexists. split; [reflexivity|]. split; [reflexivity|]. split; [rewrite n2b_idem_val by (clear - E; lia); clear - E; lia|].
    cbn [le_val]. rewrite !n2b_idem_val by assumption. change (b2n x00) with 0. clear - X Q0 Q1 R1 T1.
    generalize dependent ((n / 256 ^ (e - 2)) mod 256). generalize dependent (n / 256 ^ (e - 2)). generalize dependent (n / 256 ^ (e - 1)). intros. split; lia.
  - eexists. eexists. split; [reflexivity|]. split; [reflexivity|]. split; [rewrite n2b_idem_val by (clear - E; lia); clear - E; lia|].
    cbn [le_val]. rewrite !n2b_idem_val by assumption. clear - X Q0 Q1 R1 R2 T1 T2.
    generalize dependent ((n / 256 ^ (e - 2)) mod 256). generalize dependent ((n / 256 ^ (e - 3)) mod 256).
    generalize dependent (n / 256 ^ (e - 3)). generalize dependent (n / 256 ^ (e - 2)). generalize dependent (n / 256 ^ (e - 1)). intros. split; lia.
Qed.

(* a quotient that is not a power of 256 *)
Lemma quotient_expand p s e : scale_of p s e -> 3 <= e <= 32 -> p <> 2 ^ s * 256 ^ e ->
  exists c, compact_of_quotient p s = Some c /\ expand c = truncated (p / 2 ^ s) (dropped (p / 2 ^ s) e).
Proof.
  intros Sc E Z. destruct (quotient_encode p s e Sc E Z) as (x & ds & -> & L & B & V & R). eexists. split; [reflexivity|].
  set (n := p / 2 ^ s) in *. rewrite encode_expand; [rewrite V, B; unfold truncated; do 2 f_equal; clear; lia|exact L|apply R| |rewrite B; clear; lia].
  rewrite V, B. replace (dropped n e + 3 - 3) with (dropped n e) by (clear; lia).
  apply N.le_lt_trans with n; [apply (truncated_le n (dropped n e))|]. pose proof (quotient_count p s e Sc ltac:(lia) Z) as [_ D]. fold n in D.
  apply N.lt_le_trans with (256 ^ e); [exact D|]. change (2 ^ 256) with (256 ^ 32). apply p256_le. lia.
Qed.
Lemma quotient_as_number junk p s e : scale_of p s e -> 4 <= e <= 32 -> p <> 2 ^ s * 256 ^ e ->
  compact_of_quotient p s = Some (compact_of junk (p / 2 ^ s)).
Proof.
  intros Sc E Z. destruct (quotient_encode p s e Sc ltac:(lia) Z) as (x & ds & -> & L & B & V & _).
  pose proof (quotient_count p s e Sc ltac:(lia) Z) as D.
  destruct (compact_of_encode junk _ e D E) as (x' & ds' & -> & L' & B' & V' & _). f_equal. apply encode_inj; congruence.
Qed.
(* powers of 256 *)
Lemma quotient_power s e : 3 <= e <= 32 -> exists c, compact_of_quotient (2 ^ s * 256 ^ e) s = Some c /\ expand c = 0.
Proof.
  intros E. destruct (scale_exact (2 ^ s * 256 ^ e) s) as (e' & Sc' & F).
  assert (P0 : 0 < 2 ^ s) by (apply N.neq_0_lt_0; apply N.pow_nonzero; discriminate).
  assert (e' = e) as ->.
  { destruct Sc' as [A B]. apply N.mul_le_mono_pos_l in A; [|exact P0]. apply N.pow_le_mono_r_iff in A; [|reflexivity].
    destruct B as [B|B]; [lia|]. apply N.mul_lt_mono_pos_l in B; [|exact P0]. apply N.pow_lt_mono_r_iff in B; [|reflexivity]. lia. }
  unfold compact_of_quotient. rewrite F.
  assert (N.ltb e 3 = false) as -> by (apply N.ltb_ge; lia). assert (N.ltb 32 e = false) as -> by (apply N.ltb_ge; lia).
  replace (2 ^ s * 256 ^ e) with (2 ^ (s + 8 * e)) by (rewrite N.pow_add_r, p256; reflexivity).
  set (T := 2 ^ (s + 8 * e)). assert (T0 : T <> 0) by (apply N.pow_nonzero; discriminate). cbv zeta.
  assert (D0 : T * 256 / T = 256) by (rewrite N.mul_comm; apply N.div_mul; exact T0).
  assert (R0 : (T * 256) mod T = 0) by (rewrite N.mul_comm; apply N.mod_mul; exact T0).
  rewrite D0, R0. rewrite N.mul_0_l, N.div_0_l by exact T0. change (0x80 <=? 256) with true. eexists. split; [reflexivity|].
  change (n2b 0) with x00. change (n2b 256) with x00. rewrite expand_exact. unfold magnitude.
  destruct (low_parts (encode (n2b (e + 1)) [x00; x00; x00]) 0 (encode_low _ [x00; x00; x00] eq_refl) eq_refl) as [-> _].
  rewrite N.mul_0_l. rewrite N.div_0_l by discriminate. destruct (negb _ && _); reflexivity.
Qed.
Lemma scale_unique p s a b : scale_of p s a -> scale_of p s b -> a = b.
Proof.
  assert (P : forall a b, a < b -> scale_of p s a -> scale_of p s b -> False).
  { clear. intros a b L [A1 _] [_ [B|B]]; [lia|]. assert (2 ^ s * 256 ^ a <= 2 ^ s * 256 ^ (b - 1)); [|lia]. apply N.mul_le_mono_l. apply p256_le. lia. }
  intros A B. destruct (N.lt_trichotomy a b) as [X|[X|X]]; [|exact X|]; exfalso; eapply P; eauto.
Qed.
Lemma quotient_low p s : p <= 2 ^ s * 256 ^ 2 -> compact_of_quotient p s = Some compact_min.
Proof.
  intros L. destruct (scale_exact p s) as (e & [A B] & F). unfold compact_of_quotient. rewrite F.
  assert (e < 3) as X; [|apply N.ltb_lt in X; rewrite X; reflexivity].
  destruct B as [B|B]; [lia|]. destruct (N.lt_ge_cases e 3) as [Y|Y]; [exact Y|exfalso].
  assert (2 ^ s * 256 ^ 2 <= 2 ^ s * 256 ^ (e - 1)) by (apply N.mul_le_mono_l; apply p256_le; lia). lia.
Qed.
Lemma quotient_high p s : 2 ^ s * 256 ^ 32 < p -> compact_of_quotient p s = Some compact_max.
Proof.
  intros L. destruct (scale_exact p s) as (e & [A B] & F). unfold compact_of_quotient. rewrite F.
  assert (32 < e) as X.
  { destruct (N.lt_ge_cases 32 e) as [Y|Y]; [exact Y|exfalso]. assert (2 ^ s * 256 ^ e <= 2 ^ s * 256 ^ 32) by (apply N.mul_le_mono_l; apply p256_le; lia). lia. }
  assert (N.ltb e 3 = false) as -> by (apply N.ltb_ge; lia). apply N.ltb_lt in X. rewrite X. reflexivity.
Qed.
(* difficulty zero *)
Lemma infinite_runs fuel : forall e, quotient_loop fuel Infinite e = More.
Proof. induction fuel as [|f IH]; intros e; [reflexivity|apply IH]. Qed.
Lemma finite_is_scale fuel : forall p s e, quotient_loop fuel (Finite p s) e = match scale_loop fuel p s e with Some (s', e') => Done (Finite p s', e') | None => More end.
Proof.
  induction fuel as [|f IH]; intros p s e; cbn [quotient_loop scale_loop q_above_one q_div256]; destruct (2 ^ s <? p); try reflexivity. apply IH.
Qed.
