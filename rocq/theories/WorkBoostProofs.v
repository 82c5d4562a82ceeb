(* Version rolling and work proofs. *)
From Verif Require Import Base BaseProofs WireModel WireSpec MerkleModel WorkModel WorkSpec.
From Coq Require Import ZifyBool ZifyNat ZifyN.
Ltac Zify.zify_post_hook ::= Z.div_mod_to_equations.
Local Open Scope Z_scope.

Lemma lor_add_low q c k : 0 <= k -> 0 <= c < 2 ^ k -> Z.lor (Z.shiftl q k) c = q * 2 ^ k + c.
Proof.
  intros K C. rewrite <- Z.shiftl_mul_pow2 by exact K. symmetry. rewrite <- Z.lxor_lor.
  - apply Z.add_nocarry_lxor. apply Z.bits_inj'. intros i I. rewrite Z.land_spec, Z.bits_0, Z.shiftl_spec by exact I.
    destruct (Z.lt_ge_cases i k) as [L|L]; [rewrite Z.testbit_neg_r by lia; reflexivity|].
    rewrite <- (Z.mod_small c (2 ^ k) C). rewrite Z.mod_pow2_bits_high by lia. apply andb_false_r.
  - apply Z.bits_inj'. intros i I. rewrite Z.land_spec, Z.bits_0, Z.shiftl_spec by exact I.
    destruct (Z.lt_ge_cases i k) as [L|L]; [rewrite Z.testbit_neg_r by lia; reflexivity|].
    rewrite <- (Z.mod_small c (2 ^ k) C). rewrite Z.mod_pow2_bits_high by lia. apply andb_false_r.
Qed.

Lemma general_bits_val v : Z.of_N (general_bits v) = (v / 2 ^ 13) mod 2 ^ 16.
Proof.
  unfold general_bits, u16_of. rewrite Z.shiftr_land. change (Z.shiftr boost_bits 13) with (Z.ones 16). rewrite Z.land_comm, Z.land_ones by discriminate.
  rewrite Z.shiftr_div_pow2 by discriminate. change (2 ^ 16) with 65536. rewrite Z.mod_mod by discriminate. apply Z2N.id. apply Z.mod_pos_bound. reflexivity.
Qed.
Lemma magic_number_val v : Z.of_N (magic_number v) = ((v / 2 ^ 29) mod 2 ^ 3) * 2 ^ 13 + v mod 2 ^ 13.
Proof.
  unfold magic_number, u16_of. rewrite Z.shiftr_land. change (Z.shiftr (i32_of 0xe0000000) 16) with (Z.lnot (Z.ones 13)).
  rewrite (Z.land_comm (Z.lnot _)). rewrite <- Z.ldiff_land. rewrite Z.ldiff_ones_r by discriminate.
  rewrite (Z.land_comm 0x1fff). change 0x1fff with (Z.ones 13). rewrite Z.land_ones by discriminate.
  rewrite lor_add_low by (try discriminate; apply Z.mod_pos_bound; reflexivity).
  rewrite !Z.shiftr_div_pow2 by discriminate. rewrite Z2N.id by (apply Z.mod_pos_bound; reflexivity).
  change (2 ^ 13) with 8192. change (2 ^ 16) with 65536. change (2 ^ 29) with 536870912. change (2 ^ 3) with 8. lia.
Qed.
Lemma category_val m b : (m < 2 ^ 16)%N -> (b < 2 ^ 16)%N ->
  category m b = i32_of ((Z.of_N m / 2 ^ 13) * 2 ^ 29 + Z.of_N b * 2 ^ 13 + Z.of_N m mod 2 ^ 13).
Proof.
  intros M B. unfold category. rewrite !Z.shiftl_mul_pow2 by discriminate.
  change 0x1fff with (Z.ones 13). rewrite Z.land_ones by discriminate.
  assert (X : Z.land (Z.of_N m) 0xe000 = Z.of_N m / 2 ^ 13 * 2 ^ 13).
  { rewrite <- Z.shiftl_mul_pow2, <- Z.shiftr_div_pow2 by discriminate. rewrite <- Z.ldiff_ones_r by discriminate.
    rewrite Z.ldiff_land. apply Z.bits_inj'. intros i I. rewrite !Z.land_spec.
    destruct (Z.lt_ge_cases i 16) as [L|L].
    - f_equal. assert (i = 0 \/ i = 1 \/ i = 2 \/ i = 3 \/ i = 4 \/ i = 5 \/ i = 6 \/ i = 7 \/ i = 8 \/ i = 9 \/ i = 10 \/ i = 11 \/ i = 12 \/ i = 13 \/ i = 14 \/ i = 15) as Y by lia.
      repeat (destruct Y as [-> | Y]; [reflexivity|]). rewrite Y. reflexivity.
    - replace (Z.testbit (Z.of_N m) i) with false; [reflexivity|]. symmetry.
      rewrite <- (Z.mod_small (Z.of_N m) (2 ^ 16)) by (change (2 ^ 16)%N with 65536%N in M; change (2 ^ 16) with 65536; lia).
      apply Z.mod_pow2_bits_high. lia. }
  rewrite X. unfold i32_of. change (2 ^ 16)%N with 65536%N in *. change (2 ^ 13) with 8192. change (2 ^ 16) with 65536. change (2 ^ 29) with 536870912. lia.
Qed.
Lemma i32_of_id z : i32 z -> i32_of z = z.
Proof. unfold i32, i32_of. change (2 ^ 31) with 2147483648. intros. lia. Qed.
Lemma magic_u16 v : (magic_number v < 2 ^ 16)%N.
Proof. pose proof (magic_number_val v) as E. change (2 ^ 16)%N with 65536%N. change (2 ^ 13) with 8192 in E. change (2 ^ 3) with 8 in E. lia. Qed.
Lemma general_u16 v : (general_bits v < 2 ^ 16)%N.
Proof. pose proof (general_bits_val v) as E. change (2 ^ 16)%N with 65536%N. change (2 ^ 16) with 65536 in E. lia. Qed.

Lemma i32_of_decomp a b c : 0 <= a < 8 -> 0 <= b < 65536 -> 0 <= c < 8192 ->
  let x := a * 536870912 + b * 8192 + c in
  i32_of x = if a <? 4 then x else x - 4294967296.
Proof. intros A B C x. unfold i32_of. destruct (Z.ltb_spec a 4); unfold x; lia. Qed.

Lemma category_split v : i32 v -> category (magic_number v) (general_bits v) = v.
Proof.
  intros R. rewrite (category_val _ _ (magic_u16 v) (general_u16 v)). rewrite general_bits_val, magic_number_val.
  unfold i32 in R. change (2 ^ 31) with 2147483648 in R. change (2 ^ 13) with 8192. change (2 ^ 16) with 65536. change (2 ^ 29) with 536870912. change (2 ^ 3) with 8.
  remember ((v / 536870912) mod 8) as a eqn:Ea. remember ((v / 8192) mod 65536) as b eqn:Eb. remember (v mod 8192) as c eqn:Ec.
  assert (A : 0 <= a < 8) by (subst a; apply Z.mod_pos_bound; reflexivity).
  assert (B : 0 <= b < 65536) by (subst b; apply Z.mod_pos_bound; reflexivity).
  assert (C : 0 <= c < 8192) by (subst c; apply Z.mod_pos_bound; reflexivity).
  replace ((a * 8192 + c) / 8192) with a by (clear - C; lia). replace ((a * 8192 + c) mod 8192) with c by (clear - C; lia).
  rewrite i32_of_decomp by assumption.
  assert (V : v = (v / 536870912) * 536870912 + b * 8192 + c) by (subst b c; clear; lia).
  assert (Q : (v / 536870912 = a /\ a < 4) \/ (v / 536870912 = a - 8 /\ 4 <= a)) by (subst a; clear - R; lia).
  rewrite V. clear - Q. destruct Q as [[-> L]|[-> L]]; destruct (Z.ltb_spec a 4); lia.
Qed.
Lemma category_range m b : i32 (category m b).
Proof. unfold category. set (x := _ + _ + _). unfold i32_of, i32. change (2 ^ 31) with 2147483648. lia. Qed.
Lemma split_category m b : (m < 2 ^ 16)%N -> (b < 2 ^ 16)%N -> magic_number (category m b) = m /\ general_bits (category m b) = b.
Proof.
  intros M B. rewrite category_val by assumption. change (2 ^ 16)%N with 65536%N in *.
  change (2 ^ 13) with 8192. change (2 ^ 29) with 536870912.
  remember (Z.of_N m / 8192) as a eqn:Ea. remember (Z.of_N m mod 8192) as c eqn:Ec. remember (Z.of_N b) as z eqn:Ez.
  assert (Hm : Z.of_N m = a * 8192 + c) by (subst a c; clear; lia).
  assert (A : 0 <= a < 8) by (subst a; clear - M; lia). assert (C : 0 <= c < 8192) by (subst c; apply Z.mod_pos_bound; reflexivity).
  assert (Hb : 0 <= z < 65536) by (subst z; clear - B; lia). clear Ea Ec.
  rewrite i32_of_decomp by assumption.
  split; apply N2Z.inj; [rewrite magic_number_val, Hm|rewrite general_bits_val, <- Ez];
  change (2 ^ 13) with 8192; change (2 ^ 16) with 65536; change (2 ^ 29) with 536870912; change (2 ^ 3) with 8; clear - A C Hb; destruct (Z.ltb_spec a 4); lia.
Qed.

Lemma boost_mask_bit i : 0 <= i < 32 -> Z.testbit boost_mask i = negb (in_general i).
Proof.
  intros I. assert (X : forallb (fun k => Bool.eqb (Z.testbit boost_mask (Z.of_nat k)) (negb (in_general (Z.of_nat k)))) (seq 0 32) = true) by (vm_compute; reflexivity).
  rewrite forallb_forall in X. specialize (X (Z.to_nat i)). rewrite Z2Nat.id in X by lia. apply Bool.eqb_prop. apply X. apply List.in_seq. lia.
Qed.
Lemma version_bit v i : 0 <= i < 32 -> Z.testbit (boost_version v) i = Z.testbit v i && negb (in_general i).
Proof. intros I. unfold boost_version. rewrite Z.land_spec, boost_mask_bit by exact I. apply andb_comm. Qed.
Lemma general_bit v i : 0 <= i < 16 -> N.testbit (general_bits v) (Z.to_N i) = Z.testbit v (i + 13).
Proof.
  intros I. rewrite <- N2Z.inj_testbit, Z2N.id by lia. rewrite general_bits_val, Z.mod_pow2_bits_low by lia.
  rewrite <- Z.shiftr_div_pow2 by discriminate. rewrite Z.shiftr_spec by lia. reflexivity.
Qed.
Lemma version_magic v w : i32 v -> i32 w -> boost_version v = boost_version w <-> magic_number v = magic_number w.
Proof.
  intros V W.
  assert (A : forall z, i32 z -> i32_of z = z) by (exact i32_of_id).
  assert (E : forall z, boost_version z = z - (z / 2 ^ 13) mod 2 ^ 16 * 2 ^ 13).
  { intros z. unfold boost_version. rewrite <- general_bits_val.
    assert (X : Z.land boost_mask z + Z.land boost_bits z = z).
    { unfold boost_bits. rewrite Z.add_nocarry_lxor.
      - rewrite Z.lxor_lor.
        + apply Z.bits_inj'. intros i I. rewrite Z.lor_spec, !Z.land_spec, Z.lnot_spec by exact I. destruct (Z.testbit boost_mask i), (Z.testbit z i); reflexivity.
        + apply Z.bits_inj'. intros i I. rewrite !Z.land_spec, Z.lnot_spec, Z.bits_0 by exact I. destruct (Z.testbit boost_mask i), (Z.testbit z i); reflexivity.
      - apply Z.bits_inj'. intros i I. rewrite !Z.land_spec, Z.lnot_spec, Z.bits_0 by exact I. destruct (Z.testbit boost_mask i), (Z.testbit z i); reflexivity. }
    assert (Y : Z.land boost_bits z = Z.of_N (general_bits z) * 2 ^ 13).
    { rewrite general_bits_val. change boost_bits with (Z.shiftl (Z.ones 16) 13).
      apply Z.bits_inj'. intros i I. rewrite Z.land_spec, <- Z.shiftl_mul_pow2, !Z.shiftl_spec by (try discriminate; exact I).
      destruct (Z.lt_ge_cases i 13) as [L|L]; [rewrite (Z.testbit_neg_r (Z.ones 16)), (Z.testbit_neg_r (_ mod _)) by lia; reflexivity|].
      destruct (Z.lt_ge_cases i 29) as [L2|L2].
      - rewrite Z.ones_spec_low by lia. rewrite Z.mod_pow2_bits_low by lia. rewrite <- Z.shiftr_div_pow2 by discriminate. rewrite Z.shiftr_spec by lia. cbn [andb]. f_equal. lia.
      - rewrite Z.ones_spec_high by lia. rewrite Z.mod_pow2_bits_high by lia. reflexivity. }
    rewrite Y in X. lia. }
  rewrite !E. pose proof (magic_number_val v) as Mv. pose proof (magic_number_val w) as Mw.
  unfold i32 in V, W. change (2 ^ 31) with 2147483648 in *. change (2 ^ 13) with 8192 in *. change (2 ^ 16) with 65536 in *. change (2 ^ 29) with 536870912 in *. change (2 ^ 3) with 8 in *.
  split; intros X; [apply N2Z.inj; rewrite Mv, Mw|apply (f_equal Z.of_N) in X; rewrite Mv, Mw in X]; lia.
Qed.

(* what a miner can change *)
Lemma mask_fixed c m b : Z.land (Z.lor (Z.land c m) (Z.land b (Z.lnot m))) m = Z.land c m.
Proof. apply Z.bits_inj'. intros i I. rewrite !Z.land_spec, Z.lor_spec, !Z.land_spec, Z.lnot_spec by exact I. destruct (Z.testbit c i), (Z.testbit m i), (Z.testbit b i); reflexivity. Qed.
Lemma mask_free c m b : Z.land (Z.lor (Z.land c m) (Z.land b (Z.lnot m))) (Z.lnot m) = Z.land b (Z.lnot m).
Proof. apply Z.bits_inj'. intros i I. rewrite !Z.land_spec, Z.lor_spec, !Z.land_spec, Z.lnot_spec by exact I. destruct (Z.testbit c i), (Z.testbit m i), (Z.testbit b i); reflexivity. Qed.

Lemma i32_shift z : i32 z <-> Z.shiftr z 31 = 0 \/ Z.shiftr z 31 = -1.
Proof. rewrite Z.shiftr_div_pow2 by discriminate. unfold i32. change (2 ^ 31) with 2147483648. lia. Qed.
Lemma i32_land a b : i32 a -> i32 b -> i32 (Z.land a b).
Proof. rewrite !i32_shift, Z.shiftr_land. intros [-> | ->] [-> | ->]; auto. Qed.
Lemma i32_lor a b : i32 a -> i32 b -> i32 (Z.lor a b).
Proof. rewrite !i32_shift, Z.shiftr_lor. intros [-> | ->] [-> | ->]; auto. Qed.
Lemma i32_lnot a : i32 a -> i32 (Z.lnot a).
Proof. rewrite !i32_shift. intros [E|E]; [right|left]; apply Z.bits_inj'; intros i I; rewrite Z.shiftr_spec, Z.lnot_spec by lia;
  apply (f_equal (fun x => Z.testbit x i)) in E; rewrite Z.shiftr_spec in E by exact I; rewrite E; [rewrite Z.bits_0, Z.bits_m1 by exact I|rewrite Z.bits_0, Z.bits_m1 by exact I]; reflexivity. Qed.
