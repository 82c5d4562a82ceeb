(* Bits, bytes and words of 11 bits. *)
From Coq Require Import Lia ZifyBool ZifyNat ZifyN.
From Verif Require Import Base BaseProofs WireModel MerkleModel TextModel Bip39Words Bip39Model Bip39Spec.
Local Open Scope N_scope.

(* ---- bits of numbers ---- *)
Lemma to_bits_length k n : length (to_bits k n) = k.
Proof. induction k as [|k IH]; cbn [to_bits length]; [reflexivity|rewrite IH; reflexivity]. Qed.
Lemma to_bits_nth k : forall n j, (j < k)%nat -> nth j (to_bits k n) false = N.testbit n (N.of_nat (k - 1 - j)).
Proof.
  induction k as [|k IH]; intros n j L; [lia|]. cbn [to_bits]. destruct j as [|j].
  - cbn [nth]. replace (Datatypes.S k - 1 - 0)%nat with k by lia. reflexivity.
  - cbn [nth]. rewrite IH by lia. f_equal. lia.
Qed.
Lemma nth_eq {A} (d : A) l m : length l = length m -> (forall i, (i < length l)%nat -> nth i l d = nth i m d) -> l = m.
Proof. intros L E. apply (nth_ext l m d d L E). Qed.
Lemma to_bits_eq k n l : length l = k -> (forall j, (j < k)%nat -> N.testbit n (N.of_nat (k - 1 - j)) = nth j l false) -> to_bits k n = l.
Proof. intros L E. apply (nth_eq false); rewrite to_bits_length; [congruence|]. intros j J. rewrite to_bits_nth by exact J. apply E. exact J. Qed.

Definition bval (l : list bool) : N := fold_left (fun v (b : bool) => 2 * v + (if b then 1 else 0)) l 0.
Lemma bval_snoc l b : bval (l ++ [b]) = 2 * bval l + (if b then 1 else 0).
Proof. unfold bval. rewrite fold_left_app. reflexivity. Qed.
Lemma to_bits_snoc k n : to_bits (Datatypes.S k) n = to_bits k (n / 2) ++ [N.odd n].
Proof.
  apply to_bits_eq; [rewrite app_length, to_bits_length; cbn [length]; lia|]. intros j L. destruct (Nat.eq_dec j k) as [->|Ne].
  - rewrite app_nth2; rewrite to_bits_length; [|lia]. rewrite Nat.sub_diag. cbn [nth]. replace (Datatypes.S k - 1 - k)%nat with 0%nat by lia. apply N.bit0_odd.
  - rewrite app_nth1 by (rewrite to_bits_length; lia). rewrite to_bits_nth by lia. rewrite <- N.div2_div, N.div2_spec, N.shiftr_spec by apply N.le_0_l. f_equal. lia.
Qed.
Lemma bval_bound l : bval l < 2 ^ N.of_nat (length l).
Proof.
  induction l as [|b l IH] using rev_ind; [reflexivity|]. rewrite bval_snoc, app_length. cbn [length].
  replace (N.of_nat (length l + 1)) with (N.succ (N.of_nat (length l))) by lia. rewrite N.pow_succ_r'. destruct b; lia.
Qed.
Lemma to_bits_bval l : to_bits (length l) (bval l) = l.
Proof.
  induction l as [|b l IH] using rev_ind; [reflexivity|]. rewrite app_length. cbn [length]. rewrite Nat.add_1_r, to_bits_snoc, bval_snoc.
  assert (D : (2 * bval l + (if b then 1 else 0)) / 2 = bval l).
  { symmetry. apply (N.div_unique _ 2 _ (if b then 1 else 0)); [destruct b; reflexivity|reflexivity]. }
  rewrite D, IH. f_equal. f_equal. destruct b.
  - apply N.odd_spec. exists (bval l). reflexivity.
  - rewrite N.add_0_r. apply N.odd_mul.
Qed.
Lemma bval_to_bits k : forall n, n < 2 ^ N.of_nat k -> bval (to_bits k n) = n.
Proof.
  induction k as [|k IH]; intros n L. { change (2 ^ N.of_nat 0) with 1 in L. cbn [to_bits]. change (bval []) with 0. lia. }
  rewrite to_bits_snoc, bval_snoc. replace (N.of_nat (Datatypes.S k)) with (N.succ (N.of_nat k)) in L by lia. rewrite N.pow_succ_r' in L.
  rewrite IH by (apply N.div_lt_upper_bound; [discriminate|exact L]). 
  pose proof (N.div_mod n 2 ltac:(discriminate)) as E. pose proof (N.bit0_mod n) as B. rewrite N.bit0_odd in B. destruct (N.odd n); cbn [N.b2n] in B; lia.
Qed.
Lemma to_bits_inj k m n : m < 2 ^ N.of_nat k -> n < 2 ^ N.of_nat k -> to_bits k m = to_bits k n -> m = n.
Proof. intros A B E. rewrite <- (bval_to_bits k m A), <- (bval_to_bits k n B), E. reflexivity. Qed.

(* ---- bits of bytes ---- *)
Lemma bits_length b : length (bits b) = (8 * length b)%nat.
Proof. induction b as [|x b IH]; [reflexivity|]. unfold bits in *. cbn [flat_map length]. rewrite app_length, to_bits_length, IH. lia. Qed.
Lemma bits_app a b : bits (a ++ b) = bits a ++ bits b.
Proof. unfold bits. apply flat_map_app. Qed.
Lemma bits_one x : bits [x] = to_bits 8 (b2n x).
Proof. unfold bits. cbn [flat_map]. apply app_nil_r. Qed.
Lemma bits_cons x b : bits (x :: b) = to_bits 8 (b2n x) ++ bits b.
Proof. reflexivity. Qed.
Lemma byte_bound x : b2n x < 2 ^ N.of_nat 8.
Proof. change (2 ^ N.of_nat 8) with 256. apply b2n_lt. Qed.
Lemma byte_bits_inj x y : to_bits 8 (b2n x) = to_bits 8 (b2n y) -> x = y.
Proof. intros E. apply b2n_inj. apply (to_bits_inj 8); [apply byte_bound|apply byte_bound|exact E]. Qed.
Lemma app_split {A} (a b c d : list A) : length a = length c -> a ++ b = c ++ d -> a = c /\ b = d.
Proof.
  intros L E. assert (F : firstn (length a) (a ++ b) = firstn (length a) (c ++ d)) by (rewrite E; reflexivity).
  assert (G : skipn (length a) (a ++ b) = skipn (length a) (c ++ d)) by (rewrite E; reflexivity).
  rewrite firstn_app, firstn_all, Nat.sub_diag, firstn_O, app_nil_r in F. rewrite L, firstn_app, firstn_all, Nat.sub_diag, firstn_O, app_nil_r in F.
  rewrite skipn_app, skipn_all, Nat.sub_diag, skipn_O in G. rewrite L, skipn_app, skipn_all, Nat.sub_diag, skipn_O in G. split; assumption.
Qed.
Lemma bits_inj a : forall b, bits a = bits b -> a = b.
Proof.
  induction a as [|x a IH]; intros [|y b] E; [reflexivity| | |].
  - apply (f_equal (@length bool)) in E. rewrite !bits_length in E. cbn [length] in E. lia.
  - apply (f_equal (@length bool)) in E. rewrite !bits_length in E. cbn [length] in E. lia.
  - rewrite !bits_cons in E. apply app_split in E; [|rewrite !to_bits_length; reflexivity]. destruct E as [E1 E2]. f_equal; [apply byte_bits_inj; exact E1|apply IH; exact E2].
Qed.
Lemma div8 i : (8 <= i)%nat -> (i / 8 = Datatypes.S ((i - 8) / 8) /\ i mod 8 = (i - 8) mod 8)%nat.
Proof. intros L. replace i with (i - 8 + 1 * 8)%nat at 1 3 by lia. rewrite Nat.div_add, Nat.mod_add by discriminate. lia. Qed.
Lemma bits_nth b : forall i, nth i (bits b) false = N.testbit (b2n (nth (i / 8) b x00)) (N.of_nat (7 - i mod 8)).
Proof.
  induction b as [|x b IH]; intros i.
  - replace (nth (i / 8) [] x00) with x00 by (destruct (i / 8)%nat; reflexivity). change (b2n x00) with 0. rewrite N.bits_0. unfold bits. cbn [flat_map]. destruct i; reflexivity.
  - rewrite bits_cons. destruct (Nat.lt_ge_cases i 8) as [L|G].
    + rewrite app_nth1 by (rewrite to_bits_length; exact L). rewrite to_bits_nth by exact L. rewrite Nat.div_small, Nat.mod_small by exact L. reflexivity.
    + rewrite app_nth2; rewrite to_bits_length; [|exact G]. destruct (div8 i G) as [-> ->]. cbn [nth]. apply IH.
Qed.
Lemma land_one a : N.land a 1 = if N.odd a then 1 else 0.
Proof. change 1 with (N.ones 1) at 1. rewrite N.land_ones. change (2 ^ 1) with 2. rewrite <- N.bit0_odd. pose proof (N.bit0_mod a) as B. unfold N.b2n in B. destruct (N.testbit a 0); lia. Qed.
Lemma get_bit_spec i b : get_bit i b = if nth i (bits b) false then 1 else 0.
Proof. unfold get_bit. rewrite land_one, bits_nth, <- N.bit0_odd, N.shiftr_spec by apply N.le_0_l. rewrite N.add_0_l. reflexivity. Qed.

(* ---- loops that go over blocks ---- *)
Lemma modify_mid {A} (f : A -> A) pre : forall v r, modify (length pre) f (pre ++ v :: r) = pre ++ f v :: r.
Proof. induction pre as [|x pre IH]; intros v r; cbn [length app modify]; [reflexivity|rewrite IH; reflexivity]. Qed.
Lemma block_index k w o : (o < k)%nat -> ((k * w + o) / k = w /\ (k * w + o) mod k = o)%nat.
Proof. intros L. rewrite (Nat.mul_comm k w), Nat.add_comm. rewrite Nat.div_add, Nat.mod_add by lia. rewrite Nat.div_small, Nat.mod_small by exact L. lia. Qed.
Section Blocks.
Context {A : Type} (k : nat) (g : nat -> A -> A).
Let step (l : list A) (i : nat) : list A := modify (i / k) (g i) l.
Let inner (v : A) (i : nat) : A := g i v.
Lemma fold_block pre r : forall c o v, (o + c <= k)%nat -> fold_left step (seq (k * length pre + o) c) (pre ++ v :: r) = pre ++ fold_left inner (seq (k * length pre + o) c) v :: r.
Proof.
  induction c as [|c IH]; intros o v L; [reflexivity|]. cbn [seq fold_left]. unfold step at 2. destruct (block_index k (length pre) o ltac:(lia)) as [-> _].
  rewrite modify_mid. replace (Datatypes.S (k * length pre + o)) with (k * length pre + Datatypes.S o)%nat by lia. rewrite IH by lia. reflexivity.
Qed.
Lemma fold_blocks d r : forall m pre, fold_left step (seq (k * length pre) (k * m)) (pre ++ repeat d m ++ r) =
  pre ++ map (fun j => fold_left inner (seq (k * j) k) d) (seq (length pre) m) ++ r.
Proof.
  induction m as [|m IH]; intros pre. { rewrite Nat.mul_0_r. reflexivity. }
  replace (k * Datatypes.S m)%nat with (k + k * m)%nat by lia. rewrite seq_app, fold_left_app. cbn [repeat app]. 
  pose proof (fold_block pre (repeat d m ++ r) k 0%nat d (Nat.le_refl k)) as E. rewrite Nat.add_0_r in E. rewrite E.
  specialize (IH (pre ++ [fold_left inner (seq (k * length pre) k) d])). rewrite app_length in IH. cbn [length] in IH.
  replace (k * (length pre + 1))%nat with (k * length pre + k)%nat in IH by lia. rewrite <- !app_assoc in IH. cbn [app] in IH. rewrite IH.
  cbn [seq map]. rewrite Nat.add_1_r. reflexivity.
Qed.
Lemma fold_all d m c : (c <= k)%nat -> fold_left step (seq 0 (k * m + c)) (repeat d (m + 1)) =
  map (fun j => fold_left inner (seq (k * j) k) d) (seq 0 m) ++ [fold_left inner (seq (k * m) c) d].
Proof.
  intros L. rewrite seq_app, fold_left_app, repeat_app. cbn [repeat Nat.add].
  pose proof (fold_blocks d [d] m []) as E. cbn [length app] in E. rewrite Nat.mul_0_r in E. rewrite E.
  set (pre := map _ _) in *. assert (Lp : length pre = m) by (unfold pre; rewrite map_length, seq_length; reflexivity).
  pose proof (fold_block pre [] c 0%nat d L) as F. rewrite Lp, Nat.add_0_r in F. exact F.
Qed.
End Blocks.

Definition bit1 (b : bool) : N := if b then 1 else 0.
Lemma word_value (f : nat -> bool) w : forall c, (c <= 11)%nat ->
  fold_left (fun v i => v + N.shiftl (bit1 (f i)) (N.of_nat (10 - i mod 11))) (seq (11 * w) c) 0 = bval (map f (seq (11 * w) c)) * 2 ^ N.of_nat (11 - c).
Proof.
  induction c as [|c IH]; intros L; [reflexivity|]. rewrite seq_S, fold_left_app, map_app. cbn [fold_left map]. rewrite IH by lia. rewrite bval_snoc.
  destruct (block_index 11 w c ltac:(lia)) as [_ ->]. rewrite N.shiftl_mul_pow2.
  replace (10 - c)%nat with (11 - Datatypes.S c)%nat by lia. replace (N.of_nat (11 - c)) with (N.succ (N.of_nat (11 - Datatypes.S c))) by lia. rewrite N.pow_succ_r'.
  unfold bit1. generalize (2 ^ N.of_nat (11 - Datatypes.S c)) as p, (bval (map f (seq (11 * w) c))) as x. intros p x. destruct (f (11 * w + c)%nat); lia.
Qed.
Lemma byte_value (f : nat -> bool) w : forall c, (c <= 8)%nat ->
  to_bits 8 (b2n (fold_left (fun x i => n2b (N.lor (b2n x) (N.shiftl (bit1 (f i)) (N.of_nat (7 - i mod 8))))) (seq (8 * w) c) x00)) = map f (seq (8 * w) c) ++ repeat false (8 - c).
Proof.
  induction c as [|c IH]; intros L; [reflexivity|]. rewrite seq_S, fold_left_app, map_app. cbn [fold_left map]. specialize (IH ltac:(lia)). set (x := fold_left _ _ _) in *.
  destruct (block_index 8 w c ltac:(lia)) as [_ ->]. set (l := map f (seq (8 * w) c)) in *. assert (Ll : length l = c) by (unfold l; rewrite map_length, seq_length; reflexivity).
  apply to_bits_eq; [rewrite !app_length, repeat_length, Ll; cbn [length]; lia|]. intros j J. rewrite b2n_n2b. change 256 with (2 ^ 8).
  rewrite N.mod_pow2_bits_low by lia. rewrite N.lor_spec.
  assert (X : N.testbit (b2n x) (N.of_nat (8 - 1 - j)) = nth j (l ++ repeat false (8 - c)) false) by (rewrite <- IH, to_bits_nth by exact J; reflexivity). rewrite X. clear X.
  assert (Rf : forall n i, nth i (repeat false n) false = false).
  { intros n. induction n as [|n IHn]; intros [|i]; cbn [repeat nth]; [reflexivity|reflexivity|reflexivity|apply IHn]. }
  assert (B : N.testbit (N.shiftl (bit1 (f (8 * w + c)%nat)) (N.of_nat (7 - c))) (N.of_nat (8 - 1 - j)) = if Nat.eqb j c then f (8 * w + c)%nat else false).
  { destruct (Nat.eqb_spec j c) as [->|Ne].
    - rewrite N.shiftl_spec_high' by lia. replace (N.of_nat (8 - 1 - c) - N.of_nat (7 - c)) with 0 by lia. unfold bit1. destruct (f _); reflexivity.
    - destruct (Nat.lt_ge_cases c j) as [C|C]; [apply N.shiftl_spec_low; lia|].
      rewrite N.shiftl_spec_high' by lia. unfold bit1. destruct (f _); [|apply N.bits_0]. destruct (N.of_nat (8 - 1 - j) - N.of_nat (7 - c)) as [|q] eqn:Q; [lia|]. destruct q; reflexivity. }
  rewrite B. rewrite <- app_assoc. destruct (Nat.lt_trichotomy j c) as [C|[->|C]].
  - rewrite !(app_nth1 l) by (rewrite Ll; exact C). destruct (Nat.eqb_spec j c); [lia|]. apply orb_false_r.
  - rewrite !app_nth2 by (rewrite Ll; lia). rewrite Ll, Nat.sub_diag, Nat.eqb_refl, Rf. reflexivity.
  - rewrite !app_nth2 by (rewrite ?Ll; lia). rewrite Ll. rewrite Rf. destruct (Nat.eqb_spec j c); [lia|].
    replace (j - c)%nat with (Datatypes.S (j - c - 1)) by lia. cbn [app nth]. symmetry. apply Rf.
Qed.
Lemma map_nth_seq {A} (d : A) (l : list A) : forall n a, (a + n <= length l)%nat -> map (fun i => nth i l d) (seq a n) = firstn n (skipn a l).
Proof.
  induction n as [|n IH]; intros a L; [reflexivity|]. cbn [seq map]. rewrite IH by lia.
  assert (Z : skipn a l = nth a l d :: skipn (Datatypes.S a) l).
  { clear IH. revert a L. induction l as [|x l IHl]; intros a L; [cbn [length] in L; lia|]. destruct a as [|a]; [reflexivity|]. cbn [skipn nth]. apply IHl. cbn [length] in L. lia. }
  rewrite Z. reflexivity.
Qed.
Lemma flat_map_seq {A} (f : nat -> A) k : forall m w, flat_map (fun j => map f (seq (k * j) k)) (seq w m) = map f (seq (k * w) (k * m)).
Proof.
  induction m as [|m IH]; intros w; [rewrite Nat.mul_0_r; reflexivity|]. cbn [seq flat_map]. rewrite IH. replace (k * Datatypes.S m)%nat with (k + k * m)%nat by lia.
  rewrite seq_app, map_app. do 3 f_equal. lia.
Qed.
Lemma flat_map_map {A B C} (f : A -> B) (g : B -> list C) l : flat_map g (map f l) = flat_map (fun x => g (f x)) l.
Proof. induction l as [|x l IH]; cbn [map flat_map]; [reflexivity|rewrite IH; reflexivity]. Qed.
Lemma flat_map_ext_in {A B} (f g : A -> list B) l : (forall x, In x l -> f x = g x) -> flat_map f l = flat_map g l.
Proof. induction l as [|x l IH]; intros E; [reflexivity|]. cbn [flat_map]. rewrite (E x (or_introl eq_refl)), IH; [reflexivity|]. intros y Y. apply E. right. exact Y. Qed.

(* ---- the two loops ---- *)
Lemma fold_left_ext {A B} (f g : A -> B -> A) l : (forall a b, f a b = g a b) -> forall a, fold_left f l a = fold_left g l a.
Proof. intros E. induction l as [|x l IH]; intros a; [reflexivity|]. cbn [fold_left]. rewrite E. apply IH. Qed.
Lemma modify_ext {A} (f g : A -> A) : (forall x, f x = g x) -> forall l i, modify i f l = modify i g l.
Proof. intros E. induction l as [|x l IH]; intros [|i]; cbn [modify]; [reflexivity|reflexivity|rewrite E; reflexivity|rewrite IH; reflexivity]. Qed.
Lemma word_indices_bits count ent : (count * 11 <= 8 * length ent)%nat ->
  index_bits (map N.to_nat (word_indices count ent)) = firstn (count * 11) (bits ent) /\ Forall (fun i => (i < 2048)%nat) (map N.to_nat (word_indices count ent)).
Proof.
  intros L. set (f := fun i => nth i (bits ent) false).
  assert (E : word_indices count ent = map (fun j => bval (map f (seq (11 * j) 11))) (seq 0 count)).
  { unfold word_indices. rewrite (fold_left_ext _ (fun l i => modify (i / 11) (fun v => v + N.shiftl (bit1 (f i)) (N.of_nat (10 - i mod 11))) l)).
    2:{ intros a i. apply modify_ext. intros v. rewrite get_bit_spec. reflexivity. }
    pose proof (fold_blocks 11 (fun i v => v + N.shiftl (bit1 (f i)) (N.of_nat (10 - i mod 11))) 0 [] count []) as F. cbn [length app] in F. rewrite !app_nil_r in F.
    rewrite Nat.mul_0_r in F. rewrite (Nat.mul_comm count 11). rewrite F. apply map_ext. intros j. rewrite word_value by lia. apply N.mul_1_r. }
  rewrite E. rewrite map_map. assert (Lf : forall j, length (map f (seq (11 * j) 11)) = 11%nat) by (intros j; rewrite map_length, seq_length; reflexivity). split.
  - unfold index_bits. rewrite flat_map_map. rewrite (flat_map_ext_in _ (fun j => map f (seq (11 * j) 11))).
    2:{ intros j _. rewrite N2Nat.id. rewrite <- (Lf j) at 1. apply to_bits_bval. }
    rewrite flat_map_seq, Nat.mul_0_r, (Nat.mul_comm 11 count). unfold f. rewrite map_nth_seq by (rewrite bits_length; exact L). reflexivity.
  - rewrite Forall_map. apply Forall_forall. intros j _. pose proof (bval_bound (map f (seq (11 * j) 11))) as B. rewrite Lf in B. change (2 ^ N.of_nat 11) with 2048 in B. lia.
Qed.
Lemma index_bits_length idx : length (index_bits idx) = (11 * length idx)%nat.
Proof. induction idx as [|i idx IH]; [reflexivity|]. unfold index_bits in *. cbn [flat_map length]. rewrite app_length, to_bits_length, IH. lia. Qed.
Lemma div11 i : (11 <= i)%nat -> (i / 11 = Datatypes.S ((i - 11) / 11) /\ i mod 11 = (i - 11) mod 11)%nat.
Proof. intros L. replace i with (i - 11 + 1 * 11)%nat at 1 3 by lia. rewrite Nat.div_add, Nat.mod_add by discriminate. lia. Qed.
Lemma index_bits_nth idx : forall i, nth i (index_bits idx) false = N.testbit (N.of_nat (nth (i / 11) idx O)) (N.of_nat (10 - i mod 11)).
Proof.
  induction idx as [|x b IH]; intros i.
  - replace (nth (i / 11) [] 0%nat) with 0%nat by (destruct (i / 11)%nat; reflexivity). change (N.of_nat 0) with 0. rewrite N.bits_0. unfold index_bits. cbn [flat_map]. destruct i; reflexivity.
  - unfold index_bits in *. cbn [flat_map]. destruct (Nat.lt_ge_cases i 11) as [L|G].
    + rewrite app_nth1 by (rewrite to_bits_length; exact L). rewrite to_bits_nth by exact L. rewrite Nat.div_small, Nat.mod_small by exact L. reflexivity.
    + rewrite app_nth2; rewrite to_bits_length; [|exact G]. destruct (div11 i G) as [-> ->]. cbn [nth]. apply IH.
Qed.
Lemma index_bytes_bits idx : idx <> [] -> exists m c, (11 * length idx = 8 * m + c /\ 1 <= c <= 8)%nat /\ length (index_bytes idx) = (m + 1)%nat /\
  bits (index_bytes idx) = index_bits idx ++ repeat false (8 - c).
Proof.
  intros Ne. set (n := (11 * length idx)%nat). assert (Pn : (1 <= n)%nat) by (unfold n; destruct idx; [congruence|cbn [length]; lia]).
  set (m := ((n - 1) / 8)%nat). set (c := (n - 8 * m)%nat). exists m, c.
  assert (D : (n = 8 * m + c /\ 1 <= c <= 8)%nat).
  { unfold c, m. pose proof (Nat.div_mod (n - 1) 8 ltac:(discriminate)) as E. pose proof (Nat.mod_upper_bound (n - 1) 8 ltac:(discriminate)). lia. }
  split; [exact D|]. destruct D as [D1 D2].
  assert (S : ((n + 7) / 8 = m + 1)%nat). { symmetry. apply (Nat.div_unique _ 8 _ (c - 1)); lia. }
  set (f := fun i => nth i (index_bits idx) false).
  set (g := fun (i : nat) (x : byte) => n2b (N.lor (b2n x) (N.shiftl (bit1 (f i)) (N.of_nat (7 - i mod 8))))).
  assert (E : index_bytes idx = map (fun j => fold_left (fun v i => g i v) (seq (8 * j) 8) x00) (seq 0 m) ++ [fold_left (fun v i => g i v) (seq (8 * m) c) x00]).
  { unfold index_bytes. cbv zeta. rewrite (Nat.mul_comm (length idx) 11). fold n. rewrite S, D1. rewrite <- fold_all by lia. apply fold_left_ext. intros a i. unfold set_bit. apply modify_ext. intros x.
    unfold g, f. rewrite index_bits_nth. reflexivity. }
  rewrite E. split; [rewrite app_length, map_length, seq_length; reflexivity|]. rewrite bits_app, bits_one. unfold g. rewrite (byte_value f m c) by lia.
  unfold bits. rewrite flat_map_map. rewrite (flat_map_ext_in _ (fun j => map f (seq (8 * j) 8))).
  2:{ intros j _. pose proof (byte_value f j 8 (Nat.le_refl 8)) as B. rewrite Nat.sub_diag, app_nil_r in B. exact B. }
  rewrite flat_map_seq, Nat.mul_0_r, app_assoc. f_equal. rewrite <- map_app. rewrite <- seq_app. rewrite <- D1. unfold f. rewrite map_nth_seq by (rewrite index_bits_length; lia).
  rewrite skipn_O. apply firstn_all2. rewrite index_bits_length. lia.
Qed.
Lemma mask_bits len d : (len <= 8)%nat -> to_bits 8 (N.land (b2n d) (check_mask len)) = firstn len (to_bits 8 (b2n d)) ++ repeat false (8 - len).
Proof.
  assert (G : forallb (fun n => forallb (fun d => forallb (fun p => Bool.eqb (fst p) (snd p)) (combine (to_bits 8 (N.land (N.of_nat d) (check_mask n))) (firstn n (to_bits 8 (N.of_nat d)) ++ repeat false (8 - n)))) (seq 0 256)) (seq 0 9) = true) by (vm_compute; reflexivity).
  intros L. rewrite forallb_forall in G. specialize (G len ltac:(apply List.in_seq; lia)). cbv beta in G. rewrite forallb_forall in G.
  pose proof (byte_bound d) as B. change (2 ^ N.of_nat 8) with 256 in B. specialize (G (N.to_nat (b2n d)) ltac:(apply List.in_seq; lia)). cbv beta in G. rewrite N2Nat.id in G.
  set (x := to_bits 8 (N.land (b2n d) (check_mask len))) in *. set (y := firstn len (to_bits 8 (b2n d)) ++ repeat false (8 - len)) in *.
  assert (Lx : length x = 8%nat) by apply to_bits_length. assert (Ly : length y = 8%nat) by (unfold y; rewrite app_length, firstn_length, to_bits_length, repeat_length; lia).
  clearbody x y. assert (Lxy : length x = length y) by congruence. clear Lx Ly. revert y Lxy G. induction x as [|a x IH]; intros [|b y] Lxy G; [reflexivity|discriminate|discriminate|].
  cbn [combine forallb fst snd] in G. apply andb_true_iff in G. destruct G as [G1 G2]. apply Bool.eqb_prop in G1. f_equal; [exact G1|]. apply IH; [cbn [length] in Lxy; lia|exact G2].
Qed.
Lemma mask_bound len d : (len <= 8)%nat -> N.land (b2n d) (check_mask len) < 256.
Proof.
  intros _. apply N.le_lt_trans with (m := b2n d); [|apply b2n_lt]. 
  assert (K : N.land (b2n d) (check_mask len) + N.ldiff (b2n d) (check_mask len) = b2n d).
  { rewrite N.add_nocarry_lxor by (apply N.bits_inj; intros i; rewrite !N.land_spec, N.ldiff_spec, N.bits_0; destruct (N.testbit (b2n d) i), (N.testbit (check_mask len) i); reflexivity).
    apply N.bits_inj. intros i. rewrite N.lxor_spec, N.land_spec, N.ldiff_spec. destruct (N.testbit (b2n d) i), (N.testbit (check_mask len) i); reflexivity. }
  lia.
Qed.
