(* Proofs about keys. *)
From Coq Require Import Lia ZifyBool ZifyNat ZifyN.
From Verif Require Import Base BaseProofs WireModel MerkleModel TextModel TextSpec SecpModel SecpSpec.
Local Open Scope N_scope.

Lemma order_pos : 0 < secp_order. Proof. reflexivity. Qed.
Lemma order_256 : secp_order < pow256 32. Proof. reflexivity. Qed.

Lemma verify_iff s : seckey_verify s = true <-> is_point (be_val s).
Proof.
  unfold seckey_verify, is_point. rewrite Bool.andb_true_iff, Bool.negb_true_iff, N.eqb_neq, N.ltb_lt.
  generalize secp_order. intro o. lia.
Qed.
Lemma is_some_iff {A} (x : option A) : is_some x = true <-> exists y, x = Some y.
Proof. destruct x; cbn; split; intro H; [eauto | reflexivity | discriminate | destruct H; discriminate]. Qed.

(* ---------------------------------------------------------------- secrets *)
Lemma bool256_eq b c : uint256_of_bool b = uint256_of_bool c -> b = c.
Proof. destruct b, c; intro H; try reflexivity; vm_compute in H; discriminate. Qed.

Lemma sum_defined strict a t : is_secret a -> is_point (be_val t) ->
  is_some (sk_sum strict a t) = negb (sum_of a t =? 0).
Proof.
  intros [_ A] T. apply verify_iff in A. unfold sk_sum. rewrite A. rewrite Bool.andb_false_r. cbn [orb].
  destruct T as [_ T]. apply N.leb_gt in T. rewrite T. cbn [orb]. unfold sum_of.
  destruct (_ =? 0); reflexivity.
Qed.
Lemma plus_exact strict a b : is_secret a -> is_secret b ->
  secret_plus strict a b = le 32 (if sum_of a b =? 0 then 0 else 1).
Proof.
  intros A [_ B]. unfold secret_plus. rewrite (sum_defined strict a b A B). unfold uint256_of_bool. destruct (_ =? 0); reflexivity.
Qed.
Lemma times_exact strict a b : is_secret a -> is_secret b -> secret_times strict a b = le 32 1.
Proof.
  intros [_ A] [_ B]. apply verify_iff in A, B. unfold secret_times, sk_product. rewrite A, B, Bool.andb_false_r. reflexivity.
Qed.
(* a refused operand gives zero *)
Lemma plus_refused strict a b : secp_order <= be_val b -> secret_plus strict a b = repeat x00 32.
Proof.
  intro B. apply N.leb_le in B. unfold secret_plus, sk_sum. rewrite B, Bool.orb_true_r. reflexivity.
Qed.
Lemma times_refused strict a b : ~ is_point (be_val b) -> secret_times strict a b = repeat x00 32.
Proof.
  intro B. unfold secret_times, sk_product. destruct (seckey_verify b) eqn:V; [apply verify_iff in V; contradiction |].
  cbn [negb]. rewrite Bool.orb_true_r. reflexivity.
Qed.

Lemma opposite_point a : is_point (be_val a) -> is_point (opposite_of a).
Proof. unfold is_point, opposite_of. generalize secp_order (be_val a). lia. Qed.
Lemma point_mod p : is_point p -> p mod secp_order = p.
Proof. intros [_ P]. apply N.mod_small. exact P. Qed.
Lemma be_point p : is_point p -> be_val (be 32 p) = p /\ is_secret (be 32 p).
Proof.
  intros P. assert (E : be_val (be 32 p) = p).
  { rewrite be_val_be. apply N.mod_small. destruct P as [_ P]. eapply N.lt_trans; [exact P | exact order_256]. }
  split; [exact E |]. split; [apply be_length | rewrite E; exact P].
Qed.
Lemma negate_exact strict a : is_secret a -> secret_negate strict a = be 32 (opposite_of a).
Proof.
  intros [_ A]. unfold secret_negate, sk_negate. pose proof A as V. apply verify_iff in V. rewrite V, Bool.andb_false_r.
  rewrite (point_mod _ A). pose proof (opposite_point a A) as O. unfold opposite_of in O. rewrite (point_mod _ O). reflexivity.
Qed.
Lemma negate_sum strict a : is_secret a -> is_secret (secret_negate strict a) /\ sum_of a (secret_negate strict a) = 0.
Proof.
  intros A. rewrite (negate_exact strict a A). destruct A as [_ A].
  destruct (be_point _ (opposite_point a A)) as [E W]. split; [exact W |].
  unfold sum_of. rewrite E. replace (be_val a + opposite_of a) with secp_order.
  - apply N.mod_same. discriminate.
  - unfold is_point, opposite_of in *. revert A. generalize secp_order (be_val a). lia.
Qed.
Lemma negate_twice strict a : is_secret a -> secret_negate strict (secret_negate strict a) = a.
Proof.
  intros A. pose proof (negate_sum strict a A) as [W _]. rewrite (negate_exact _ _ W). rewrite (negate_exact strict a A) in *.
  destruct A as [L A]. destruct (be_point _ (opposite_point a A)) as [E _]. unfold opposite_of at 1. rewrite E.
  replace (secp_order - opposite_of a) with (be_val a).
  - rewrite <- L at 1. apply be_be_val.
  - unfold is_point, opposite_of in *. revert A. generalize secp_order (be_val a). lia.
Qed.

(* ---------------------------------------------------------------- public keys *)
Section P.
Variable parse : bytes -> option N.
Variable ser : bool -> N -> bytes.
Hypothesis Enc : encodings parse ser.

Lemma parse_ser c p : is_point p -> parse (ser c p) = Some p.
Proof. apply Enc. Qed.
Lemma ser_len c p : is_point p -> length (ser c p) = if c then 33%nat else 65%nat.
Proof. intro P. destruct Enc as [_ [L _]]. destruct (L p P). destruct c; assumption. Qed.
Lemma serialize_ser c p q : is_point p -> serialize ser (length (ser c p)) q = Some (ser c q).
Proof. intro P. rewrite (ser_len c p P). destruct c; reflexivity. Qed.
Lemma ser_inj c p q : is_point p -> is_point q -> ser c p = ser c q -> p = q.
Proof. intros P Q H. pose proof (parse_ser c p P). pose proof (parse_ser c q Q). rewrite H in *. congruence. Qed.
Lemma to_public c s : is_secret s -> secret_to_public ser c s = public_of ser c s.
Proof. intros [_ A]. apply verify_iff in A. unfold secret_to_public. rewrite A. reflexivity. Qed.
Lemma to_public_refused c s : ~ is_point (be_val s) -> secret_to_public ser c s = [].
Proof.
  intro B. unfold secret_to_public. destruct (seckey_verify s) eqn:V; [apply verify_iff in V; contradiction | reflexivity].
Qed.

Lemma parsed_point k p : parse k = Some p -> is_point p.
Proof. intro H. apply (proj1 (proj2 (proj2 Enc))) in H. tauto. Qed.
Lemma parsed_length k p : parse k = Some p -> length k = 33%nat \/ length k = 65%nat.
Proof. intro H. apply (proj1 (proj2 (proj2 Enc))) in H. tauto. Qed.
Lemma pub_valid k : pubkey_valid parse k = true <-> exists p, parse k = Some p.
Proof.
  unfold pubkey_valid. rewrite Bool.andb_true_iff, Bool.orb_true_iff, !Nat.eqb_eq, is_some_iff.
  split; [intros [_ H]; exact H |]. intros [p Hp]. split; [| eauto]. apply (proj1 (proj2 (proj2 Enc))) in Hp. tauto.
Qed.

Lemma negate_public strict c s : is_secret s ->
  pubkey_negate parse ser (public_of ser c s) = Some (public_of ser c (secret_negate strict s)).
Proof.
  intros A. rewrite (negate_exact strict s A). destruct A as [_ A].
  unfold pubkey_negate, public_of. rewrite (parse_ser c _ A), (serialize_ser c _ _ A).
  destruct (be_point _ (opposite_point s A)) as [E _]. rewrite E. reflexivity.
Qed.
Lemma tweak_public c s t : is_secret s -> be_val t < secp_order ->
  pubkey_tweak parse ser (public_of ser c s) t = Some (if sum_of s t =? 0 then [] else public_of ser c (be 32 (sum_of s t))).
Proof.
  intros [_ A] T. unfold pubkey_tweak, public_of. rewrite (parse_ser c _ A). apply N.leb_gt in T. rewrite T. cbn [orb].
  fold (sum_of s t). destruct (sum_of s t =? 0) eqn:Z; [reflexivity |]. rewrite (serialize_ser c _ _ A).
  destruct (be_point (sum_of s t)) as [E _].
  { apply N.eqb_neq in Z. split; [apply N.neq_0_lt_0; exact Z | apply N.mod_lt; discriminate]. }
  rewrite E. reflexivity.
Qed.
Lemma tweak_refused k t : secp_order <= be_val t -> pubkey_tweak parse ser k t = Some [].
Proof. intro T. apply N.leb_le in T. unfold pubkey_tweak. rewrite T. destruct (parse k); reflexivity. Qed.
Lemma times_public c s t : is_secret s -> is_secret t -> product_of s t <> 0 ->
  pubkey_times parse ser (public_of ser c s) t = Some (public_of ser c (be 32 (product_of s t))).
Proof.
  intros [_ A] [_ T] Z. unfold pubkey_times, public_of. rewrite (parse_ser c _ A). apply verify_iff in T. rewrite T.
  fold (product_of s t). rewrite (serialize_ser c _ _ A). destruct (be_point (product_of s t)) as [E _].
  { split; [apply N.neq_0_lt_0; exact Z | apply N.mod_lt; discriminate]. }
  rewrite E. reflexivity.
Qed.

(* the sum of two keys is the second one in the size of the first *)
Lemma plus_public c d s t : is_secret s -> is_secret t ->
  pubkey_plus parse ser (public_of ser c s) (public_of ser d t) = Some (public_of ser c t).
Proof.
  intros [_ A] [_ T]. unfold pubkey_plus, public_of. rewrite (parse_ser d _ T), (serialize_ser c _ _ A). reflexivity.
Qed.
Lemma plus_pub_exact a b :
  pubkey_plus parse ser a b =
    match parse b with
    | None => Some []
    | Some q => if (length a =? 33)%nat then Some (ser true q) else if (length a <? 65)%nat then None
                else if (length a =? 65)%nat then Some (ser false q) else Some []
    end.
Proof. reflexivity. Qed.

Lemma compress_exact k p : parse k = Some p -> pubkey_compress parse ser k = ser true p.
Proof.
  intro H. unfold pubkey_compress. rewrite H. destruct (length k =? 33)%nat eqn:L; [| reflexivity].
  apply Nat.eqb_eq in L. apply Enc; assumption.
Qed.
Lemma decompress_exact k p : parse k = Some p ->
  pubkey_decompress parse ser k = if (length k =? 65)%nat then k else ser false p.
Proof. intro H. unfold pubkey_decompress. rewrite H. reflexivity. Qed.
Lemma compress_decompress p c : is_point p ->
  pubkey_compress parse ser (pubkey_decompress parse ser (ser c p)) = ser true p /\
  pubkey_decompress parse ser (pubkey_compress parse ser (ser c p)) = ser false p.
Proof.
  intro P. rewrite (decompress_exact _ p (parse_ser c p P)), (compress_exact _ p (parse_ser c p P)).
  rewrite (decompress_exact _ p (parse_ser true p P)), !ser_len by assumption.
  split; [| reflexivity]. destruct c; apply compress_exact; apply parse_ser; exact P.
Qed.

Lemma eqb_exact a b : pubkey_eqb parse ser a b = true <-> compared parse ser a = compared parse ser b.
Proof.
  assert (Inv : forall k, pubkey_valid parse k = false -> parse k = None).
  { intros k H. destruct (parse k) eqn:E; [| reflexivity].
    assert (V : pubkey_valid parse k = true) by (apply pub_valid; eauto). congruence. }
  assert (Pt : forall k p, parse k = Some p -> is_point p) by exact parsed_point.
  assert (Ln : forall k p, parse k = Some p -> length k = 33%nat \/ length k = 65%nat) by exact parsed_length.
  assert (Cm : forall k p, parse k = Some p -> length k = 33%nat -> k = ser true p) by (intros k p; apply Enc).
  assert (Pc : forall k, parse (compared parse ser k) = parse k).
  { intro k. unfold compared. destruct (parse k) as [p|] eqn:E; [| exact E].
    destruct (_ =? _)%nat; [apply parse_ser; eapply Pt; exact E | exact E]. }
  unfold pubkey_eqb.
  destruct (pubkey_valid parse a) eqn:VA; cbn [negb orb].
  2:{ apply Inv in VA. rewrite bytes_eqb_eq. split; [intros ->; reflexivity |]. intro H.
      assert (VB : parse b = None) by (rewrite <- Pc, <- H, Pc; exact VA).
      unfold compared in H. rewrite VA, VB in H. exact H. }
  destruct (pubkey_valid parse b) eqn:VB; cbn [negb orb].
  2:{ apply Inv in VB. rewrite bytes_eqb_eq. split; [intros ->; reflexivity |]. intro H.
      assert (WA : parse a = None) by (rewrite <- Pc, H, Pc; exact VB).
      unfold compared in H. rewrite WA, VB in H. exact H. }
  apply pub_valid in VA, VB. destruct VA as [p HA], VB as [q HB].
  assert (EQ : compared parse ser a = compared parse ser b -> p = q).
  { intro H. pose proof (Pc a) as X. rewrite H, (Pc b), HA, HB in X. congruence. }
  destruct (length a =? length b)%nat eqn:L.
  - apply Nat.eqb_eq in L. rewrite bytes_eqb_eq. split; [intros ->; reflexivity |]. intro H. pose proof (EQ H); subst q.
    unfold compared in H. rewrite HA, HB, <- L in H. destruct (length a =? 33)%nat eqn:L3; [| exact H].
    apply Nat.eqb_eq in L3. rewrite (Cm a p HA L3), (Cm b p HB); [reflexivity | congruence].
  - apply Nat.eqb_neq in L. rewrite bytes_eqb_eq. rewrite (decompress_exact a p HA), (decompress_exact b q HB).
    unfold compared. rewrite HA, HB.
    destruct (Ln a p HA) as [A | A], (Ln b q HB) as [B | B]; rewrite A, B in *; try congruence; cbn [Nat.eqb]; tauto.
Qed.
(* keys that are equal are encodings of one point; those that are not hybrid are equal exactly when they are *)
Lemma eqb_same_point a b p q : parse a = Some p -> parse b = Some q -> pubkey_eqb parse ser a b = true -> p = q.
Proof.
  intros HA HB H. apply eqb_exact in H.
  assert (Pc : forall k p, parse k = Some p -> parse (compared parse ser k) = Some p).
  { intros k r E. unfold compared. rewrite E. destruct (_ =? _)%nat; [apply parse_ser; exact (parsed_point _ _ E) | exact E]. }
  pose proof (Pc a p HA) as X. rewrite H, (Pc b q HB) in X. congruence.
Qed.
Lemma eqb_plain c d p q : is_point p -> is_point q -> pubkey_eqb parse ser (ser c p) (ser d q) = true <-> p = q.
Proof.
  intros P Q. rewrite eqb_exact. unfold compared. rewrite !parse_ser, !ser_len by assumption.
  destruct c, d; cbn [Nat.eqb]; (split; [apply ser_inj; assumption | intros ->; reflexivity]).
Qed.
Lemma eqb_hybrid h p : parse h = Some p -> length h = 65%nat -> h <> ser false p ->
  pubkey_eqb parse ser h (ser true p) = false /\ pubkey_eqb parse ser h (ser false p) = false /\
  pubkey_compress parse ser h = ser true p.
Proof.
  intros H L D. assert (P : is_point p) by exact (parsed_point _ _ H).
  assert (C : compared parse ser h = h) by (unfold compared; rewrite H, L; reflexivity).
  assert (C1 : compared parse ser (ser true p) = ser false p) by (unfold compared; rewrite parse_ser, ser_len by exact P; reflexivity).
  assert (C2 : compared parse ser (ser false p) = ser false p) by (unfold compared; rewrite parse_ser, ser_len by exact P; reflexivity).
  split; [| split].
  - apply Bool.not_true_iff_false. rewrite eqb_exact, C, C1. exact D.
  - apply Bool.not_true_iff_false. rewrite eqb_exact, C, C2. exact D.
  - apply compress_exact. exact H.
Qed.
End P.

(* ---------------------------------------------------------------- signatures *)
Lemma half_order : 2 * (secp_order / 2) + 1 = secp_order. Proof. vm_compute. reflexivity. Qed.
Lemma normal_other r s : is_point s -> normal (r, secp_order - s) = normal (r, s).
Proof.
  unfold normal, is_point. cbn [fst snd]. pose proof half_order as H. revert H. generalize (secp_order / 2). generalize secp_order.
  intros o h H [A B]. destruct (h <? s) eqn:C, (h <? o - s) eqn:D; apply (f_equal (pair r)); lia.
Qed.
Lemma normal_low rs : snd rs <= secp_order / 2 -> normal rs = rs.
Proof. intro H. apply N.ltb_ge in H. unfold normal. rewrite H. reflexivity. Qed.
Lemma verify_malleable parse der ecdsa k d x y r s : is_point s -> der x = Some (r, s) -> der y = Some (r, secp_order - s) ->
  pubkey_verify parse der ecdsa k d x = pubkey_verify parse der ecdsa k d y.
Proof. intros P X Y. unfold pubkey_verify. rewrite X, Y, (normal_other r s P). reflexivity. Qed.
Lemma verify_exact parse der ecdsa k d x : (forall p, ecdsa p d (0, 0) = false) ->
  pubkey_verify parse der ecdsa k d x = true <->
  exists p rs, parse k = Some p /\ der x = Some rs /\ ecdsa p d (normal rs) = true.
Proof.
  intro Z. unfold pubkey_verify. split.
  - destruct (parse k) as [p|]; [| discriminate]. destruct (der x) as [rs|]; intro H; [eauto |].
    change (normal (0, 0)) with (normal (0, 0)) in H. rewrite normal_low in H by (vm_compute; discriminate). rewrite Z in H. discriminate.
  - intros [p [rs [-> [-> H]]]]. exact H.
Qed.

(* ---------------------------------------------------------------- the incrementing source *)
Lemma one_point : is_point (be_val (le 32 1)).
Proof. split; reflexivity. Qed.
Lemma one_secret : is_secret (le 32 1).
Proof. split; [reflexivity | exact one_point]. Qed.
Lemma one_fixed strict : secret_plus strict (le 32 1) (le 32 1) = le 32 1.
Proof. rewrite plus_exact by apply one_secret. vm_compute. reflexivity. Qed.
Lemma increment_fixed strict n : increment_key strict n (le 32 1) = le 32 1.
Proof. induction n as [|n IH]; [reflexivity |]. cbn [increment_key increment_next snd]. rewrite one_fixed. exact IH. Qed.
Lemma zero_next strict : secret_plus strict (repeat x00 32) (le 32 1) = if strict then repeat x00 32 else le 32 1.
Proof. destruct strict; vm_compute; reflexivity. Qed.
Lemma increment_zero strict n : increment_key strict n (repeat x00 32) = if strict || (n =? 0)%nat then repeat x00 32 else le 32 1.
Proof.
  destruct n as [|n].
  - rewrite Bool.orb_true_r. reflexivity.
  - cbn [increment_key increment_next snd]. rewrite zero_next. destruct strict; cbn [orb Nat.eqb]; [| apply increment_fixed].
    induction n as [|n IH]; [reflexivity |]. cbn [increment_key increment_next snd]. rewrite (zero_next true). exact IH.
Qed.
Lemma increment_exact strict key n : is_secret key ->
  increment_key strict (S n) key =
    if negb (sum_of key (le 32 1) =? 0) then le 32 1 else if strict || (n =? 0)%nat then repeat x00 32 else le 32 1.
Proof.
  intro K. cbn [increment_key increment_next snd]. rewrite (plus_exact strict key _ K one_secret).
  destruct (_ =? 0); cbn [negb]; [apply increment_zero | apply increment_fixed].
Qed.
Lemma increment_constant strict key : is_secret key -> sum_of key (le 32 1) <> 0 ->
  forall n, increment_key strict (S n) key = le 32 1.
Proof. intros K Z n. rewrite (increment_exact strict key n K). apply N.eqb_neq in Z. rewrite Z. reflexivity. Qed.
(* ---------------------------------------------------------------- the random source *)
Lemma random_never_loop fuel draw i : random_loop fuel draw i = More.
Proof.
  revert i. induction fuel as [|f IH]; intro i; cbn [random_loop]; unfold secret_valid; cbn [s_net s_value];
    rewrite Bool.andb_false_r; [reflexivity | apply IH].
Qed.
Lemma random_never fuel n c draw i : random_next fuel n c draw i = More.
Proof. unfold random_next. rewrite random_never_loop. reflexivity. Qed.

(* ---------------------------------------------------------------- entropy *)
Lemma firstn_zeros n m : (n <= m)%nat -> firstn n (repeat x00 m) = repeat x00 n.
Proof. revert m. induction n as [|n IH]; intros [|m] H; cbn; try reflexivity; [lia |]. f_equal. apply IH. lia. Qed.
Lemma read_first s : s <= 32 ->
  entropy_read entropy_new s = Ret (repeat x00 (N.to_nat s), mkentropy (repeat x00 32) (32 + s)).
Proof.
  intro S. unfold entropy_read, entropy_new. cbn [en_position en_data].
  change (w32 (32 + 4294967296 - 32)) with 0. replace (s <? 0) with false by lia. replace (32 <? s) with false by lia.
  rewrite firstn_zeros by lia. f_equal. f_equal. f_equal. unfold w32. apply N.mod_small. lia.
Qed.
Lemma read_big s : 32 < s -> entropy_read entropy_new s = Undef.
Proof.
  intro S. unfold entropy_read, entropy_new. cbn [en_position en_data].
  change (w32 (32 + 4294967296 - 32)) with 0. replace (s <? 0) with false by lia. replace (32 <? s) with true by lia. reflexivity.
Qed.
Lemma read_later d t s : 0 < t <= 32 -> entropy_read (mkentropy d (32 + t)) s = Undef.
Proof.
  intros T. unfold entropy_read. cbn [en_position en_data].
  replace (w32 (32 + 4294967296 - (32 + t))) with (4294967296 - t) by (unfold w32; rewrite N.mod_small; lia).
  destruct (s <? 4294967296 - t) eqn:A; [reflexivity |]. replace (32 <? s) with true by lia. reflexivity.
Qed.
Lemma reads_zeros k s : s <= 32 ->
  entropy_reads entropy_new (repeat 0 k ++ [s]) = Ret (repeat [] k ++ [repeat x00 (N.to_nat s)]).
Proof.
  intro S. induction k as [|k IH].
  - cbn [repeat app entropy_reads]. rewrite (read_first s S). reflexivity.
  - cbn [repeat app entropy_reads]. rewrite (read_first 0) by lia. change (mkentropy (repeat x00 32) (32 + 0)) with entropy_new.
    rewrite IH. reflexivity.
Qed.
Lemma reads_exact sizes :
  (servable sizes -> entropy_reads entropy_new sizes = Ret (map (fun s => repeat x00 (N.to_nat s)) sizes)) /\
  (~ servable sizes -> entropy_reads entropy_new sizes = Undef).
Proof.
  split.
  - intros [-> | [k [s [-> S]]]]; [reflexivity |]. rewrite (reads_zeros k s S), map_app. f_equal. f_equal.
    clear. induction k as [|k IH]; [reflexivity |]. cbn [repeat map]. f_equal. exact IH.
  - induction sizes as [|s r IH]; intro H; [exfalso; apply H; left; reflexivity |].
    cbn [entropy_reads]. destruct (N.le_gt_cases s 32) as [S | S]; [| rewrite (read_big s S); reflexivity].
    rewrite (read_first s S). destruct (N.eq_dec s 0) as [-> | Z].
    + change (mkentropy (repeat x00 32) (32 + 0)) with entropy_new. rewrite IH; [reflexivity |]. intros [-> | [k [t [-> T]]]]; apply H; right.
      * exists O, 0. split; [reflexivity | lia].
      * exists (Datatypes.S k), t. split; [reflexivity | exact T].
    + destruct r as [|t r]; [exfalso; apply H; right; exists O, s; split; [reflexivity | exact S] |].
      cbn [entropy_reads]. rewrite read_later by lia. reflexivity.
Qed.
