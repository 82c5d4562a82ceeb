(* Reading derivation paths. *)
From Verif Require Import Base BaseProofs WireModel MerkleModel TextModel TextSpec TextProofs HdModel HdSpec.
From Coq Require Import Lia ZifyBool ZifyNat ZifyN.
Local Open Scope N_scope.

Lemma digit_val c : is_digit c = true -> 48 <= b2n c <= 57.
Proof. unfold is_digit. lia. Qed.
Lemma quote_not_digit : is_digit char_quote = false. Proof. reflexivity. Qed.
Lemma slash_not_digit : is_digit char_slash = false. Proof. reflexivity. Qed.

Lemma horner_from_mono ds : forall acc, acc <= horner_from acc 10 ds.
Proof. induction ds as [|d r IH]; intros acc; cbn [horner_from]; [lia|]. specialize (IH (acc * 10 + d)). lia. Qed.

Lemma loop_done paths n : forall f, read_path_loop f [] n paths = Done paths.
Proof. intros []; reflexivity. Qed.

Lemma loop_digit f c r n paths : is_digit c = true -> n * 10 + digit_value c < 0x80000000 ->
  read_path_loop (S f) (c :: r) n paths = read_path_loop f r (n * 10 + digit_value c) (match r with [] => paths ++ [n * 10 + digit_value c] | _ => paths end).
Proof.
  intros D B. cbn [read_path_loop]. rewrite D. cbv zeta. fold (digit_value c).
  replace (0x80000000 <=? n * 10 + digit_value c) with false by lia. reflexivity.
Qed.
Lemma loop_quote f r n paths : read_path_loop (S f) (char_quote :: r) n paths = read_path_loop f (skipn 1 r) 0 (paths ++ [N.lor n 0x80000000]).
Proof. reflexivity. Qed.
Lemma loop_slash f d r n paths : is_digit d = true -> read_path_loop (S f) (char_slash :: d :: r) n paths = read_path_loop f (d :: r) 0 (paths ++ [n]).
Proof. intros D. change (read_path_loop (S f) (char_slash :: d :: r) n paths) with (if is_digit d then read_path_loop f (d :: r) 0 (paths ++ [n]) else Done []). rewrite D. reflexivity. Qed.

(* digits, then something else *)
Lemma loop_digits ds : Forall (fun c => is_digit c = true) ds -> forall n c r paths f,
  horner_from n 10 (map digit_value ds) < 0x80000000 ->
  read_path_loop (length ds + f) (ds ++ c :: r) n paths = read_path_loop f (c :: r) (horner_from n 10 (map digit_value ds)) paths.
Proof.
  induction 1 as [|d ds D F IH]; intros n c r paths f B; [reflexivity|].
  cbn [map horner_from] in B |- *. cbn [length app Nat.add].
  pose proof (horner_from_mono (map digit_value ds) (n * 10 + digit_value d)).
  rewrite loop_digit by (assumption || lia).
  replace (match ds ++ c :: r with [] => paths ++ [n * 10 + digit_value d] | _ => paths end) with paths by (destruct ds; reflexivity).
  apply IH. exact B.
Qed.
(* digits up to the end *)
Lemma loop_last ds : Forall (fun c => is_digit c = true) ds -> forall n paths f, ds <> [] ->
  horner_from n 10 (map digit_value ds) < 0x80000000 ->
  read_path_loop (length ds + f) ds n paths = Done (paths ++ [horner_from n 10 (map digit_value ds)]).
Proof.
  induction 1 as [|d ds D F IH]; intros n paths f Ne B; [congruence|].
  cbn [map horner_from] in B |- *. cbn [length Nat.add].
  pose proof (horner_from_mono (map digit_value ds) (n * 10 + digit_value d)).
  rewrite loop_digit by (assumption || lia). destruct ds as [|e ds].
  - cbn [length Nat.add map horner_from]. apply loop_done.
  - apply IH; [discriminate|exact B].
Qed.
(* digits of a number that is too large *)
Lemma loop_over ds : Forall (fun c => is_digit c = true) ds -> forall n r paths f, n < 0x80000000 ->
  0x80000000 <= horner_from n 10 (map digit_value ds) ->
  read_path_loop (length ds + f) (ds ++ r) n paths = Done [].
Proof.
  induction 1 as [|d ds D F IH]; intros n r paths f Hn B; [cbn [map horner_from] in B; lia|].
  cbn [map horner_from] in B. cbn [length app Nat.add].
  destruct (N.ltb_spec (n * 10 + digit_value d) 0x80000000) as [L|L].
  - rewrite loop_digit by assumption. apply IH; assumption.
  - cbn [read_path_loop]. rewrite D. cbv zeta. fold (digit_value d). replace (0x80000000 <=? n * 10 + digit_value d) with true by lia. reflexivity.
Qed.
(* any other character is looked at for ever *)
Lemma loop_stuck c r n paths : ~ path_char c -> forall f, read_path_loop f (c :: r) n paths = More.
Proof.
  intros P. induction f as [|f IH]; [reflexivity|]. cbn [read_path_loop].
  destruct (is_digit c) eqn:D; [exfalso; apply P; left; exact D|].
  destruct (byte_eqb c char_quote) eqn:Q; [exfalso; apply P; right; left; apply byte_eqb_eq; exact Q|].
  destruct (byte_eqb c char_slash) eqn:L; [exfalso; apply P; right; right; apply byte_eqb_eq; exact L|].
  exact IH.
Qed.
Lemma loop_ends p : forall k n paths f, (length p <= k)%nat -> (length p <= f)%nat -> Forall path_char p -> exists l, read_path_loop f p n paths = Done l.
Proof.
  intros k. revert p. induction k as [|k IH]; intros [|c r] n paths f K L F; try (exists paths; apply loop_done); cbn [length] in *; [lia|].
  destruct f as [|f]; [lia|]. inversion F as [|? ? Pc Fr]; subst. cbn [read_path_loop].
  destruct (is_digit c) eqn:D.
  - cbv zeta. destruct (0x80000000 <=? _); [eexists; reflexivity|]. apply IH; [lia|lia|assumption].
  - destruct (byte_eqb c char_quote) eqn:Q.
    + apply IH; [destruct r; cbn [skipn length] in *; lia|destruct r; cbn [skipn length] in *; lia|]. destruct r; cbn [skipn]; [constructor|inversion Fr; assumption].
    + destruct (byte_eqb c char_slash) eqn:E.
      * destruct r as [|d r]; [eexists; reflexivity|]. destruct (is_digit d); [|eexists; reflexivity]. apply IH; [lia|lia|assumption].
      * exfalso. destruct Pc as [P|[P|P]]; [congruence| |]; subst; [rewrite byte_eqb_refl in Q|rewrite byte_eqb_refl in E]; discriminate.
Qed.

Lemma lor_harden n : n < 0x80000000 -> N.lor n 0x80000000 = n + 0x80000000.
Proof.
  intros B. assert (Q : N.land n 0x80000000 = 0).
  { change 0x80000000 with (2 ^ 31) in *. apply N.bits_inj_0. intros k. rewrite N.land_spec, N.pow2_bits_eqb.
    destruct (N.eqb_spec 31 k) as [<-|]; [|apply andb_false_r]. rewrite andb_true_r.
    destruct (N.eq_dec n 0) as [->|Z]; [apply N.bits_0|]. apply N.bits_above_log2. apply N.log2_lt_pow2; lia. }
  rewrite <- N.lxor_lor by exact Q. symmetry. apply N.add_nocarry_lxor. exact Q.
Qed.

(* ---- well formed texts ---- *)
Lemma step_first s c : step_text s c -> exists d r, s = d :: r /\ is_digit d = true.
Proof.
  intros [[_ (Ne & F & _)]|(t & n & -> & (Ne & F & _) & _)].
  - destruct s as [|d r]; [congruence|]. inversion F; subst. eauto.
  - destruct t as [|d r]; [congruence|]. inversion F; subst. exists d, (r ++ [char_quote]). auto.
Qed.
Lemma path_first t l : path_text t l -> l <> [] -> exists d r, t = d :: r /\ is_digit d = true.
Proof.
  intros P Ne. inversion P as [|s c St|s c t' l' St Pt]; subst; [congruence| |].
  - apply (step_first _ _ St).
  - destruct (step_first _ _ St) as (d & r & -> & D). exists d, (r ++ char_slash :: t'). auto.
Qed.
Lemma step_last s c : step_text s c -> forall paths f, (length s <= f)%nat -> read_path_loop f s 0 paths = Done (paths ++ [c]).
Proof.
  intros [[B (Ne & F & E)]|(t & n & -> & (Ne & F & E) & B & ->)] paths f L.
  - replace f with (length s + (f - length s))%nat by lia. unfold horner in E. rewrite loop_last by (assumption || lia). congruence.
  - rewrite app_length in L. cbn [length] in L. replace f with (length t + S (f - length t - 1))%nat by lia.
    unfold horner in E. rewrite loop_digits by (assumption || lia). rewrite loop_quote. cbn [skipn]. rewrite loop_done. rewrite E, lor_harden by assumption. reflexivity.
Qed.
Lemma step_more s c : step_text s c -> forall d r paths f, is_digit d = true -> (length s < f)%nat ->
  exists g, read_path_loop f (s ++ char_slash :: d :: r) 0 paths = read_path_loop g (d :: r) 0 (paths ++ [c]) /\ (f <= g + length s + 1)%nat.
Proof.
  intros [[B (Ne & F & E)]|(t & n & -> & (Ne & F & E) & B & ->)] d r paths f D L.
  - exists (f - length s - 1)%nat. split; [|lia]. replace f with (length s + S (f - length s - 1))%nat at 1 by lia. unfold horner in E.
    rewrite loop_digits by (assumption || lia). rewrite loop_slash by assumption. congruence.
  - rewrite app_length in *. cbn [length] in *. exists (f - length t - 1)%nat. split; [|lia]. replace f with (length t + S (f - length t - 1))%nat at 1 by lia.
    rewrite <- app_assoc. cbn [app]. unfold horner in E. rewrite loop_digits by (assumption || lia). rewrite loop_quote. cbn [skipn]. rewrite E, lor_harden by assumption. reflexivity.
Qed.
Lemma path_loop t l : path_text t l -> forall paths f, (length t <= f)%nat -> read_path_loop f t 0 paths = Done (paths ++ l).
Proof.
  induction 1 as [|s c St|s c t l St Pt IH Ne]; intros paths f L.
  - rewrite app_nil_r. apply loop_done.
  - apply step_last; assumption.
  - destruct (path_first _ _ Pt Ne) as (d & r & -> & D). rewrite app_length in L. cbn [length] in *.
    destruct (step_more _ _ St d r paths f D ltac:(lia)) as (g & -> & G). rewrite IH by lia. rewrite <- app_assoc. reflexivity.
Qed.
Lemma read_path_text t l f : path_text t l -> (length t <= f)%nat -> read_path f t = Done l.
Proof.
  intros P L. unfold read_path. destruct t as [|c r].
  - inversion P as [|s c St|s c t' l' St Pt Ne E]; subst; [reflexivity| |destruct s; discriminate]. destruct (step_first _ _ St) as (d & r & C & _). discriminate.
  - apply (path_loop _ _ P [] f L).
Qed.

(* ---- the canonical text ---- *)
Lemma map_digit_ascii ds : Forall (fun d => d < 10) ds ->
  Forall (fun c => is_digit c = true) (map (fun d => n2b (d + 48)) ds) /\ map digit_value (map (fun d => n2b (d + 48)) ds) = ds.
Proof.
  induction 1 as [|d ds D F [IH1 IH2]]; [split; constructor|].
  assert (V : b2n (n2b (d + 48)) = d + 48) by (rewrite b2n_n2b; apply N.mod_small; lia).
  cbn [map]. split.
  - constructor; [unfold is_digit; rewrite V; lia|exact IH1].
  - rewrite IH2. f_equal. unfold digit_value. rewrite V. lia.
Qed.
Lemma decimal_numeral n : numeral (decimal n) n.
Proof.
  unfold decimal. destruct (N.eqb_spec n 0) as [->|Z].
  - split; [discriminate|]. split; [repeat constructor|reflexivity].
  - destruct (digits_ok 10 n ltac:(lia)) as (E & F & C). apply Forall_rev in F. destruct (map_digit_ascii _ F) as [F1 F2].
    rewrite <- map_rev. split; [|split; [exact F1|]].
    + intros X. apply map_eq_nil in X. assert (Y : digits 10 n = []) by (rewrite <- (rev_involutive (digits 10 n)), X; reflexivity).
      rewrite Y in E. cbn [num] in E. lia.
    + rewrite F2, horner_rev, rev_involutive. exact E.
Qed.
Lemma step_write_text c : c < 2 ^ 32 -> step_text (step_write c) c.
Proof.
  change (2 ^ 32) with 4294967296. intros B. unfold step_write. destruct (N.ltb_spec c 0x80000000) as [L|L].
  - left. split; [exact L|apply decimal_numeral].
  - right. exists (decimal (c - 0x80000000)), (c - 0x80000000). split; [reflexivity|]. split; [apply decimal_numeral|]. lia.
Qed.
Lemma path_write_text l : Forall (fun c => c < 2 ^ 32) l -> path_text (path_write l) l.
Proof.
  induction 1 as [|c l B F IH]; [constructor|]. destruct l as [|d l].
  - apply pt_one. apply step_write_text; exact B.
  - change (path_write (c :: d :: l)) with (step_write c ++ char_slash :: path_write (d :: l)).
    apply pt_more; [apply step_write_text; exact B|exact IH|discriminate].
Qed.
Lemma path_write_read l f : Forall (fun c => c < 2 ^ 32) l -> (length (path_write l) <= f)%nat -> read_path f (path_write l) = Done l.
Proof. intros F. apply read_path_text. apply path_write_text. exact F. Qed.
Lemma path_text_fun t l m : path_text t l -> path_text t m -> l = m.
Proof. intros P Q. pose proof (read_path_text t l (length t) P (le_n _)). pose proof (read_path_text t m (length t) Q (le_n _)). congruence. Qed.

(* ---- everything else ---- *)
Lemma read_path_ends p f : Forall path_char p -> (length p <= f)%nat -> exists l, read_path f p = Done l.
Proof. intros F L. unfold read_path. destruct p; [eexists; reflexivity|]. apply (loop_ends _ _ 0 [] f (le_n _) L F). Qed.

(* a foreign character after a good beginning *)
Lemma stuck_after_digits ds c r f : Forall (fun c => is_digit c = true) ds -> horner 10 (map digit_value ds) < 0x80000000 -> ~ path_char c ->
  forall n paths, n = 0 -> read_path_loop f (ds ++ c :: r) n paths = More.
Proof.
  intros F B P n paths ->. unfold horner in B. destruct (Nat.leb_spec (length ds) f) as [L|L].
  - replace f with (length ds + (f - length ds))%nat by lia. rewrite loop_digits by assumption. apply loop_stuck. exact P.
  - revert paths f L. revert B. generalize 0 at 1 2 as n. induction F as [|d ds D F IH]; intros n B paths f L; cbn [length] in L; [lia|].
    destruct f as [|f]; [reflexivity|]. cbn [map horner_from] in B. cbn [app].
    pose proof (horner_from_mono (map digit_value ds) (n * 10 + digit_value d)).
    rewrite loop_digit by (assumption || lia). apply IH; [exact B|lia].
Qed.
Lemma read_path_stuck ds c r f : Forall (fun c => is_digit c = true) ds -> horner 10 (map digit_value ds) < 0x80000000 -> ~ path_char c ->
  read_path f (ds ++ c :: r) = More.
Proof.
  intros F B P. unfold read_path. pose proof (stuck_after_digits ds c r f F B P 0 [] eq_refl) as E.
  destruct (ds ++ c :: r) eqn:X; [destruct ds; discriminate|]. exact E.
Qed.
Lemma step_more_short s c : step_text s c -> forall r paths f, (f <= length s)%nat -> r <> [] -> read_path_loop f (s ++ char_slash :: r) 0 paths = More.
Proof.
  assert (Short : forall ds, Forall (fun c => is_digit c = true) ds -> forall n x q paths f, (f <= length ds)%nat -> horner_from n 10 (map digit_value ds) < 0x80000000 ->
    read_path_loop f (ds ++ x :: q) n paths = More).
  { induction 1 as [|d ds D F IH]; intros n x q paths f L B; cbn [length] in L.
    - destruct f; [reflexivity|lia].
    - destruct f as [|f]; [reflexivity|]. cbn [map horner_from] in B. cbn [app].
      pose proof (horner_from_mono (map digit_value ds) (n * 10 + digit_value d)).
      rewrite loop_digit by (assumption || lia).
      replace (match ds ++ x :: q with [] => paths ++ [n * 10 + digit_value d] | _ => paths end) with paths by (destruct ds; reflexivity).
      apply IH; [lia|exact B]. }
  intros [[B (Ne & F & E)]|(t & n & -> & (Ne & F & E) & B & ->)] r paths f L Nr; unfold horner in E.
  - apply Short; [assumption|lia|lia].
  - rewrite app_length in L. cbn [length] in L. rewrite <- app_assoc. cbn [app]. destruct (Nat.leb_spec f (length t)) as [K|K].
    + apply Short; [assumption|lia|lia].
    + replace f with (length t + S 0)%nat by lia. rewrite loop_digits by (assumption || lia). rewrite loop_quote. cbn [skipn]. destruct r; [congruence|]. reflexivity.
Qed.
Lemma path_prefix t l : path_text t l -> l <> [] -> forall d r paths f, is_digit d = true ->
  read_path_loop f (t ++ char_slash :: d :: r) 0 paths = More \/ exists g, read_path_loop f (t ++ char_slash :: d :: r) 0 paths = read_path_loop g (d :: r) 0 (paths ++ l).
Proof.
  induction 1 as [|s c St|s c t l St Pt IH Ne]; intros Nl d r paths f D; [congruence| |].
  - destruct (Nat.leb_spec f (length s)) as [L|L]; [left; apply (step_more_short _ _ St); [exact L|discriminate]|].
    right. destruct (step_more _ _ St d r paths f D L) as (g & -> & _). exists g. reflexivity.
  - rewrite <- app_assoc. cbn [app]. destruct (path_first _ _ Pt Ne) as (e & q & -> & E).
    destruct (Nat.leb_spec f (length s)) as [L|L]; [left; apply (step_more_short _ _ St); [exact L|discriminate]|].
    cbn [app]. destruct (step_more _ _ St e (q ++ char_slash :: d :: r) paths f E L) as (g & -> & _).
    destruct (IH Ne d r (paths ++ [c]) g D) as [X|(h & X)]; cbn [app] in X; [left; exact X|right]. exists h. rewrite X. rewrite <- app_assoc. reflexivity.
Qed.
Lemma read_path_stuck_later t l ds c r f : path_text t l -> l <> [] -> ds <> [] -> Forall (fun c => is_digit c = true) ds -> horner 10 (map digit_value ds) < 0x80000000 -> ~ path_char c ->
  read_path f (t ++ char_slash :: ds ++ c :: r) = More.
Proof.
  intros P Nl Nd F B Pc. destruct ds as [|d ds]; [congruence|]. assert (D : is_digit d = true) by (inversion F; assumption).
  unfold read_path. destruct (t ++ char_slash :: (d :: ds) ++ c :: r) eqn:X; [destruct t; discriminate|]. rewrite <- X. cbn [app].
  destruct (path_prefix _ _ P Nl d (ds ++ c :: r) [] f D) as [-> |(g & ->)]; [reflexivity|].
  apply (stuck_after_digits (d :: ds) c r g F B Pc). reflexivity.
Qed.
Lemma read_path_over ds r f : ds <> [] -> Forall (fun c => is_digit c = true) ds -> 0x80000000 <= horner 10 (map digit_value ds) -> (length ds <= f)%nat ->
  read_path f (ds ++ r) = Done [].
Proof.
  intros Ne F B L. unfold read_path. destruct (ds ++ r) eqn:X; [destruct ds; [congruence|discriminate]|]. rewrite <- X.
  replace f with (length ds + (f - length ds))%nat by lia. apply loop_over; [assumption|lia|exact B].
Qed.
(* after a quote one character is not looked at *)
Lemma read_path_skip t n c u l f : numeral t n -> n < 0x80000000 -> path_text u l -> (length t + length u + 2 <= f)%nat ->
  read_path f (t ++ char_quote :: c :: u) = Done (n + 0x80000000 :: l).
Proof.
  intros (Ne & F & E) B P L. unfold read_path. destruct (t ++ char_quote :: c :: u) eqn:X; [destruct t; discriminate|]. rewrite <- X. unfold horner in E.
  replace f with (length t + S (f - length t - 1))%nat by lia. rewrite loop_digits by (assumption || lia). rewrite loop_quote. cbn [skipn].
  rewrite (path_loop _ _ P) by lia. rewrite E, lor_harden by assumption. reflexivity.
Qed.
Lemma read_path_slash t l f : path_text t l -> l <> [] -> (length t < f)%nat -> read_path f (char_slash :: t) = Done (0 :: l).
Proof.
  intros P Ne L. unfold read_path. destruct (path_first _ _ P Ne) as (d & r & -> & D). destruct f as [|f]; [lia|].
  rewrite loop_slash by assumption. apply (path_loop _ _ P [0]). cbn [length] in *. lia.
Qed.
