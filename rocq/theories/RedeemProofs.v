(* Proofs about redeeming. *)
From Coq Require Import Lia ZifyBool ZifyNat ZifyN.
From Verif Require Import Base BaseProofs WireModel WireSpec WireProofs TextModel SecpModel SecpSpec SecpProofs ScriptModel ScriptSpec ScriptProofs ProgramProofs.
From Verif Require Import StackModel StackSpec StackProofs MachineModel MachineSpec PatternModel PatternSpec PatternProofs PatternTemplates SighashModel SighashSpec SighashProofs OriginalProofs.
From Verif Require Import ExtModel StraightSpec StraightProofs StraightEval PayRunSpec PayRunProofs RedeemModel RedeemSpec.
Local Open Scope N_scope.

(* ---------------------------------------------------------------- the script code *)
Lemma segments_len p s : segments p s -> length p = length s.
Proof. induction 1; cbn [length]; congruence. Qed.
Lemma segments_bytes p s : segments p s -> (length s <= length (concat s))%nat.
Proof.
  induction 1 as [|i p c s Hi Hs IH]; cbn [concat length]; [lia|]. rewrite app_length. apply inst_nonempty in Hi. destruct c; [congruence|]. cbn [length]. lia.
Qed.
Lemma segments_app p s q t : segments p s -> segments q t -> segments (p ++ q) (s ++ t).
Proof. intros A B. induction A; cbn [app]; [assumption|]. constructor; assumption. Qed.

Lemma steps_next k c : pc_steps (S k) c = match pc_steps k c with Ret c' => pc_step c' | Throw e => Throw e | Undef => Undef end.
Proof.
  revert c. induction k as [|k IH]; intros c; [cbn [pc_steps]; destruct (pc_step c); reflexivity|].
  change (pc_steps (S (S k)) c) with (match pc_step c with Ret c' => pc_steps (S k) c' | Throw e => Throw e | Undef => Undef end).
  change (pc_steps (S k) c) with (match pc_step c with Ret c' => pc_steps k c' | Throw e => Throw e | Undef => Undef end).
  destruct (pc_step c); [apply IH|reflexivity|reflexivity].
Qed.

Lemma end_reached n : forall fuel c c', (n <= fuel)%nat -> pc_steps n c = Ret c' -> pc_next c' = [] ->
  (forall m d, (m < n)%nat -> pc_steps m c = Ret d -> pc_next d <> []) -> to_the_end fuel c = script_code c'.
Proof.
  induction n as [|n IH]; intros fuel c c' L E Z NZ.
  - assert (c' = c) by (cbn [pc_steps] in E; congruence). subst. destruct fuel; cbn [to_the_end]; rewrite Z; reflexivity.
  - destruct fuel as [|fuel]; [lia|]. cbn [to_the_end]. pose proof (NZ O c ltac:(lia) eq_refl) as N0. destruct (pc_next c) eqn:En; [congruence|].
    cbn [pc_steps] in E. destruct (pc_step c) as [c1| |] eqn:E1; try discriminate. apply (IH fuel c1 c'); [lia|assumption|assumption|].
    intros m d Hm Hd. apply (NZ (S m) d); [lia|]. cbn [pc_steps]. rewrite E1. assumption.
Qed.

Theorem last_separator p s : segments p s -> len (concat s) < 2 ^ 31 ->
  exists j, after_last_separator p (length p) j /\ remove_after_last_code_separator (concat s) = decompile (concat (skipn j s)).
Proof.
  intros Hs L. destruct (counter_visits p s (length p) Hs L) as (c0 & c & j & E0 & Ek & En & _ & _ & Aj & _ & Ec).
  exists j. split; [assumption|]. unfold remove_after_last_code_separator. rewrite E0, <- Ec.
  apply (end_reached (length p)); [|assumption| |].
  - rewrite (segments_len _ _ Hs). apply (segments_bytes _ _ Hs).
  - rewrite En, (segments_len _ _ Hs). apply nth_overflow. lia.
  - intros m d Hm Hd. destruct (counter_visits p s m Hs L) as (c0' & d' & j' & E0' & Em & Enm & _).
    assert (c0' = c0) by congruence. subst. assert (d' = d) by congruence. subst. rewrite Enm.
    assert (F : Forall (fun c => c <> []) s). { clear - Hs. induction Hs; constructor; [eapply inst_nonempty; eassumption|assumption]. }
    rewrite Forall_forall in F. apply F, nth_In. rewrite <- (segments_len _ _ Hs). assumption.
Qed.

Lemma separator_after p q j : (forall o, In o (ops q) -> o <> OP_CODESEPARATOR) ->
  after_last_separator (p ++ [op_instr OP_CODESEPARATOR] ++ q) (length (p ++ [op_instr OP_CODESEPARATOR] ++ q)) j -> j = (length p + 1)%nat.
Proof.
  intros N (J1 & J2 & J3). rewrite !app_length in *. cbn [length] in *.
  assert (Op : ops (p ++ [op_instr OP_CODESEPARATOR] ++ q) = ops p ++ OP_CODESEPARATOR :: ops q).
  { unfold ops. rewrite !map_app. reflexivity. }
  rewrite Op in *. assert (Lp : length (ops p) = length p) by apply map_length. assert (Lq : length (ops q) = length q) by apply map_length.
  assert (At : nth_error (ops p ++ OP_CODESEPARATOR :: ops q) (length p) = Some OP_CODESEPARATOR).
  { rewrite nth_error_app2 by lia. rewrite Lp, Nat.sub_diag. reflexivity. }
  destruct (Nat.le_gt_cases j (length p)) as [C|C].
  - exfalso. apply (J3 (length p)); [lia|assumption].
  - destruct (Nat.eq_dec j (length p + 1)) as [|D]; [assumption|exfalso]. destruct J2 as [J2|J2]; [lia|].
    rewrite nth_error_app2 in J2 by lia. destruct (j - 1 - length (ops p))%nat as [|m] eqn:Em; [lia|]. cbn [nth_error] in J2.
    apply nth_error_In in J2. now apply (N OP_CODESEPARATOR).
Qed.

Theorem separator_script so_far lx p s : whole_script so_far -> segments p s -> lx = concat s -> len lx < 2 ^ 30 ->
  (forall o, In o (ops p) -> o <> OP_CODESEPARATOR) ->
  remove_after_last_code_separator (so_far ++ [OP_CODESEPARATOR] ++ lx) = decompile lx.
Proof.
  intros (q & t & Hq & -> & Lq) Hp -> Lp N.
  assert (Hs : segments [op_instr OP_CODESEPARATOR] [[OP_CODESEPARATOR]]) by (constructor; [unfold is_inst; cbn; apply if_op; reflexivity|constructor]).
  pose proof (segments_app _ _ _ _ Hq (segments_app _ _ _ _ Hs Hp)) as A.
  assert (E : concat (t ++ [[OP_CODESEPARATOR]] ++ s) = concat t ++ [OP_CODESEPARATOR] ++ concat s) by (rewrite !concat_app; reflexivity).
  destruct (last_separator _ _ A) as (j & Aj & R).
  { rewrite E, !len_app. change (len [OP_CODESEPARATOR]) with 1. change (2 ^ 31) with 2147483648. change (2 ^ 30) with 1073741824 in *. lia. }
  apply separator_after in Aj; [|assumption]. rewrite <- E, R. f_equal. subst j. rewrite (segments_len _ _ Hq).
  change ([[OP_CODESEPARATOR]] ++ s) with ([OP_CODESEPARATOR] :: s).
  rewrite skipn_app, skipn_all2 by lia. replace (length t + 1 - length t)%nat with 1%nat by lia. reflexivity.
Qed.

(* ---------------------------------------------------------------- hashes and keys *)
Lemma in_range_dec d doc : in_range d doc \/ ~ in_range d doc.
Proof.
  unfold in_range. destruct (N.lt_ge_cases (sd_index doc) (N.of_nat (length (it_inputs (sd_tx doc))))) as [A|A]; [|right; lia].
  destruct (N.eq_dec (kind d) 3) as [K|K]; [|left; split; [assumption|intros; contradiction]].
  destruct (N.lt_ge_cases (sd_index doc) (N.of_nat (length (it_outputs (sd_tx doc))))) as [B|B]; [left; split; auto|].
  right. intros [_ C]. specialize (C K). lia.
Qed.
Theorem hash_defined H doc d : (forall b, len (H b) = 32) -> sdoc_wf doc -> exists h, signature_hash H doc d = Some h /\ len h = 32.
Proof.
  intros LH W. destruct (Z.le_gt_cases 0 (sd_value doc)) as [V|V].
  - destruct (in_range_dec d doc) as [R|R].
    + destruct (signature_hash_exact H doc d W V R) as (pre & _ & E). exists (H pre). auto.
    + exists (repeat x00 32). split; [apply signature_hash_zero_exact; auto|reflexivity].
  - exists (repeat x00 32). split; [apply signature_hash_zero_exact; left; lia|reflexivity].
Qed.

Section World.
Variable w : world.
Hypothesis Sw : sound w.
Notation parse := (w_parse w).
Notation ser := (w_ser w).

Lemma key_parsed x : is_secret (s_value x) -> parse (key_of w x) = Some (be_val (s_value x)).
Proof. intros [_ P]. apply (parse_ser parse ser (sw_encodings w Sw)). exact P. Qed.
Lemma key_length x : is_secret (s_value x) -> len (key_of w x) = if s_compressed x then 33 else 65.
Proof. intros [_ P]. unfold key_of, public_of, len. rewrite (ser_len parse ser (sw_encodings w Sw)) by exact P. destruct (s_compressed x); reflexivity. Qed.
Lemma public_key x : is_secret (s_value x) -> to_public parse ser x = key_of w x.
Proof.
  intros S. pose proof (sw_encodings w Sw) as E. unfold to_public. rewrite (SecpProofs.to_public ser true _ S). unfold key_of, public_of. destruct S as [_ P].
  pose proof (parse_ser parse ser E true _ P) as Q. destruct (s_compressed x).
  - apply (compress_exact parse ser E). exact Q.
  - rewrite (decompress_exact parse ser _ _ Q), (ser_len parse ser E) by exact P. reflexivity.
Qed.

Lemma verifies_iff k h s : pubkey_verify parse (w_der w) (w_ecdsa w) k h s = true <-> verifies w k h s.
Proof.
  unfold pubkey_verify, verifies. split.
  - destruct (parse k) as [p|] eqn:E; [|discriminate]. intros V. exists p, (match w_der w s with Some x => x | None => (0, 0) end). auto.
  - intros (p & rs & -> & -> & V). exact V.
Qed.

(* ---------------------------------------------------------------- the templates *)
Lemma template_ends q none s :
  (exists r, template_read (w_neg1 w) q none s = Ret r) <-> exists b, snd (pmatch (w_neg1 w) 0 q s [none]) = Matched b.
Proof.
  unfold template_read. destruct (pmatch (w_neg1 w) 0 q s [none]) as [v r]. cbn [snd]. destruct r as [[|]| | |]; split; intros [y E]; try discriminate; eauto.
Qed.

Lemma address_read s a : a <> zero20 -> address_script a s -> template_read (w_neg1 w) p2a_pattern zero20 s = Ret a.
Proof. intros Na A. apply (proj1 (reads_exact (w_neg1 w) s a (sw_neg1 w Sw))); assumption. Qed.
Lemma address_not_read s : (forall a, a <> zero20 -> ~ address_script a s) -> ~ (exists t, s = [x76; xa9] ++ t /\ unreadable t) ->
  template_read (w_neg1 w) p2a_pattern zero20 s = Ret zero20.
Proof.
  intros N U. apply (address_ends (w_neg1 w) 0 s [zero20]) in U. apply template_ends in U as [r E]. rewrite E. f_equal.
  destruct (list_eq_dec Byte.byte_eq_dec r zero20) as [|D]; [assumption|]. exfalso. apply (N r D). apply (proj1 (reads_exact (w_neg1 w) s r (sw_neg1 w Sw)) D). exact E.
Qed.
Lemma key_read s k : k <> [] -> pubkey_script k s -> template_read (w_neg1 w) p2p_pattern [] s = Ret k.
Proof. intros Na A. apply (proj2 (proj2 (proj2 (reads_exact (w_neg1 w) s k (sw_neg1 w Sw))))); assumption. Qed.
Lemma key_not_read s : (forall k, k <> [] -> ~ pubkey_script k s) -> ~ unreadable s -> template_read (w_neg1 w) p2p_pattern [] s = Ret [].
Proof.
  intros N U. apply (pubkey_ends (w_neg1 w) 0 s [[]]) in U. apply template_ends in U as [r E]. rewrite E. f_equal.
  destruct (list_eq_dec Byte.byte_eq_dec r []) as [|D]; [assumption|]. exfalso. apply (N r D). apply (proj2 (proj2 (proj2 (reads_exact (w_neg1 w) s r (sw_neg1 w Sw)))) D). exact E.
Qed.

(* ---------------------------------------------------------------- the default redeemer *)
Lemma nonempty_key k p : parse k = Some p -> k <> [].
Proof. intros E ->. apply (parsed_length parse ser (sw_encodings w Sw)) in E as [E|E]; discriminate. Qed.
Lemma bytes_eqb_neq (a b : bytes) : a <> b -> bytes_eqb a b = false.
Proof. intros N. destruct (bytes_eqb a b) eqn:E; [|reflexivity]. apply bytes_eqb_eq in E. contradiction. Qed.
Lemma bytes_eqb_same (a : bytes) : bytes_eqb a a = true.
Proof. apply bytes_eqb_eq. reflexivity. Qed.
Lemma not_address_unreadable a s : address_script a s -> ~ unreadable s /\ ~ exists t, s = [x76; xa9] ++ t /\ unreadable t.
Proof.
  intros A. split.
  - destruct A as (c & _ & _ & ->). cbn [app]. intros [(h & n & d & Hh & E & _)|[Z|(n & r & E & _)]].
    + destruct Hh as [n Hn|n Hn|n Hn|n Hn]; cbn [app] in E; try discriminate. assert (B : b2n x76 = b2n (n2b n)) by congruence.
      rewrite b2n_n2b in B by lia. change (b2n x76) with 118 in B. lia.
    + destruct Z as [(r & E)|[E|[(r & E & _)|[(r & E & _)|(r & E)]]]]; discriminate.
    + discriminate.
  - apply (address_ends (w_neg1 w) 0 s [zero20]). exists true. destruct (address_exact (w_neg1 w) 0 s [zero20] (put 0 a [zero20]) (sw_neg1 w Sw)) as [_ B].
    rewrite B by eauto. reflexivity.
Qed.

Theorem default_asked out doc x d so_far form : is_secret (s_value x) -> secret_valid x = true -> sdoc_wf doc -> asks w out x form ->
  exists h, signature_hash (w_hash w) doc d = Some h /\
    by_default w out doc [{| so_key := x; so_directive := d |}] so_far = compiled (form (w_sign w (s_value x) h ++ [d])).
Proof.
  intros Hx V W A. destruct (hash_defined (w_hash w) doc d (sw_hash w Sw) W) as (h & Eh & _). exists h. split; [assumption|].
  unfold by_default, redeem_default. cbn [so_key so_directive]. rewrite V, (public_key x Hx). unfold signature_sign. rewrite Eh. cbn [negb].
  destruct A as [Aa Nz|k p Ak Ep Ec].
  - rewrite (address_read _ _ Nz Aa), bytes_eqb_neq, bytes_eqb_same by assumption. reflexivity.
  - rewrite address_not_read.
    + rewrite bytes_eqb_same. cbn [negb]. rewrite (key_read _ k (nonempty_key _ _ Ep) Ak).
      rewrite (proj2 (pub_valid parse ser (sw_encodings w Sw) k)) by eauto. rewrite (proj2 (eqb_exact parse ser (sw_encodings w Sw) _ _) Ec). reflexivity.
    + intros a Na Aa. destruct (PatternTemplates.disjoint a k (out_script out)) as [D _]. destruct (D Aa) as (_ & _ & D'). contradiction.
    + intros (t & Et & _). destruct Ak as (c & Dp & _ & Es). rewrite Et in Es. cbn [app] in Es. destruct Dp as [L|L|L|L]; cbn [app] in Es; try discriminate.
      assert (B : b2n x76 = b2n (n2b (len k))) by congruence. rewrite b2n_n2b in B by lia. change (b2n x76) with 118 in B. lia.
Qed.

Theorem default_not_asked out doc x d so_far : is_secret (s_value x) -> secret_valid x = true -> sdoc_wf doc -> (forall form, ~ asks w out x form) ->
  (legible (out_script out) -> by_default w out doc [{| so_key := x; so_directive := d |}] so_far = Ret []) /\
  (~ legible (out_script out) -> forall s, by_default w out doc [{| so_key := x; so_directive := d |}] so_far <> Ret s).
Proof.
  intros Hx V W N. set (s := out_script out) in *. unfold by_default, redeem_default. cbn [so_key so_directive]. rewrite V, (public_key x Hx). cbn [negb]. fold s.
  destruct (template_read (w_neg1 w) p2a_pattern zero20 s) as [a|e|] eqn:Ea.
  - destruct (list_eq_dec Byte.byte_eq_dec a zero20) as [-> |Na].
    + rewrite bytes_eqb_same. cbn [negb]. assert (U1 : ~ exists t, s = [x76; xa9] ++ t /\ unreadable t).
      { apply (address_ends (w_neg1 w) 0 s [zero20]), template_ends. eauto. }
      destruct (template_read (w_neg1 w) p2p_pattern [] s) as [k|e|] eqn:Ek.
      * assert (U2 : ~ unreadable s) by (apply (pubkey_ends (w_neg1 w) 0 s [[]]), template_ends; eauto).
        assert (G : (if negb (pubkey_valid parse k) then Ret [] else if negb (pubkey_eqb parse ser k (key_of w x)) then Ret []
          else match signature_sign (w_hash w) (w_sign w) x doc d with Some g => compiled (p2p_redeem g) | None => Undef end) = @Ret sexn bytes []).
        { destruct (pubkey_valid parse k) eqn:Vk; [|reflexivity]. apply (pub_valid parse ser (sw_encodings w Sw)) in Vk as [p Ep]. cbn [negb].
          destruct (pubkey_eqb parse ser k (key_of w x)) eqn:Eq; [|reflexivity]. exfalso. apply (eqb_exact parse ser (sw_encodings w Sw)) in Eq.
          apply (N p2p_redeem). apply (asks_key w out x k p); [|assumption|assumption].
          apply (proj2 (proj2 (proj2 (reads_exact (w_neg1 w) s k (sw_neg1 w Sw))))); [eapply nonempty_key; eassumption|assumption]. }
        rewrite G. split; [reflexivity|]. intros NL. exfalso. apply NL. split; assumption.
      * split; [|discriminate]. intros [U2 _]. apply (pubkey_ends (w_neg1 w) 0 s [[]]), template_ends in U2 as [r E]. congruence.
      * split; [|discriminate]. intros [U2 _]. apply (pubkey_ends (w_neg1 w) 0 s [[]]), template_ends in U2 as [r E]. congruence.
    + rewrite bytes_eqb_neq by assumption. cbn [negb]. assert (Aa : address_script a s) by (apply (proj1 (reads_exact (w_neg1 w) s a (sw_neg1 w Sw)) Na); assumption).
      destruct (bytes_eqb a (address_of w (key_of w x))) eqn:Eq.
      * exfalso. apply bytes_eqb_eq in Eq. rewrite Eq in Aa, Na. apply (N (fun sig => p2a_redeem sig (key_of w x))). apply asks_address; assumption.
      * cbn [negb]. split; [reflexivity|]. intros NL. exfalso. apply NL. apply (not_address_unreadable a). assumption.
  - split; [|discriminate]. intros [_ U]. apply (address_ends (w_neg1 w) 0 s [zero20]), template_ends in U as [r E]. congruence.
  - split; [|discriminate]. intros [_ U]. apply (address_ends (w_neg1 w) 0 s [zero20]), template_ends in U as [r E]. congruence.
Qed.

Theorem default_no_key out doc sigs so_far : length sigs <> 1%nat \/ (exists s, sigs = [s] /\ secret_valid (so_key s) = false) ->
  by_default w out doc sigs so_far = Ret [].
Proof.
  intros C. unfold by_default, redeem_default. destruct sigs as [|s [|? ?]]; [reflexivity| |reflexivity].
  destruct C as [C|(s' & Es & C)]; [cbn [length] in C; lia|]. assert (s' = s) by congruence. subst. rewrite C. reflexivity.
Qed.
End World.

(* ---------------------------------------------------------------- the whole transaction *)
Lemma documents_get t l : forall k ds, k + N.of_nat (length l) <= 2 ^ 32 -> documents t k l = Ret ds ->
  length ds = length l /\
  forall n i, nth_error l n = Some i -> exists code, remove_after_last_code_separator (script_so_far i) = Ret code /\
    nth_error ds n = Some {| sd_tx := t; sd_index := k + N.of_nat n; sd_value := out_value (di_prevout (ri_input i)); sd_code := code |}.
Proof.
  induction l as [|i l IH]; intros k ds L E; cbn [documents] in E.
  - assert (ds = []) by congruence. subst. split; [reflexivity|]. intros n i Hn. destruct n; discriminate.
  - destruct (remove_after_last_code_separator (script_so_far i)) as [code| |] eqn:Ec; try discriminate.
    destruct (documents t ((k + 1) mod 2 ^ 32) l) as [ds'| |] eqn:Ed; try discriminate. cbn [length] in L.
    match type of E with Ret (?a :: ds') = _ => set (doc := a) in * end. assert (ds = doc :: ds') by congruence. subst ds.
    destruct l as [|j l].
    + cbn [documents] in Ed. assert (ds' = []) by congruence. subst. split; [reflexivity|]. intros n i' Hn. destruct n as [|[|n]]; try discriminate.
      cbn [nth_error] in *. assert (i' = i) by congruence. subst. exists code. split; [assumption|]. unfold doc. rewrite N.add_0_r. reflexivity.
    + assert (M : (k + 1) mod 2 ^ 32 = k + 1) by (apply N.mod_small; cbn [length] in L; lia). rewrite M in Ed.
      destruct (IH (k + 1) ds' ltac:(lia) Ed) as [Ll G]. split; [cbn [length] in *; congruence|].
      intros [|n] i' Hn; cbn [nth_error] in *.
      * assert (i' = i) by congruence. subst. exists code. split; [assumption|]. unfold doc. rewrite N.add_0_r. reflexivity.
      * destruct (G n i' Hn) as (c & Hc & Hd). exists c. split; [assumption|]. rewrite Hd. do 2 f_equal. lia.
Qed.
Lemma documents_exist t l : forall k, Forall (fun i => exists code, remove_after_last_code_separator (script_so_far i) = Ret code) l ->
  exists ds, documents t k l = Ret ds.
Proof.
  induction l as [|i l IH]; intros k F; cbn [documents]; [eauto|]. inversion F as [|? ? [code Hc] Fl]; subst. rewrite Hc.
  destruct (IH ((k + 1) mod 2 ^ 32) Fl) as [ds ->]. eauto.
Qed.

Lemma unlockings_get r l : forall ds ss, length ds = length l -> unlockings r l ds = Ret ss ->
  length ss = length l /\
  forall n i doc, nth_error l n = Some i -> nth_error ds n = Some doc ->
    exists s, r (di_prevout (ri_input i)) doc (ri_sigs i) (ri_so_far i) = Ret s /\ nth_error ss n = Some s.
Proof.
  induction l as [|i l IH]; intros [|doc ds] ss L E; try discriminate; cbn [unlockings] in E.
  - assert (ss = []) by congruence. subst. split; [reflexivity|]. intros [|n]; discriminate.
  - destruct (r _ doc _ _) as [s| |] eqn:Er; try discriminate. destruct (unlockings r l ds) as [ss'| |] eqn:Eu; try discriminate.
    assert (ss = s :: ss') by congruence. subst. destruct (IH ds ss' ltac:(cbn [length] in L; lia) Eu) as [Ls G]. split; [cbn [length]; congruence|].
    intros [|n] i' doc' Hi Hd; cbn [nth_error] in *; [|eauto]. assert (i' = i) by congruence. assert (doc' = doc) by congruence. subst. eauto.
Qed.
Lemma unlockings_exist r l : forall ds, length ds = length l ->
  (forall n i doc, nth_error l n = Some i -> nth_error ds n = Some doc -> exists s, r (di_prevout (ri_input i)) doc (ri_sigs i) (ri_so_far i) = Ret s) ->
  exists ss, unlockings r l ds = Ret ss.
Proof.
  induction l as [|i l IH]; intros [|doc ds] L G; try discriminate; cbn [unlockings]; [eauto|].
  destruct (G O i doc eq_refl eq_refl) as [s ->]. destruct (IH ds ltac:(cbn [length] in L; lia)) as [ss ->]; [|eauto].
  intros n i' doc' Hi Hd. apply (G (S n)); assumption.
Qed.

Lemma map2_nth {A B C} (f : A -> B -> C) l : forall m n a b, nth_error l n = Some a -> nth_error m n = Some b -> nth_error (map2 f l m) n = Some (f a b).
Proof. induction l as [|x l IH]; intros [|y m] [|n] a b Ha Hb; cbn [nth_error map2] in *; try discriminate; [congruence|]. apply IH; assumption. Qed.
Lemma map2_length {A B C} (f : A -> B -> C) l : forall m, length m = length l -> length (map2 f l m) = length l.
Proof. induction l as [|x l IH]; intros [|y m] E; cbn [map2 length] in *; try discriminate; [reflexivity|]. rewrite IH; congruence. Qed.
Lemma map2_same {A} (l : list A) : map2 (fun a _ => a) l l = l.
Proof. induction l; cbn [map2]; congruence. Qed.

Lemma redeem_to r d t : N.of_nat (length (rd_inputs d)) <= 2 ^ 32 -> redeem r d = Ret t -> redeemed_to r d t.
Proof.
  intros L E. unfold redeem in E. destruct (documents _ 0 (rd_inputs d)) as [ds| |] eqn:Ed; try discriminate.
  destruct (unlockings r (rd_inputs d) ds) as [ss| |] eqn:Eu; try discriminate.
  destruct (documents_get _ (rd_inputs d) 0 ds ltac:(lia) Ed) as [Ld Gd]. destruct (unlockings_get r _ ds ss Ld Eu) as [Ls Gs].
  unfold design_complete in E. cbn [ds_inputs ds_version ds_outputs ds_locktime design_of] in E. rewrite map_length in E.
  replace (Nat.eqb _ _) with true in E by (symmetry; apply Nat.eqb_eq; assumption).
  match type of E with Ret ?x = _ => assert (Et : t = x) by congruence end. subst t. constructor; cbn [xt_version xt_outputs xt_locktime xt_inputs]; try reflexivity.
  - rewrite map2_length; rewrite map_length; [reflexivity|assumption].
  - intros n i Hi. destruct (Gd n i Hi) as (code & Hc & Hd). destruct (Gs n i _ Hi Hd) as (s & Hr & Hs). exists code, s. rewrite N.add_0_l in Hr.
    split; [assumption|]. split; [assumption|]. rewrite (map2_nth dinput_complete _ _ n (ri_input i) s); [reflexivity| |assumption]. apply map_nth_error. assumption.
Qed.

Lemma nth_ext {A} (l m : list A) : length l = length m -> (forall n a b, nth_error l n = Some a -> nth_error m n = Some b -> a = b) -> l = m.
Proof.
  revert m. induction l as [|x l IH]; intros [|y m] L G; try discriminate; [reflexivity|]. f_equal; [apply (G O); reflexivity|].
  apply IH; [cbn [length] in L; congruence|]. intros n. apply (G (S n)).
Qed.
Lemma redeemed_unique r d t t' : redeemed_to r d t -> redeemed_to r d t' -> t = t'.
Proof.
  intros [A1 A2 A3 A4 A5] [B1 B2 B3 B4 B5]. destruct t as [v i o l], t' as [v' i' o' l']. cbn [xt_version xt_outputs xt_locktime xt_inputs] in *.
  assert (i = i').
  { apply nth_ext; [congruence|]. intros n a b Ha Hb. destruct (nth_error (rd_inputs d) n) as [x|] eqn:Ex.
    - destruct (A5 n x Ex) as (c & s & E1 & E2 & E3). destruct (B5 n x Ex) as (c' & s' & F1 & F2 & F3).
      assert (c' = c) by congruence. subst c'. rewrite E2 in F2. assert (s' = s) by congruence. subst s'. congruence.
    - apply nth_error_None in Ex. assert (Q : nth_error i n <> None) by congruence. apply nth_error_Some in Q. lia. }
  congruence.
Qed.
Theorem redeem_exact r d t : N.of_nat (length (rd_inputs d)) <= 2 ^ 32 -> (redeem r d = Ret t <-> redeemed_to r d t).
Proof.
  intros L. split; [apply redeem_to; assumption|]. intros T.
  assert (exists t', redeem r d = Ret t') as [t' E].
  { unfold redeem. destruct (documents_exist (design_incomplete (design_of d)) (rd_inputs d) 0) as [ds Ed].
    { apply Forall_forall. intros i Hi. apply In_nth_error in Hi as [n Hn]. destruct (rt_input _ _ _ T n i Hn) as (c & s & Hc & _). eauto. }
    rewrite Ed. destruct (documents_get _ (rd_inputs d) 0 ds ltac:(lia) Ed) as [Ld Gd].
    destruct (unlockings_exist r (rd_inputs d) ds Ld) as [ss Eu].
    { intros n i doc Hi Hd. destruct (Gd n i Hi) as (code & Hc & Hd'). destruct (rt_input _ _ _ T n i Hi) as (c & s & Hc' & Hs & _).
      assert (c = code) by congruence. subst c. rewrite N.add_0_l in Hd'. assert (doc = _) by (eapply eq_trans; [|reflexivity]; rewrite Hd in Hd'; injection Hd' as Q; exact Q). subst doc. eauto. }
    rewrite Eu. destruct (unlockings_get r _ ds ss Ld Eu) as [Ls _]. unfold design_complete. cbn [ds_inputs design_of]. rewrite map_length.
    replace (Nat.eqb _ _) with true by (symmetry; apply Nat.eqb_eq; assumption). eauto. }
  rewrite E. f_equal. eapply redeemed_unique; [apply redeem_to; eassumption|assumption].
Qed.
Theorem redeemed_incomplete r d t : redeemed_to r d t ->
  itx_of (xtx_plain t) = design_incomplete (design_of d) /\ map xi_prevout (xt_inputs t) = map (fun i => di_prevout (ri_input i)) (rd_inputs d).
Proof.
  intros T.
  assert (G : forall n a, nth_error (xt_inputs t) n = Some a -> exists i, nth_error (rd_inputs d) n = Some i /\ iinput_of (xi_input a) = di_input (ri_input i) /\
    xi_prevout a = di_prevout (ri_input i)).
  { intros n a Ha. destruct (nth_error (rd_inputs d) n) as [i|] eqn:Ei.
    - destruct (rt_input _ _ _ T n i Ei) as (c & s & _ & _ & E). exists i. split; [reflexivity|]. rewrite Ha in E. 
      match type of E with Some _ = Some ?x => assert (a = x) by congruence end. subst a. split; [|reflexivity]. destruct (di_input (ri_input i)). reflexivity.
    - apply nth_error_None in Ei. assert (Q : nth_error (xt_inputs t) n <> None) by congruence. apply nth_error_Some in Q. rewrite (rt_count _ _ _ T) in Q. lia. }
  split.
  - unfold itx_of, xtx_plain, design_incomplete, design_of. cbn [tx_version tx_inputs tx_outputs tx_locktime ds_version ds_inputs ds_outputs ds_locktime].
    f_equal; [apply T| |apply T|apply T]. rewrite !map_map. apply nth_ext; [rewrite !map_length; apply T|]. intros n a b Ha Hb.
    rewrite nth_error_map in Ha, Hb. destruct (nth_error (xt_inputs t) n) as [x|] eqn:Ex; [|discriminate]. destruct (G n x Ex) as (i & Hi & E & _). rewrite Hi in Hb.
    cbn [option_map] in *. congruence.
  - apply nth_ext; [rewrite !map_length; apply T|]. intros n a b Ha Hb.
    rewrite nth_error_map in Ha, Hb. destruct (nth_error (xt_inputs t) n) as [x|] eqn:Ex; [|discriminate]. destruct (G n x Ex) as (i & Hi & _ & E). rewrite Hi in Hb.
    cbn [option_map] in *. congruence.
Qed.

(* ---------------------------------------------------------------- spending *)
Lemma lock_facts p lx : Forall written p -> compile p = Some lx -> 5 * N.of_nat (length p) + fold_right (fun i n => len (i_data i) + n) 0 p <= 1000 ->
  segments p (map instr_write p) /\ lx = concat (map instr_write p) /\ len lx <= 1000 /\ decompile lx = Ret p.
Proof.
  intros W E L. pose proof (write_len (script_config 0 true) eq_refl p W) as Lw. assert (L32 : len (program_write p) < 2 ^ 32) by (change (2 ^ 32) with 4294967296; lia).
  pose proof (written_segments p W) as Sg. pose proof (compile_segments _ _ Sg L32) as E'.
  assert (Ex : lx = concat (map instr_write p)) by congruence. split; [assumption|]. split; [assumption|]. split; [|eapply written_compile; eassumption].
  rewrite Ex. change (concat (map instr_write p)) with (program_write p). lia.
Qed.
Lemma push_not_separator d : len d < 2 ^ 31 -> i_op (push d) <> OP_CODESEPARATOR.
Proof. intros L E. destruct (push_is_push d L) as [P _]. rewrite E in P. discriminate. Qed.

Lemma last_snoc (a : bytes) (d : byte) : sig_directive (a ++ [d]) = d.
Proof. unfold sig_directive. apply last_last. Qed.
Lemma raw_snoc (a : bytes) (d : byte) : sig_raw (a ++ [d]) = a.
Proof. unfold sig_raw. apply removelast_last. Qed.

Section Spend.
Variable w : world.
Variable X : externals.
Variable cf : config.
Hypothesis Sw : sound w.
Hypothesis Mw : machine_of w X.
Hypothesis Cm : c_max_memory cf < 2 ^ 63.

Lemma enough_less m n o p : m <= n -> o <= p -> enough cf n p -> enough cf m o.
Proof.
  intros A B [Am Oc]. split; [|lia]. unfold ample in *. destruct (limits_of cf); lia.
Qed.

Lemma redeeming_is f t i v x : nth_error (it_inputs t) (N.to_nat i) = Some x ->
  redeeming w f t i v = Some (document (tx_checks (w_hash w) (w_parse w) (w_der w) (w_ecdsa w) (w_compressed w) (w_minimal w) (w_normalized w) t i v) f
                                       (it_version t) (it_locktime t) (ii_seq x)).
Proof. intros E. unfold redeeming, redemption, at_index. rewrite E. reflexivity. Qed.

(* a signature made by the library satisfies the document *)
Lemma signature_holds f t i v x code s d k h : nth_error (it_inputs t) (N.to_nat i) = Some x ->
  signs w s -> w_parse w k = Some (be_val s) -> (has_flag FLAG_COMPRESSED f = true -> w_compressed w k = true) ->
  directive_valid d = true -> fork_bit d -> has_flag FLAG_FORKID f = true ->
  signature_hash (w_hash w) {| sd_tx := t; sd_index := i; sd_value := v; sd_code := code |} d = Some h -> len h = 32 ->
  signed (redeeming w f t i v) code (w_sign w s h ++ [d]) k.
Proof.
  intros Hx Sg Pk Ck Vd Fd Ff Eh Lh. rewrite (redeeming_is f t i v x Hx). apply signed_fine.
  assert (Fi : has_fork_id d = true) by (now apply fork_iff).
  unfold cleanup_script_code. rewrite last_snoc, Fi. destruct (Sg k h Lh Pk) as (Vf & Mi & No & _).
  unfold signature_fine. cbn [k_compressed k_valid k_der k_normalized k_verify tx_checks].
  change (last (w_sign w s h ++ [d]) x00) with (sig_directive (w_sign w s h ++ [d])). change (removelast (w_sign w s h ++ [d])) with (sig_raw (w_sign w s h ++ [d])).
  rewrite last_snoc, raw_snoc. repeat split; try assumption.
  - rewrite Pk. reflexivity.
  - unfold directive_valid in Vd. lia.
  - intros _. exact Ff.
  - intros _. exact Fi.
  - intros _. unfold signature_der. rewrite raw_snoc, Mi, len_app. change (len [d]) with 1. replace (0 <? _) with true by lia. reflexivity.
  - intros _. exact No.
  - unfold signature_verify. rewrite last_snoc, raw_snoc, Eh. apply verifies_iff. exact Vf.
Qed.

Lemma key_redeemed k lx sig ux doc : len k = 33 \/ len k = 65 -> p2p_script k = Some lx -> len sig <= 73 -> p2p_redeem sig = Some ux ->
  enough cf 508 5 -> signed doc (pubkey_program k) sig k -> spends X doc cf (w_neg1 w) ux lx.
Proof.
  intros Lk E Ls R En Sg. assert (Ls31 : len sig < 2 ^ 31) by (change (2 ^ 31) with 2147483648; lia).
  destruct (push_round_trip sig [] Ls31) as (_ & _ & C & _). unfold p2p_redeem in R. assert (Eu : ux = instr_write (push sig)) by congruence.
  assert (W : Forall written [push sig]) by (constructor; [apply written_push; assumption|constructor]).
  assert (D : decompile ux = Ret [push sig]). { rewrite <- (written_decompile _ W), Eu. unfold program_write. cbn [map concat]. rewrite app_nil_r. reflexivity. }
  assert (Lu : len ux <= 100). { pose proof (write_len cf Cm _ W) as Q. unfold program_write in Q. cbn [map concat fold_right length] in Q. rewrite app_nil_r in Q.
    pose proof (push_data_len sig Ls31). rewrite Eu. lia. }
  pose proof (sw_neg1 w Sw) as Ln. assert (P : is_push_program [push sig] = true) by (unfold is_push_program; cbn [forallb]; rewrite (proj1 (push_is_push sig Ls31)); reflexivity).
  assert (Sa : stack_after [push sig] = [sig]) by (unfold stack_after; cbn [map rev app]; rewrite pushed_push by assumption; reflexivity).
  destruct (pubkey_spends X doc cf (w_neg1 w) (proj1 Mw) Cm k lx ux [push sig] Lk E D P) as [_ A]; [change (2 ^ 31) with 2147483648; lia|].
  apply A.
  - rewrite Sa, footprint_cons, footprint_nil. apply (enough_less _ 508 _ 5); [lia|lia|assumption].
  - exists sig, []. rewrite Sa. repeat (split; [first [assumption|reflexivity|intros _; reflexivity]|]). intros _. constructor; [|constructor]. apply (push_well cf Cm); lia.
Qed.

Theorem ready_spends t n i x d : itx_wf t -> nth_error (it_inputs t) n = Some (di_input (ri_input i)) -> ready w (c_flags cf) i x d -> enough cf 508 5 ->
  exists code s, remove_after_last_code_separator (script_so_far i) = Ret code /\
    by_default w (di_prevout (ri_input i)) {| sd_tx := t; sd_index := N.of_nat n; sd_value := out_value (di_prevout (ri_input i)); sd_code := code |}
      (ri_sigs i) (ri_so_far i) = Ret s /\
    spends X (redeeming w (c_flags cf) t (N.of_nat n) (out_value (di_prevout (ri_input i)))) cf (w_neg1 w) s (out_script (di_prevout (ri_input i))).
Proof.
  intros Wt Hn R En. set (out := di_prevout (ri_input i)) in *. pose proof (rr_secret _ _ _ _ _ R) as Hx. pose proof (sw_encodings w Sw) as Enc.
  assert (Hn' : nth_error (it_inputs t) (N.to_nat (N.of_nat n)) = Some (di_input (ri_input i))) by (rewrite Nnat.Nat2N.id; assumption).
  destruct (rr_directive _ _ _ _ _ R) as (Vd & Fd & Ff). rewrite (rr_sigs _ _ _ _ _ R).
  assert (Wdoc : forall p s, segments p s -> len (concat s) < 2 ^ 32 -> sdoc_wf {| sd_tx := t; sd_index := N.of_nat n; sd_value := out_value out; sd_code := p |}).
  { intros p s Sg L. split; [exact Wt|]. split; [apply (rr_value _ _ _ _ _ R)|]. exists (concat s), s. auto. }
  destruct (rr_pays _ _ _ _ _ R) as [(Es & Nz & Cc)|(k & Es & Pk & Ek & Cc)]; fold out in Es.
  - set (a := address_of w (key_of w x)) in *. assert (La : len a = 20) by apply (sw_ripemd w Sw).
    pose proof (address_written a La) as Wa. destruct (lock_facts (address_program a) _ Wa Es) as (Sg & Ex & Lx & Dx).
    { unfold address_program. cbn [fold_right length op_instr i_data]. change (len []) with 0. pose proof (push_data_len a ltac:(rewrite La; reflexivity)). lia. }
    exists (address_program a). unfold script_so_far. fold out.
    rewrite (separator_script _ _ _ _ (rr_so_far _ _ _ _ _ R) Sg Ex); [|change (2 ^ 30) with 1073741824; lia|].
    2:{ intros o Ho. unfold address_program, ops in Ho. cbn [map op_instr i_op] in Ho.
        pose proof (push_not_separator a ltac:(rewrite La; reflexivity)) as Q.
        destruct Ho as [<- |[<- |[<- |[<- |[<- |[]]]]]]; [discriminate|discriminate|exact Q|discriminate|discriminate]. }
    assert (Wd : sdoc_wf {| sd_tx := t; sd_index := N.of_nat n; sd_value := out_value out; sd_code := address_program a |}).
    { apply (Wdoc _ _ Sg). rewrite <- Ex. change (2 ^ 32) with 4294967296. lia. }
    assert (Ask : asks w out x (fun sig => p2a_redeem sig (key_of w x))).
    { apply asks_address; [|assumption]. fold a. apply (proj1 (reads_exact (w_neg1 w) (out_script out) a (sw_neg1 w Sw)) Nz).
      apply (proj1 (recognised (w_neg1 w) a (out_script out) (sw_neg1 w Sw) La)). exact Es. }
    destruct (default_asked w Sw out _ x d (ri_so_far i) _ Hx (rr_valid _ _ _ _ _ R) Wd Ask) as (h & Eh & Ed). 
    assert (Lh : len h = 32). { destruct (hash_defined (w_hash w) _ d (sw_hash w Sw) Wd) as (h' & Eh' & Lh). congruence. }
    destruct (rr_signs _ _ _ _ _ R (key_of w x) h Lh (key_parsed w Sw x Hx)) as (_ & _ & _ & L72).
    assert (Lsig : len (w_sign w (s_value x) h ++ [d]) <= 73) by (rewrite len_app; change (len [d]) with 1; lia).
    assert (Lkey : len (key_of w x) = if s_compressed x then 33 else 65) by (apply key_length; assumption).
    destruct (proj1 (redeem_sizes _ (key_of w x) Lsig) (s_compressed x) Lkey) as (s & Es' & _).
    exists s. split; [assumption|]. split; [rewrite Ed, Es'; reflexivity|].
    assert (Ln : len (w_neg1 w) < 2 ^ 30) by (pose proof (sw_neg1 w Sw); change (2 ^ 30) with 1073741824; lia).
    destruct (address_redeemed X (redeeming w (c_flags cf) t (N.of_nat n) (out_value out)) cf (w_neg1 w) (proj1 Mw) Cm a (out_script out)
      (w_sign w (s_value x) h ++ [d]) (key_of w x) s La Es ltac:(lia) ltac:(destruct (s_compressed x); lia) Es' Ln) as [_ A].
    apply A.
    + apply (enough_less _ 508 _ 5); [destruct (s_compressed x); lia|lia|assumption].
    + destruct Mw as (_ & Mr & Ms). rewrite Mr, Ms. reflexivity.
    + eapply signature_holds; [exact Hn'|apply R|apply (key_parsed w Sw); assumption| |assumption|assumption|assumption|exact Eh|exact Lh].
      intros F. unfold key_of, public_of. rewrite (Cc F). apply (sw_compressed w Sw). apply Hx.
  - assert (Lk : len k = 33 \/ len k = 65) by (unfold len; destruct (parsed_length _ _ Enc _ _ Pk) as [-> | ->]; auto).
    assert (Lk31 : len k < 2 ^ 31) by (destruct Lk as [-> | ->]; reflexivity).
    pose proof (pubkey_written k Lk31) as Wa. destruct (lock_facts (pubkey_program k) _ Wa Es) as (Sg & Ex & Lx & Dx).
    { unfold pubkey_program. cbn [fold_right length op_instr i_data]. change (len []) with 0. pose proof (push_data_len k Lk31). lia. }
    exists (pubkey_program k). unfold script_so_far. fold out.
    rewrite (separator_script _ _ _ _ (rr_so_far _ _ _ _ _ R) Sg Ex); [|change (2 ^ 30) with 1073741824; lia|].
    2:{ intros o Ho. unfold pubkey_program, ops in Ho. cbn [map op_instr i_op] in Ho.
        pose proof (push_not_separator k Lk31) as Q. destruct Ho as [<- |[<- |[]]]; [exact Q|discriminate]. }
    assert (Wd : sdoc_wf {| sd_tx := t; sd_index := N.of_nat n; sd_value := out_value out; sd_code := pubkey_program k |}).
    { apply (Wdoc _ _ Sg). rewrite <- Ex. change (2 ^ 32) with 4294967296. lia. }
    assert (Ask : asks w out x p2p_redeem).
    { apply (asks_key w out x k (be_val (s_value x))); [|assumption|assumption]. pose proof (sw_neg1 w Sw) as Ln.
      apply (proj2 (proj2 (proj2 (reads_exact (w_neg1 w) (out_script out) k Ln)))); [eapply nonempty_key; [exact Sw|exact Pk]|].
      unfold template_read. rewrite (proj2 (pubkey_recognised (w_neg1 w) k (out_script out) ltac:(lia) Lk31 Es) Lk). reflexivity. }
    destruct (default_asked w Sw out _ x d (ri_so_far i) _ Hx (rr_valid _ _ _ _ _ R) Wd Ask) as (h & Eh & Ed).
    assert (Lh : len h = 32). { destruct (hash_defined (w_hash w) _ d (sw_hash w Sw) Wd) as (h' & Eh' & Lh). congruence. }
    destruct (rr_signs _ _ _ _ _ R k h Lh Pk) as (_ & _ & _ & L72).
    assert (Lsig : len (w_sign w (s_value x) h ++ [d]) <= 73) by (rewrite len_app; change (len [d]) with 1; lia).
    destruct (proj2 (redeem_sizes _ k Lsig)) as (s & Es' & _).
    exists s. split; [assumption|]. split; [rewrite Ed, Es'; reflexivity|].
    eapply key_redeemed; [exact Lk|exact Es|exact Lsig|exact Es'|assumption|].
    eapply signature_holds; [exact Hn'|apply R|exact Pk|exact Cc|assumption|assumption|assumption|exact Eh|exact Lh].
Qed.

Theorem redeemed_spends d : itx_wf (design_incomplete (design_of d)) -> N.of_nat (length (rd_inputs d)) <= 2 ^ 32 -> enough cf 508 5 ->
  Forall (fun i => exists x e, ready w (c_flags cf) i x e) (rd_inputs d) ->
  exists t, redeem (by_default w) d = Ret t /\ itx_of (xtx_plain t) = design_incomplete (design_of d) /\
    map xi_prevout (xt_inputs t) = map (fun i => di_prevout (ri_input i)) (rd_inputs d) /\ all_spend w X cf t.
Proof.
  intros Wt L En F. set (t0 := design_incomplete (design_of d)) in *.
  assert (Hin : forall n i, nth_error (rd_inputs d) n = Some i -> nth_error (it_inputs t0) n = Some (di_input (ri_input i))).
  { intros n i Hn. unfold t0. cbn [it_inputs design_incomplete ds_inputs design_of]. rewrite map_map. apply (map_nth_error (fun j => di_input (ri_input j))). assumption. }
  assert (Each : forall n i, nth_error (rd_inputs d) n = Some i -> exists code s, remove_after_last_code_separator (script_so_far i) = Ret code /\
    by_default w (di_prevout (ri_input i)) {| sd_tx := t0; sd_index := N.of_nat n; sd_value := out_value (di_prevout (ri_input i)); sd_code := code |}
      (ri_sigs i) (ri_so_far i) = Ret s /\
    spends X (redeeming w (c_flags cf) t0 (N.of_nat n) (out_value (di_prevout (ri_input i)))) cf (w_neg1 w) s (out_script (di_prevout (ri_input i)))).
  { intros n i Hn. rewrite Forall_forall in F. destruct (F i) as (x & e & R); [eapply nth_error_In; eassumption|]. eapply ready_spends; eauto. }
  assert (exists t, redeem (by_default w) d = Ret t) as [t E].
  { unfold redeem. destruct (documents_exist t0 (rd_inputs d) 0) as [ds Ed].
    { apply Forall_forall. intros i Hi. apply In_nth_error in Hi as [n Hn]. destruct (Each n i Hn) as (c & s & Hc & _). eauto. }
    fold t0. rewrite Ed. destruct (documents_get _ (rd_inputs d) 0 ds ltac:(lia) Ed) as [Ld Gd].
    destruct (unlockings_exist (by_default w) (rd_inputs d) ds Ld) as [ss Eu].
    { intros n i doc Hi Hd. destruct (Gd n i Hi) as (code & Hc & Hd'). destruct (Each n i Hi) as (c & s & Hc' & Hs & _).
      assert (c = code) by congruence. subst c. rewrite N.add_0_l in Hd'. rewrite Hd in Hd'. exists s. rewrite <- Hs. f_equal. congruence. }
    rewrite Eu. destruct (unlockings_get _ _ ds ss Ld Eu) as [Ls _]. unfold design_complete. cbn [ds_inputs design_of]. rewrite map_length.
    replace (Nat.eqb _ _) with true by (symmetry; apply Nat.eqb_eq; assumption). eauto. }
  exists t. split; [assumption|]. pose proof (redeem_to _ _ _ L E) as T. destruct (redeemed_incomplete _ _ _ T) as [It Ip]. split; [assumption|]. split; [assumption|].
  intros n a Ha. rewrite It. fold t0.
  destruct (nth_error (rd_inputs d) n) as [i|] eqn:Ei.
  - destruct (rt_input _ _ _ T n i Ei) as (c & s & Hc & Hs & Hx). destruct (Each n i Ei) as (c' & s' & Hc' & Hs' & Sp).
    assert (c' = c) by congruence. subst c'. fold t0 in Hs. rewrite Hs in Hs'. assert (s' = s) by congruence. subst s'. rewrite Ha in Hx.
    match type of Hx with Some _ = Some ?y => assert (a = y) by congruence end. subst a. exact Sp.
  - apply nth_error_None in Ei. assert (Q : nth_error (xt_inputs t) n <> None) by congruence. apply nth_error_Some in Q. rewrite (rt_count _ _ _ T) in Q. lia.
Qed.

(* ---------------------------------------------------------------- what a spend commits to *)
Theorem spend_commits t i v x a lx ux l : has_flag FLAG_SIGPUSHONLY (c_flags cf) = true -> has_flag FLAG_REQUIRE_FORKID (c_flags cf) = true ->
  len a = 20 -> p2a_script a = Some lx -> 70 * len ux + 220 < 2 ^ 31 ->
  itx_wf t -> i64 v -> (0 <= v)%Z -> nth_error (it_inputs t) (N.to_nat i) = Some x ->
  Forall (fun p => sdoc_wf (fst p)) l -> signed_only w a l ->
  collision_free w {| sd_tx := t; sd_index := i; sd_value := v; sd_code := address_program a |} l ->
  spends X (redeeming w (c_flags cf) t i v) cf (w_neg1 w) ux lx ->
  exists doc d, In (doc, d) l /\ fork_bit d /\ same_commitment d {| sd_tx := t; sd_index := i; sd_value := v; sd_code := address_program a |} doc.
Proof.
  intros Fp Ff La Es Lu Wt Iv V0 Hx Wl So Cf Sp. pose proof (sw_neg1 w Sw) as Ln. set (doc := {| sd_tx := t; sd_index := i; sd_value := v; sd_code := address_program a |}) in *.
  destruct (address_protected X _ cf (w_neg1 w) (proj1 Mw) Cm a lx ux Fp La Es ltac:(lia) Sp) as (u & _ & _ & sig & key & rest & _ & Ek & Sg & _).
  rewrite (redeeming_is _ t i v x Hx) in Sg. apply (signed_code _ _ _ _ _ _ _ _ Ff) in Sg.
  destruct Sg as (_ & _ & _ & _ & Fk & _ & _ & Vf). specialize (Fk Ff). cbn [k_verify tx_checks] in Vf. fold doc in Vf.
  change (last sig x00) with (sig_directive sig) in Fk. set (d := sig_directive sig) in *. assert (Fd : fork_bit d) by (apply fork_iff; exact Fk).
  unfold signature_verify in Vf. fold d in Vf.
  assert (Wd : sdoc_wf doc).
  { split; [exact Wt|]. split; [exact Iv|]. pose proof (address_written a La) as Wa.
    destruct (lock_facts (address_program a) _ Wa Es) as (Sg & Ex & Lx & Dx).
    { unfold address_program. cbn [fold_right length op_instr i_data]. change (len []) with 0. pose proof (push_data_len a ltac:(rewrite La; reflexivity)). lia. }
    exists lx, (map instr_write (address_program a)). split; [assumption|]. split; [assumption|]. change (2 ^ 32) with 4294967296. lia. }
  destruct (signature_hash (w_hash w) doc d) as [h|] eqn:Eh; [|discriminate]. apply verifies_iff in Vf.
  destruct (So key h (sig_raw sig)) as (doc' & d' & pre' & Hin & Ew & Eh'); [destruct Mw as (_ & Mr & Ms); unfold address_of; rewrite <- Ms, <- Mr; exact Ek|exact Vf|].
  destruct (Cf doc' d' pre' Hin Ew) as (Nz & Inj & Nc).
  destruct (in_range_dec d doc) as [R|R].
  - destruct (signature_hash_exact (w_hash w) doc d Wd V0 R) as (pre & Ep & Eh2). assert (Q : pre = pre') by (apply (Inj d pre Ep); congruence). subst pre'.
    assert (Dd : d = d') by (eapply preimage_determines_directive; eassumption). subst d'.
    exists doc', d. split; [assumption|]. split; [assumption|]. rewrite Forall_forall in Wl. specialize (Wl _ Hin). cbn [fst] in Wl.
    eapply (fork_commits (w_hash w) doc doc' d d pre); try eassumption. apply (sw_hash w Sw).
  - exfalso. rewrite (signature_hash_zero_exact (w_hash w) doc d) in Eh by (right; exact R). apply Nz. rewrite <- Eh'. assert (h = repeat x00 32) by congruence. assumption.
Qed.
End Spend.

(* signed with SIGHASH_ALL: the transaction is the one that was signed *)
Theorem all_commits d a b : kind d = 1 -> ~ acp_bit d -> same_commitment d a b ->
  sd_tx a = sd_tx b /\ sd_value a = sd_value b /\ sd_code a = sd_code b /\
  (NoDup (map ii_ref (it_inputs (sd_tx a))) -> sd_index a < N.of_nat (length (it_inputs (sd_tx a))) -> sd_index a = sd_index b).
Proof.
  intros K Na [C1 C2 C3 C4 C5 C6 C7 C8 _]. specialize (C6 Na). specialize (C7 Na ltac:(lia) ltac:(lia)). specialize (C8 K).
  assert (Ei : it_inputs (sd_tx a) = it_inputs (sd_tx b)).
  { clear - C6 C7. revert C6 C7. generalize (it_inputs (sd_tx b)) as m. generalize (it_inputs (sd_tx a)) as l.
    induction l as [|x l IH]; intros [|y m] E F; try discriminate; [reflexivity|]. cbn [map] in *. destruct x as [r1 s1], y as [r2 s2]. cbn [ii_ref ii_seq] in *.
    assert (l = m) by (apply IH; congruence). congruence. }
  split; [|split; [assumption|split; [assumption|]]].
  - destruct (sd_tx a) as [v1 i1 o1 l1], (sd_tx b) as [v2 i2 o2 l2]. cbn [it_version it_inputs it_outputs it_locktime] in *. congruence.
  - intros Nd L. rewrite <- Ei in C5. apply Nnat.N2Nat.inj. rewrite NoDup_nth_error in Nd. apply Nd.
    + rewrite map_length. lia.
    + rewrite !nth_error_map, C5. reflexivity.
Qed.
