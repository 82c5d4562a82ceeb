(* Proofs about the messages of the Merchant API. *)
From Coq Require Import String Lia ZifyBool ZifyNat ZifyN.
From Verif Require Import Base BaseProofs WireModel MerkleModel TextModel TextSpec JsonModel StratumConfigSpec DictProofs ExtModel TscModel TscSpec TscJsonProofs EnvelopeModel EnvelopeSpec EnvelopeProofs MapiModel MapiSpec.
Local Open Scope list_scope.
Local Open Scope N_scope.

Lemma get_text_exact k j s : get_text (text k) j = Some s <-> has_text k j s.
Proof. unfold get_text, has_text, member. destruct (j_get (text k) j) as [[]|]; split; intros X; congruence. Qed.
Lemma get_uint_exact k j s : get_uint (text k) j = Some s <-> has_uint k j s.
Proof. unfold get_uint, has_uint, member. destruct (j_get (text k) j) as [[]|]; split; intros X; congruence. Qed.
Lemma get_array_exact k j s : get_array (text k) j = Some s <-> has_list k j s.
Proof. unfold get_array, has_list, member. destruct (j_get (text k) j) as [[]|]; split; intros X; congruence. Qed.
Lemma digest_valid_nonzero d : digest_valid d = true <-> nonzero d.
Proof.
  unfold digest_valid, nonzero. split.
  - intros V ->. rewrite text_eqb_refl in V. discriminate V.
  - intros N. destruct (bytes_eqb d zero_digest) eqn:E; [|reflexivity]. apply bytes_eqb_eq in E. contradiction.
Qed.
Lemma empty_exact (b : bytes) : negb (bytes_eqb b []) = true <-> b <> [].
Proof. destruct b; cbn; split; congruence. Qed.
Lemma member_inj k j a b : member k j a -> member k j b -> a = b.
Proof. unfold member. congruence. Qed.

(* goals about members given as equations *)
Ltac getters := repeat match goal with
  | H : get_text _ _ = Some _ |- _ => apply (proj1 (get_text_exact _ _ _)) in H
  | H : get_uint _ _ = Some _ |- _ => apply (proj1 (get_uint_exact _ _ _)) in H
  | H : get_array _ _ = Some _ |- _ => apply (proj1 (get_array_exact _ _ _)) in H
  end.
Ltac ungetters := repeat match goal with
  | H : has_text _ _ _ |- _ => apply (proj2 (get_text_exact _ _ _)) in H
  | H : has_uint _ _ _ |- _ => apply (proj2 (get_uint_exact _ _ _)) in H
  | H : has_list _ _ _ |- _ => apply (proj2 (get_array_exact _ _ _)) in H
  end.

Section Read.
Variable odd : bytes -> option digest.
Variable point : bytes -> bool.
Variable keep : bool.

(* ---------------------------------------------------------------- conflicts *)
Lemma conflict_valid_exact c : conflict_valid c = true <-> conflict_sound c.
Proof. unfold conflict_valid, conflict_sound. rewrite andb_true_iff, digest_valid_nonzero, N.eqb_eq. reflexivity. Qed.
Lemma conflict_read_exact j c : conflict_read odd j = Ret c <-> conflict_entry odd j c.
Proof.
  unfold conflict_read, conflict_entry, conflict_says, conflict_shaped.
  change k_txid with (text "txid"). change k_size with (text "size"). change k_hex with (text "hex").
  split.
  - destruct (get_text (text "txid") j) as [t|] eqn:T; [|intros X; right; split; [|unfold conflict_none in X; congruence]; intros (t & n & h & A & _); ungetters; congruence].
    destruct (get_uint (text "size") j) as [n|] eqn:Z; [|intros X; right; split; [|unfold conflict_none in X; congruence]; intros (t' & n & h & _ & A & _); ungetters; congruence].
    destruct (get_text (text "hex") j) as [h|] eqn:H; [|intros X; right; split; [|unfold conflict_none in X; congruence]; intros (t' & n' & h & _ & _ & A & _); ungetters; congruence].
    destruct (hex_read h) as [b|] eqn:B; [|intros X; right; split; [|unfold conflict_none in X; congruence]; intros (t' & n' & h' & _ & _ & A & X'); ungetters; congruence].
    destruct (read_digest odd t) as [d| |] eqn:D; cbn [and_then]; [|discriminate|discriminate]. intros X. assert (c = mkconflict d n b) as -> by congruence. left. exists t, h. cbn [cw_txid cw_size cw_tx].
    apply read_digest_exact in D. getters. auto.
  - intros [(t & h & T & D & Z & H & B)|[N ->]].
    + ungetters. rewrite T, Z, H, B. apply (proj2 (read_digest_exact _ _ _)) in D. rewrite D. cbn [and_then]. destruct c; reflexivity.
    + destruct (get_text (text "txid") j) as [t|] eqn:T; [|reflexivity]. destruct (get_uint (text "size") j) as [n|] eqn:Z; [|reflexivity].
      destruct (get_text (text "hex") j) as [h|] eqn:H; [|reflexivity]. destruct (hex_read h) as [b|] eqn:B; [|reflexivity]. exfalso. apply N. getters. exists t, n, h. repeat split; try assumption. congruence.
Qed.
Lemma conflict_total j : (exists c, conflict_read odd j = Ret c) \/ conflict_read odd j = Throw tt.
Proof.
  unfold conflict_read. destruct (get_text k_txid j) as [t|]; [|eauto]. destruct (get_uint k_size j); [|eauto]. destruct (get_text k_hex j) as [h|]; [|eauto].
  destruct (hex_read h); [|eauto]. destruct (read_digest_total odd t) as [[d E]|E]; rewrite E; cbn [and_then]; eauto.
Qed.

Lemma conflicts_more l : forall f cw r, conflict_valid f = true ->
  (conflicts_read odd (f :: cw) l = Ret (Some r) <-> exists cs, r = f :: cw ++ cs /\ Forall2 (conflict_entry odd) l cs).
Proof.
  induction l as [|w l IH]; intros f cw r V; cbn [conflicts_read].
  - split; [intros X; exists []; rewrite app_nil_r; split; [congruence|constructor]|]. intros (cs & -> & F). inversion F. rewrite app_nil_r. reflexivity.
  - split.
    + destruct (conflict_read odd w) as [c| |] eqn:C; cbn [and_then]; [|discriminate|discriminate]. cbn [app]. rewrite V. intros X. apply IH in X; [|exact V]. destruct X as (cs & -> & F).
      exists (c :: cs). rewrite <- app_assoc. split; [reflexivity|]. constructor; [apply conflict_read_exact; exact C|exact F].
    + intros (cs & -> & F). destruct cs as [|c cs]; [inversion F|]. assert (C : conflict_entry odd w c) by (inversion F; assumption). assert (Fl : Forall2 (conflict_entry odd) l cs) by (inversion F; assumption).
      apply conflict_read_exact in C. rewrite C. cbn [and_then app]. rewrite V. apply IH; [exact V|]. exists cs. rewrite <- app_assoc. split; [reflexivity|exact Fl].
Qed.
Lemma conflicts_exact l r : conflicts_read odd [] l = Ret (Some r) <->
  Forall2 (conflict_entry odd) l r /\ match r with [] => True | c :: _ => conflict_sound c end.
Proof.
  destruct l as [|w l]; cbn [conflicts_read].
  - split; [intros X; assert (r = []) as -> by congruence; split; [constructor|exact Logic.I]|]. intros [F _]. inversion F. reflexivity.
  - split.
    + destruct (conflict_read odd w) as [c| |] eqn:C; cbn [and_then]; [|discriminate|discriminate]. cbn [app]. destruct (conflict_valid c) eqn:V; [|discriminate]. intros X.
      apply conflicts_more in X; [|exact V]. destruct X as (cs & -> & F). cbn [app]. split; [constructor; [apply conflict_read_exact; exact C|exact F]|apply conflict_valid_exact; exact V].
    + intros [F V]. destruct r as [|c cs]; [inversion F|]. assert (C : conflict_entry odd w c) by (inversion F; assumption). assert (Fl : Forall2 (conflict_entry odd) l cs) by (inversion F; assumption).
      apply conflict_read_exact in C. rewrite C. cbn [and_then app]. apply conflict_valid_exact in V. rewrite V. apply conflicts_more; [exact V|]. exists cs. split; [reflexivity|exact Fl].
Qed.
Lemma conflicts_total l : forall cw, (exists r, conflicts_read odd cw l = Ret r) \/ conflicts_read odd cw l = Throw tt.
Proof.
  induction l as [|w l IH]; intros cw; cbn [conflicts_read]; [eauto|]. destruct (conflict_total w) as [[c E]|E]; rewrite E; cbn [and_then]; [|auto].
  destruct (cw ++ [c]) as [|f r] eqn:A; [destruct cw; discriminate A|]. destruct (conflict_valid f); [apply IH|eauto].
Qed.

(* ---------------------------------------------------------------- statuses *)
Lemma result_read_exact s b : result_read s = Some b <-> result_named s b.
Proof.
  unfold result_read, result_named, s_success, s_failure. destruct (bytes_eqb s (text "success")) eqn:E; [apply bytes_eqb_eq in E; subst s; destruct b; split; auto; discriminate|].
  destruct (bytes_eqb s (text "failure")) eqn:F; [apply bytes_eqb_eq in F; subst s; destruct b; split; auto; discriminate|].
  split; [discriminate|]. intros ->. destruct b; rewrite text_eqb_refl in *; discriminate.
Qed.
Lemma at_absent k j : (exists o, j = JObject o) -> absent k j -> at_key k j = @Undef unit json.
Proof. intros [o ->]. unfold absent, at_key. cbn [j_get]. intros ->. reflexivity. Qed.
Lemma at_member k j v : member k j v -> at_key k j = Ret v.
Proof. unfold member, at_key. destruct j; try discriminate. cbn [j_get]. intros ->. reflexivity. Qed.

Definition front (j : json) : outcome unit (option status) :=
  match get_text k_txid j, get_text k_return_result j, get_text k_return_description j,
        match j_get k_conflicted_with j with None => Some [] | Some (JArray l) => Some l | Some _ => None end with
  | Some t, Some rr, Some _, Some l =>
      match result_read rr with
      | None => Ret None
      | Some r =>
          and_then (conflicts_read odd [] l) (fun c =>
          match c with
          | None => Ret None
          | Some cw => and_then (read_digest odd t) (fun d => if negb (digest_valid d) then Ret None else Ret (Some (mkstatus d r [] cw)))
          end)
      end
  | _, _, _, _ => Ret None
  end.
Lemma status_split j : status_read odd j = and_then (front j) (fun x =>
  match x with None => Ret status_none | Some s => and_then (and_then (at_key k_result_description j) as_text) (fun d => Ret (mkstatus (st_txid s) (st_success s) d (st_conflicts s))) end).
Proof.
  unfold status_read, front. destruct (get_text k_txid j) as [t|]; [|reflexivity]. destruct (get_text k_return_result j) as [rr|]; [|reflexivity]. destruct (get_text k_return_description j) as [x|]; [|reflexivity].
  destruct (match j_get k_conflicted_with j with None => Some [] | Some (JArray l) => Some l | Some _ => None end) as [l|]; [|reflexivity].
  destruct (result_read rr) as [r|]; [|reflexivity]. destruct (conflicts_read odd [] l) as [[cw|]| |]; cbn [and_then]; [|reflexivity|reflexivity|reflexivity].
  destruct (read_digest odd t) as [d| |]; cbn [and_then]; [|reflexivity|reflexivity]. destruct (digest_valid d); reflexivity.
Qed.
Lemma front_exact j s : st_description s = [] -> (front j = Ret (Some s) <-> status_front odd j s).
Proof.
  intros Ds. unfold front, status_front. change k_txid with (text "txid"). change k_return_result with (text "returnResult"). change k_return_description with (text "returnDescription").
  unfold conflicts_say, absent, has_list, member. change k_conflicted_with with (text "conflictedWith").
  split.
  - destruct (get_text (text "txid") j) as [t|] eqn:T; [|discriminate]. destruct (get_text (text "returnResult") j) as [rr|] eqn:R; [|discriminate]. destruct (get_text (text "returnDescription") j) as [x|] eqn:X; [|discriminate].
    destruct (match j_get (text "conflictedWith") j with None => Some [] | Some (JArray l) => Some l | Some _ => None end) as [l|] eqn:L; [|discriminate].
    destruct (result_read rr) as [r|] eqn:RR; [|discriminate]. destruct (conflicts_read odd [] l) as [[cw|]| |] eqn:C; cbn [and_then]; try discriminate.
    destruct (read_digest odd t) as [d| |] eqn:D; cbn [and_then]; try discriminate. destruct (digest_valid d) eqn:V; cbn [negb]; [|discriminate].
    intros E. assert (s = mkstatus d r [] cw) as -> by congruence. cbn [st_txid st_success st_conflicts]. getters. apply result_read_exact in RR. apply read_digest_exact in D. apply digest_valid_nonzero in V.
    repeat (split; [solve [eauto]|]). apply conflicts_exact in C. destruct (j_get (text "conflictedWith") j) as [[]|]; try discriminate L.
    + right. exists l. assert (l0 = l) as -> by congruence. split; [reflexivity|exact C].
    + left. split; [reflexivity|]. assert (l = []) as -> by congruence. destruct C as [C _]. inversion C. reflexivity.
  - intros (V & (t & T & D) & (r & R & RR) & (x & X) & C). ungetters. rewrite T, R, X. apply result_read_exact in RR. rewrite RR. apply (proj2 (read_digest_exact _ _ _)) in D. apply digest_valid_nonzero in V.
    destruct C as [[A E]|(l & A & F)]; rewrite A.
    + cbn [conflicts_read and_then]. rewrite D. cbn [and_then]. rewrite V. cbn [negb]. destruct s; cbn in *. subst. reflexivity.
    + apply conflicts_exact in F. rewrite F. cbn [and_then]. rewrite D. cbn [and_then]. rewrite V. cbn [negb]. destruct s; cbn in *. subst. reflexivity.
Qed.
Lemma front_total j : (exists x, front j = Ret x) \/ front j = Throw tt.
Proof.
  unfold front. destruct (get_text k_txid j) as [t|]; [|eauto]. destruct (get_text k_return_result j) as [rr|]; [|eauto]. destruct (get_text k_return_description j) as [x|]; [|eauto].
  destruct (match j_get k_conflicted_with j with None => Some [] | Some (JArray l) => Some l | Some _ => None end) as [l|]; [|eauto].
  destruct (result_read rr) as [r|]; [|eauto]. destruct (conflicts_total l []) as [[c E]|E]; rewrite E; cbn [and_then]; [|auto]. destruct c as [cw|]; [|eauto].
  destruct (read_digest_total odd t) as [[d D]|D]; rewrite D; cbn [and_then]; [|auto]. destruct (digest_valid d); cbn [negb]; eauto.
Qed.
Lemma front_no_description j s : front j = Ret (Some s) -> st_description s = [].
Proof.
  unfold front. destruct (get_text k_txid j) as [t|]; [|discriminate]. destruct (get_text k_return_result j) as [rr|]; [|discriminate]. destruct (get_text k_return_description j) as [x|]; [|discriminate].
  destruct (match j_get k_conflicted_with j with None => Some [] | Some (JArray l) => Some l | Some _ => None end) as [l|]; [|discriminate].
  destruct (result_read rr) as [r|]; [|discriminate]. destruct (conflicts_read odd [] l) as [[cw|]| |]; cbn [and_then]; try discriminate.
  destruct (read_digest odd t) as [d| |]; cbn [and_then]; try discriminate. destruct (negb (digest_valid d)); [discriminate|]. intros E. assert (s = mkstatus d r [] cw) as -> by congruence. reflexivity.
Qed.
Lemma front_object j s : status_front odd j s -> exists o, j = JObject o.
Proof. intros (_ & (t & T & _) & _). unfold has_text, member in T. destruct j; try discriminate T. eauto. Qed.
Lemma front_same j s d : status_front odd j s -> status_front odd j (mkstatus (st_txid s) (st_success s) d (st_conflicts s)).
Proof. unfold status_front. cbn [st_txid st_success st_conflicts]. auto. Qed.

Theorem status_exact j s : status_read odd j = Ret s /\ status_valid s = true <-> status_says odd j s.
Proof.
  rewrite status_split. unfold status_says, status_valid. split.
  - intros [R V]. destruct (front j) as [[x|]| |] eqn:F; cbn [and_then] in R; try discriminate.
    + pose proof (front_no_description _ _ F) as Dx. apply front_exact in F; [|exact Dx]. change k_result_description with (text "resultDescription") in R. unfold at_key, as_text in R. unfold has_text, member.
      destruct j; try discriminate R. cbn [j_get]. destruct (obj_find (text "resultDescription") o) as [[]|]; cbn [and_then] in R; try discriminate R.
      assert (s = mkstatus (st_txid x) (st_success x) s0 (st_conflicts x)) as -> by congruence. split; [apply front_same; exact F|reflexivity].
    + assert (s = status_none) as -> by congruence. discriminate V.
  - intros [F H]. pose proof (front_same _ _ [] F) as F0. apply front_exact in F0; [|reflexivity]. rewrite F0. cbn [and_then]. change k_result_description with (text "resultDescription"). rewrite (at_member _ _ _ H). cbn [and_then as_text].
    split; [destruct s; reflexivity|]. apply digest_valid_nonzero. apply F.
Qed.
Theorem status_undefined j : status_read odd j = Undef <-> (exists s, status_front odd j s) /\ absent (text "resultDescription") j.
Proof.
  rewrite status_split. split.
  - destruct (front_total j) as [[x E]|E]; rewrite E; cbn [and_then]; [|discriminate]. destruct x as [s|]; [|discriminate]. intros U. apply front_exact in E; [|exact (front_no_description _ _ E)]. split; [eauto|].
    change k_result_description with (text "resultDescription") in U. unfold absent. unfold at_key, as_text in U. destruct j; try reflexivity. cbn [j_get] in *. destruct (obj_find (text "resultDescription") o) as [[]|]; cbn in U; try discriminate U. reflexivity.
  - intros [(s & F) A]. pose proof (front_object _ _ F) as O. apply front_same with (d := []) in F. apply front_exact in F; [|reflexivity]. rewrite F. cbn [and_then]. change k_result_description with (text "resultDescription"). rewrite (at_absent _ _ O A). reflexivity.
Qed.
(* a status without the first name is never read, whatever else it has *)
Lemma status_unread j : absent (text "returnDescription") j -> status_read odd j = Ret status_none.
Proof.
  unfold absent. intros A. unfold status_read. unfold get_text at 3. change k_return_description with (text "returnDescription"). rewrite A. destruct (get_text k_txid j), (get_text k_return_result j); reflexivity.
Qed.
Lemma status_invalid_none j s : status_read odd j = Ret s -> status_valid s = false -> s = status_none.
Proof.
  rewrite status_split. destruct (front j) as [[x|]| |] eqn:F; cbn [and_then]; try discriminate; [|congruence].
  pose proof (front_no_description _ _ F) as Dx. apply front_exact in F; [|exact Dx]. destruct (and_then (at_key k_result_description j) as_text); cbn [and_then]; try discriminate.
  intros E V. assert (s = mkstatus (st_txid x) (st_success x) a (st_conflicts x)) as -> by congruence. destruct F as [F _]. apply digest_valid_nonzero in F. unfold status_valid in V. cbn [st_txid] in V. congruence.
Qed.

(* ---------------------------------------------------------------- quotes *)
Lemma to_i64_exact n z : to_i64 n = z <-> reads_signed n z.
Proof.
  unfold to_i64, reads_signed. change (2 ^ 63) with 9223372036854775808. change (2 ^ 63)%Z with 9223372036854775808%Z. change (2 ^ 64)%Z with 18446744073709551616%Z.
  destruct (n <? 9223372036854775808) eqn:L; lia.
Qed.
Lemma spb_exact j r : spb_read j = r /\ rate_valid r = true <-> rate_says j r.
Proof.
  unfold spb_read, rate_says, rate_valid. change k_satoshis with (text "satoshis"). change k_bytes with (text "bytes"). split.
  - intros [R V]. destruct (get_uint (text "satoshis") j) as [a|] eqn:A; [|subst r; discriminate V]. destruct (get_uint (text "bytes") j) as [b|] eqn:B; [|subst r; discriminate V].
    subst r. cbn [rt_satoshis rt_bytes] in *. getters. split; [lia|]. split; [|exact B]. exists a. split; [exact A|apply to_i64_exact; reflexivity].
  - intros (N & (n & A & Z) & B). ungetters. rewrite A, B. apply to_i64_exact in Z. rewrite Z. destruct r as [x y]. cbn [rt_satoshis rt_bytes] in *. split; [reflexivity|lia].
Qed.
Lemma fee_read_exact j e : fee_read j = Some e <-> fee_says j e.
Proof.
  unfold fee_read, fee_says, member. change k_fee_type with (text "feeType"). change k_mining_fee with (text "miningFee"). change k_relay_fee with (text "relayFee"). split.
  - destruct (get_text (text "feeType") j) as [t|] eqn:T; [|discriminate]. destruct (j_get (text "miningFee") j) as [m|]; [|discriminate]. destruct (j_get (text "relayFee") j) as [r|]; [|discriminate].
    destruct (rate_valid (spb_read m)) eqn:M; cbn [negb]; [|discriminate]. destruct (rate_valid (spb_read r)) eqn:R; cbn [negb]; [|discriminate]. intros E. assert (e = (t, mkfee (spb_read m) (spb_read r))) as -> by congruence.
    cbn [fst snd fe_mining fe_relay]. getters. split; [exact T|]. split; [exists m|exists r]; (split; [reflexivity|]); apply spb_exact; auto.
  - intros (T & (m & M & Sm) & (r & R & Sr)). ungetters. rewrite T, M, R. apply spb_exact in Sm. apply spb_exact in Sr. destruct Sm as [-> Vm], Sr as [-> Vr]. rewrite Vm, Vr. destruct e as [k [a b]]. reflexivity.
Qed.
Lemma fees_read_exact l : forall f r, fees_read keep f l = Some r <-> exists es, Forall2 fee_says l es /\ r = fold_left (fee_insert keep) es f.
Proof.
  induction l as [|j l IH]; intros f r; cbn [fees_read].
  - split; [intros E; exists []; split; [constructor|cbn; congruence]|]. intros (es & F & ->). inversion F. reflexivity.
  - split.
    + destruct (fee_read j) as [e|] eqn:E; [|discriminate]. intros X. apply IH in X. destruct X as (es & F & ->). exists (e :: es). split; [constructor; [apply fee_read_exact; exact E|exact F]|reflexivity].
    + intros (es & F & ->). destruct es as [|e es]; [inversion F|]. assert (E : fee_says j e) by (inversion F; assumption). assert (Fl : Forall2 fee_says l es) by (inversion F; assumption). apply fee_read_exact in E. rewrite E. apply IH. exists es. auto.
Qed.
Lemma find_first {A} (es : list (bytes * A)) k v : obj_find k es = Some v <-> exists a b, es = a ++ (k, v) :: b /\ ~ In k (map fst a).
Proof.
  induction es as [|[i w] es IH]; cbn [obj_find].
  - split; [discriminate|]. intros (a & b & E & _). destruct a; discriminate E.
  - destruct (bytes_eqb k i) eqn:K.
    + apply bytes_eqb_eq in K. subst i. split.
      * intros E. exists [], es. split; [cbn; congruence|intros []].
      * intros (a & b & E & N). destruct a as [|x a]; [cbn in E; congruence|]. exfalso. apply N. left. cbn in E. assert (x = (k, w)) as -> by congruence. reflexivity.
    + rewrite IH. split.
      * intros (a & b & -> & N). exists ((i, w) :: a), b. split; [reflexivity|]. intros [E|E]; [cbn in E; subst i; rewrite text_eqb_refl in K; discriminate K|exact (N E)].
      * intros (a & b & E & N). destruct a as [|x a]; [cbn in E; assert (i = k) as -> by congruence; rewrite text_eqb_refl in K; discriminate K|].
        cbn in E. exists a, b. split; [congruence|]. intros X. apply N. right. exact X.
Qed.
Lemma chosen_exact es k v : chosen keep es k v <-> obj_find k (if keep then es else rev es) = Some v.
Proof.
  unfold chosen. destruct keep; rewrite find_first; [reflexivity|]. split.
  - intros (a & b & -> & N). exists (rev b), (rev a). rewrite rev_app_distr. cbn [rev]. rewrite <- app_assoc. split; [reflexivity|]. intros X. apply N. rewrite map_rev in X. apply in_rev in X. exact X.
  - intros (a & b & E & N). exists (rev b), (rev a). split.
    + rewrite <- (rev_involutive es), E, rev_app_distr. cbn [rev]. rewrite <- app_assoc. reflexivity.
    + intros X. apply N. rewrite map_rev in X. apply in_rev in X. exact X.
Qed.
Lemma find_app {A} k (a b : list (bytes * A)) : obj_find k (a ++ b) = match obj_find k a with Some v => Some v | None => obj_find k b end.
Proof. induction a as [|[i w] a IH]; cbn [app obj_find]; [reflexivity|]. destruct (bytes_eqb k i); [reflexivity|exact IH]. Qed.
Lemma collected_fold es : sorted (fold_left (fee_insert keep) es []) /\ forall k, obj_find k (fold_left (fee_insert keep) es []) = obj_find k (if keep then es else rev es).
Proof.
  induction es as [|[i w] es [S F]] using rev_ind; [cbn; split; [constructor|destruct keep; reflexivity]|]. rewrite fold_left_app. cbn [fold_left]. unfold fee_insert at 1 3. rewrite rev_app_distr. cbn [rev app fst snd].
  destruct keep.
  - unfold obj_add. cbn [fst snd]. split; [destruct (obj_find i _); [exact S|apply sorted_set; exact S]|]. intros k. rewrite find_app. cbn [obj_find]. rewrite <- F.
    destruct (obj_find i (fold_left (fee_insert true) es [])) as [x|] eqn:E.
    + destruct (bytes_eqb k i) eqn:K; [apply bytes_eqb_eq in K; subst k; rewrite E; reflexivity|]. destruct (obj_find k (fold_left (fee_insert true) es [])); reflexivity.
    + rewrite find_set. destruct (bytes_eqb k i) eqn:K; [apply bytes_eqb_eq in K; subst k; rewrite E; reflexivity|]. destruct (obj_find k (fold_left (fee_insert true) es [])); reflexivity.
  - split; [apply sorted_set; exact S|]. intros k. rewrite find_set. cbn [obj_find]. rewrite <- F. reflexivity.
Qed.
Lemma collected_exact es f : collected keep es f <-> f = fold_left (fee_insert keep) es [].
Proof.
  destruct (collected_fold es) as [S F]. unfold collected. split.
  - intros [Sf M]. apply sorted_ext; [exact Sf|exact S|]. intros k v. rewrite M, chosen_exact. unfold maps. rewrite F. reflexivity.
  - intros ->. split; [exact S|]. intros k v. rewrite chosen_exact. unfold maps. rewrite F. reflexivity.
Qed.

Theorem quote_exact j q : quote_read odd keep j = Ret q /\ q <> quote_none <-> quote_says odd keep j q.
Proof.
  unfold quote_read, quote_says. change k_api_version with (text "apiVersion"). change k_timestamp with (text "timestamp"). change k_expiry_time with (text "expiryTime"). change k_miner_id with (text "minerId").
  change k_highest_hash with (text "currentHighestBlockHash"). change k_highest_height with (text "currentHighestBlockHeight"). change k_fees with (text "fees"). split.
  - intros [R N]. destruct (get_text (text "apiVersion") j) as [v|] eqn:V; [|congruence]. destruct (get_text (text "timestamp") j) as [t|] eqn:T; [|congruence]. destruct (get_text (text "expiryTime") j) as [e|] eqn:E; [|congruence].
    destruct (get_text (text "minerId") j) as [m|] eqn:M; [|congruence]. destruct (get_text (text "currentHighestBlockHash") j) as [h|] eqn:H; [|congruence]. destruct (get_uint (text "currentHighestBlockHeight") j) as [n|] eqn:G; [|congruence].
    destruct (get_array (text "fees") j) as [l|] eqn:L; [|congruence]. destruct (fees_read keep [] l) as [f|] eqn:F; [|congruence]. destruct (hex_read m) as [k|] eqn:K; [|congruence].
    destruct (read_digest odd h) as [d| |] eqn:D; cbn [and_then] in R; try discriminate R. destruct (digest_valid d) eqn:Z; [|congruence]. assert (q = mkquote v t e k d n f) as -> by congruence.
    cbn [fq_version fq_time fq_expiry fq_miner fq_hash fq_height fq_fees]. getters. apply read_digest_exact in D. apply digest_valid_nonzero in Z. apply fees_read_exact in F. destruct F as (es & F & ->).
    repeat (split; [solve [eauto]|]). exists l, es. split; [exact L|]. split; [exact F|]. apply collected_exact. reflexivity.
  - intros (Z & V & T & E & (m & M & K) & (h & H & D) & G & (l & es & L & F & C)). ungetters. rewrite V, T, E, M, H, G, L, K. apply collected_exact in C. assert (R : fees_read keep [] l = Some (fq_fees q)) by (apply fees_read_exact; eauto).
    rewrite R. apply (proj2 (read_digest_exact _ _ _)) in D. rewrite D. cbn [and_then]. pose proof Z as Z'. apply digest_valid_nonzero in Z. rewrite Z. split; [destruct q; reflexivity|]. intros ->. apply Z'. reflexivity.
Qed.
Lemma quote_valid_exact q : quote_valid point q = true <-> quote_sound point q.
Proof.
  unfold quote_valid, quote_sound. rewrite !andb_true_iff, !empty_exact, digest_valid_nonzero, forallb_forall, Forall_forall, negb_true_iff, N.eqb_neq.
  assert (W : (forall x : bytes * fee, In x (fq_fees q) -> fee_valid (snd x) = true) <-> forall x : bytes * fee, In x (fq_fees q) -> rt_bytes (fe_mining (snd x)) <> 0 /\ rt_bytes (fe_relay (snd x)) <> 0).
  { split; intros X x Ix; specialize (X x Ix); unfold fee_valid, rate_valid in *; rewrite andb_true_iff, !negb_true_iff, !N.eqb_neq in *; exact X. }
  rewrite W. tauto.
Qed.
Lemma quote_total j : (exists q, quote_read odd keep j = Ret q) \/ quote_read odd keep j = Throw tt.
Proof.
  unfold quote_read. destruct (get_text k_api_version j) as [v|]; [|eauto]. destruct (get_text k_timestamp j) as [t|]; [|eauto]. destruct (get_text k_expiry_time j) as [e|]; [|eauto].
  destruct (get_text k_miner_id j) as [m|]; [|eauto]. destruct (get_text k_highest_hash j) as [h|]; [|eauto]. destruct (get_uint k_highest_height j) as [n|]; [|eauto].
  destruct (get_array k_fees j) as [l|]; [|eauto]. destruct (fees_read keep [] l); [|eauto]. destruct (hex_read m); [|eauto]. destruct (read_digest_total odd h) as [[d E]|E]; rewrite E; cbn [and_then]; [|auto]. destruct (digest_valid d); eauto.
Qed.

(* ---------------------------------------------------------------- policies and submissions lose what they inherit *)
Theorem policy_lost j p : policy_read odd point keep j = Ret p -> pq_quote p = quote_none /\ policy_valid point p = false.
Proof.
  unfold policy_read. intros R. assert (X : pq_quote p = quote_none).
  { destruct (j_get k_callbacks j) as [c|]; [|assert (p = policy_none) as -> by congruence; reflexivity]. destruct (j_get k_policies j) as [o|]; [|assert (p = policy_none) as -> by congruence; reflexivity].
    destruct (quote_read odd keep j) as [q| |]; cbn [and_then] in R; try discriminate R. destruct (negb (quote_valid point q)); [assert (p = policy_none) as -> by congruence; reflexivity|].
    destruct (callbacks_read c) as [l|]; [assert (p = mkpolicy quote_none l o) as -> by congruence; reflexivity|assert (p = policy_none) as -> by congruence; reflexivity]. }
  split; [exact X|]. unfold policy_valid. rewrite X. reflexivity.
Qed.
Theorem submitted_lost j s : submitted_read odd j = Ret s -> sb_status s = status_none /\ submitted_valid s = false.
Proof.
  unfold submitted_read. intros R. assert (X : sb_status s = status_none).
  { destruct (get_text k_api_version j); [|assert (s = submitted_none) as -> by congruence; reflexivity]. destruct (get_text k_timestamp j); [|assert (s = submitted_none) as -> by congruence; reflexivity].
    destruct (get_text k_miner_id j) as [m|]; [|assert (s = submitted_none) as -> by congruence; reflexivity]. destruct (get_text k_highest_hash j) as [h|]; [|assert (s = submitted_none) as -> by congruence; reflexivity].
    destruct (get_uint k_highest_height j); [|assert (s = submitted_none) as -> by congruence; reflexivity]. destruct (get_uint k_expiry j); [|assert (s = submitted_none) as -> by congruence; reflexivity].
    destruct (status_read odd j) as [x| |]; cbn [and_then] in R; try discriminate R. destruct (negb (status_valid x)); [assert (s = submitted_none) as -> by congruence; reflexivity|].
    destruct (hex_read m); [|assert (s = submitted_none) as -> by congruence; reflexivity]. destruct (read_digest odd h); cbn [and_then] in R; try discriminate R. destruct (digest_valid a); [|assert (s = submitted_none) as -> by congruence; reflexivity].
    match type of R with Ret ?x = _ => assert (s = x) as -> by congruence end. reflexivity. }
  split; [exact X|]. unfold submitted_valid. rewrite X. reflexivity.
Qed.
Theorem tx_status_exact j t : tx_status_read odd j = Ret t /\ t <> tx_status_none <-> tx_status_says odd j t.
Proof.
  unfold tx_status_read, tx_status_says. change k_api_version with (text "apiVersion"). change k_timestamp with (text "timestamp"). change k_block_hash with (text "blockHash"). change k_block_height with (text "blockHeight"). change k_miner_id with (text "minerId").
  change k_expiry with (text "txSecondMempoolExpiry"). change k_confirmations with (text "confirmations"). unfold absent, to_u32. split.
  - intros [R N]. destruct (get_text (text "apiVersion") j) as [v|] eqn:V; [|congruence]. destruct (get_text (text "timestamp") j) as [s|] eqn:T; [|congruence]. destruct (get_text (text "blockHash") j) as [h|] eqn:H; [|congruence].
    destruct (get_uint (text "blockHeight") j) as [n|] eqn:G; [|congruence]. destruct (get_text (text "minerId") j) as [m|] eqn:M; [|congruence].
    destruct (match j_get (text "confirmations") j with None => Some None | Some (JUint n) => Some (Some n) | Some _ => None end) as [c|] eqn:C; [|congruence].
    destruct (get_uint (text "txSecondMempoolExpiry") j) as [x|] eqn:X; [|congruence]. destruct (status_read odd j) as [u| |] eqn:U; cbn [and_then] in R; try discriminate R. destruct (status_valid u) eqn:Vu; cbn [negb] in R; [|congruence].
    destruct (hex_read m) as [k|] eqn:K; [|congruence]. destruct (read_digest odd h) as [d| |] eqn:D; cbn [and_then] in R; try discriminate R. destruct (digest_valid d) eqn:Z; [|congruence].
    assert (E : t = mktxstatus status_none v s k (x mod 2 ^ 32) (Some d) (Some (n mod 2 ^ 32)) (option_map to_u32 c)) by (unfold to_u32; congruence). subst t. cbn [tt_status tt_version tt_time tt_miner tt_expiry tt_hash tt_height tt_confirmations].
    getters. apply read_digest_exact in D. apply digest_valid_nonzero in Z. split; [exists u; apply status_exact; auto|]. split; [reflexivity|]. split; [exact V|]. split; [exact T|]. split; [eauto|]. split; [exists h, d; auto|]. split; [eauto|]. split; [eauto|].
    unfold has_uint, member. destruct (j_get (text "confirmations") j) as [[]|]; try discriminate C.
    + right. exists n0. assert (c = Some n0) as -> by congruence. auto.
    + left. assert (c = None) as -> by congruence. auto.
  - intros ((u & U) & E0 & V & T & (m & M & K) & (h & d & H & D & Z & Ed) & (n & G & En) & (x & X & Ex) & C). ungetters. rewrite V, T, H, G, M, X. apply status_exact in U. destruct U as [U Vu]. rewrite U. cbn [and_then]. rewrite Vu. cbn [negb]. rewrite K.
    apply (proj2 (read_digest_exact _ _ _)) in D. rewrite D. cbn [and_then]. pose proof Z as Z'. apply digest_valid_nonzero in Z. rewrite Z. split; [|intros ->; discriminate Ed].
    destruct t as [a b c e f g i k]. cbn [tt_status tt_version tt_time tt_miner tt_expiry tt_hash tt_height tt_confirmations] in *. unfold has_uint, member in C. destruct C as [[A ->]|(y & A & ->)]; [|unfold get_uint in A]; subst.
    + rewrite A. reflexivity.
    + destruct (j_get (text "confirmations") j) as [[]|]; try discriminate A. assert (n0 = y) as -> by congruence. reflexivity.
Qed.
Lemma tx_status_valid_exact t : tx_status_valid t = true <-> tt_version t <> [] /\ tt_time t <> [] /\ tt_miner t <> [].
Proof. unfold tx_status_valid. rewrite !andb_true_iff, !empty_exact. tauto. Qed.

(* ---------------------------------------------------------------- many submissions *)
Lemma statuses_more l : forall f sr r, status_valid f = true -> Forall (fun s => status_valid s = true) r ->
  (statuses_read odd (f :: sr) l = Ret (Some r) <-> exists ss, r = f :: sr ++ ss /\ Forall2 (status_says odd) l ss).
Proof.
  induction l as [|w l IH]; intros f sr r V Vr; cbn [statuses_read].
  - split; [intros X; exists []; rewrite app_nil_r; split; [congruence|constructor]|]. intros (ss & -> & F). inversion F. rewrite app_nil_r. reflexivity.
  - split.
    + destruct (status_read odd w) as [c| |] eqn:C; cbn [and_then]; [|discriminate|discriminate]. cbn [app]. rewrite V. intros X. apply IH in X; [|exact V|exact Vr]. destruct X as (ss & -> & F).
      exists (c :: ss). rewrite <- app_assoc. split; [reflexivity|]. constructor; [|exact F]. apply status_exact. split; [exact C|]. rewrite Forall_forall in Vr. apply Vr. right. apply in_or_app. left. apply in_or_app. right. left. reflexivity.
    + intros (ss & -> & F). destruct ss as [|c ss]; [inversion F|]. assert (C : status_says odd w c) by (inversion F; assumption). assert (Fl : Forall2 (status_says odd) l ss) by (inversion F; assumption).
      apply status_exact in C. destruct C as [C Vc]. rewrite C. cbn [and_then app]. rewrite V. apply IH; [exact V|exact Vr|]. exists ss. rewrite <- app_assoc. split; [reflexivity|exact Fl].
Qed.
Lemma statuses_exact l r : Forall (fun s => status_valid s = true) r -> (statuses_read odd [] l = Ret (Some r) <-> Forall2 (status_says odd) l r).
Proof.
  intros Vr. destruct l as [|w l]; cbn [statuses_read].
  - split; [intros X; assert (r = []) as -> by congruence; constructor|]. intros F. inversion F. reflexivity.
  - split.
    + destruct (status_read odd w) as [c| |] eqn:C; cbn [and_then]; [|discriminate|discriminate]. cbn [app]. destruct (status_valid c) eqn:V; [|discriminate]. intros X.
      apply statuses_more in X; [|exact V|exact Vr]. destruct X as (ss & -> & F). cbn [app]. constructor; [apply status_exact; auto|exact F].
    + intros F. destruct r as [|c ss]; [inversion F|]. assert (C : status_says odd w c) by (inversion F; assumption). assert (Fl : Forall2 (status_says odd) l ss) by (inversion F; assumption).
      apply status_exact in C. destruct C as [C V]. rewrite C. cbn [and_then app]. rewrite V. apply statuses_more; [exact V|exact Vr|]. exists ss. split; [reflexivity|exact Fl].
Qed.
Lemma submitted_all_valid_exact s : submitted_all_valid point s = true <-> submitted_all_sound point s.
Proof.
  unfold submitted_all_valid, submitted_all_sound, status_valid. rewrite !andb_true_iff, !empty_exact, digest_valid_nonzero, forallb_forall, Forall_forall, !negb_true_iff, !N.eqb_neq.
  assert (W : (forall x, In x (sa_txs s) -> digest_valid (st_txid x) = true) <-> forall x, In x (sa_txs s) -> nonzero (st_txid x)) by (split; intros X x Ix; apply digest_valid_nonzero; apply X; exact Ix). rewrite W. tauto.
Qed.
Theorem submitted_all_exact j s : submitted_all_read odd j = Ret s /\ submitted_all_valid point s = true <-> submitted_all_says odd j s /\ submitted_all_sound point s.
Proof.
  rewrite submitted_all_valid_exact. unfold submitted_all_read, submitted_all_says, to_u32. change k_api_version with (text "apiVersion"). change k_timestamp with (text "timestamp"). change k_miner_id with (text "minerId"). change k_block_hash with (text "blockHash").
  change k_highest_hash with (text "currentHighestBlockHash"). change k_highest_height with (text "currentHighestBlockHeight"). change k_txs with (text "txs"). change k_expiry with (text "txSecondMempoolExpiry"). change k_failure_count with (text "failureCount").
  assert (W : submitted_all_sound point s -> Forall (fun t => status_valid t = true) (sa_txs s)).
  { intros (_ & _ & _ & _ & _ & F). eapply Forall_impl; [|exact F]. intros t. apply digest_valid_nonzero. }
  split; intros [R Z]; (split; [|exact Z]).
  - assert (N : s <> submitted_all_none) by (intros ->; destruct Z as [Z _]; apply Z; reflexivity).
    destruct (get_text (text "apiVersion") j) as [v|] eqn:V; [|congruence]. destruct (get_text (text "timestamp") j) as [t|] eqn:T; [|congruence]. destruct (get_text (text "minerId") j) as [m|] eqn:M; [|congruence].
    destruct (get_text (text "currentHighestBlockHash") j) as [h|] eqn:H; [|congruence]. destruct (get_uint (text "currentHighestBlockHeight") j) as [n|] eqn:G; [|congruence]. destruct (get_uint (text "txSecondMempoolExpiry") j) as [x|] eqn:X; [|congruence].
    destruct (get_array (text "txs") j) as [l|] eqn:L; [|congruence]. destruct (get_uint (text "failureCount") j) as [c|] eqn:C; [|congruence]. destruct (statuses_read odd [] l) as [[sr|]| |] eqn:Sr; cbn [and_then] in R; try discriminate R; [|congruence].
    destruct (hex_read m) as [k|] eqn:K; [|congruence]. unfold at_key in R. destruct j as [| | | | | | |o]; try discriminate R. 
    destruct (obj_find (text "blockHash") o) as [b|] eqn:B; cbn [and_then] in R; [|discriminate R]. destruct b; cbn [as_text and_then] in R; try discriminate R. destruct (read_digest odd s0) as [d| |] eqn:D; cbn [and_then] in R; try discriminate R.
    destruct (digest_valid d) eqn:Vd; [|congruence]. assert (E : s = mksubmittedall v t k d n (x mod 2 ^ 32) sr (c mod 2 ^ 32)) by congruence. subst s. cbn [sa_version sa_time sa_miner sa_hash sa_height sa_expiry sa_txs sa_failures] in *.
    getters. apply read_digest_exact in D. apply statuses_exact in Sr; [|apply W; exact Z]. assert (Bh : has_text "blockHash" (JObject o) s0) by exact B. repeat (split; [solve [eauto]|]). eauto.
  - destruct R as (V & T & (m & M & K) & (h & H) & (b & B & D) & G & (x & X & Ex) & (c & C & Ec) & (l & L & F)). assert (B' : at_key (text "blockHash") j = Ret (JString b)) by (apply at_member; exact B).
    ungetters. rewrite V, T, M, H, G, X, L, C. apply statuses_exact in F; [|apply W; exact Z]. rewrite F. cbn [and_then]. rewrite K, B'. cbn [and_then as_text]. apply (proj2 (read_digest_exact _ _ _)) in D. rewrite D. cbn [and_then].
    destruct Z as (_ & _ & Z & _). apply digest_valid_nonzero in Z. rewrite Z. destruct s. cbn in *. subst. reflexivity.
Qed.
End Read.
