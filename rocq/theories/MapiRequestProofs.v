From Coq Require Import String.
From Verif Require Import Base BaseProofs MerkleModel TextModel JsonModel TscModel EnvelopeSpec MapiModel MapiSpec MapiWrite MapiRequestModel MapiRequestSpec.
From Coq Require Import Lia ZifyBool ZifyNat ZifyN.
Local Open Scope list_scope.

Lemma entry_iff (k k' : bytes) (o : option bytes) (v : bytes) :
  In (k, v) (match o with Some s => [(k', s)] | None => [] end) <-> k = k' /\ o = Some v.
Proof.
  destruct o as [s|]; cbn [In].
  - split; [intros [E|[]]; injection E; intros; subst; auto|]. intros (-> & E). left. congruence.
  - split; [intros []|]. intros (_ & E). discriminate E.
Qed.
Lemma entry_bool (k k' : bytes) (o : option bool) (v : bytes) :
  In (k, v) (match o with Some b => [(k', bool_text b)] | None => [] end) <-> k = k' /\ option_map one_or_zero o = Some v.
Proof.
  rewrite <- entry_iff. destruct o as [b|]; reflexivity.
Qed.

Theorem query_written p : query_says p (parameters_list p).
Proof.
  intros k v. unfold parameters_list. rewrite !in_app_iff, !entry_iff, !entry_bool. reflexivity.
Qed.

Lemma one_or_zero_inj a b : option_map one_or_zero a = option_map one_or_zero b -> a = b.
Proof. destruct a as [[]|], b as [[]|]; intros E; try reflexivity; discriminate E. Qed.

Lemma same_values {A} (x y : option A) : (forall v, x = Some v <-> y = Some v) -> x = y.
Proof.
  intros H. destruct x as [a|]; [symmetry; apply H; reflexivity|]. destruct y as [b|]; [|reflexivity].
  apply H. reflexivity.
Qed.

Theorem query_determines p p' q : query_says p q -> query_says p' q -> p = p'.
Proof.
  intros A B. assert (E : forall k v, _) by (intros k v; exact (iff_trans (iff_sym (A k v)) (B k v))). clear A B.
  destruct p as [a1 a2 a3 a4 a5 a6], p' as [b1 b2 b3 b4 b5 b6]. cbn [pm_url pm_token pm_proof pm_format pm_check pm_encryption] in E.
  assert (D : text "callbackUrl" <> text "callbackToken") by discriminate.
  f_equal.
  - apply same_values. intros v. specialize (E (text "callbackUrl") v). 
    split; intros G; [apply proj1 in E|apply proj2 in E]; specialize (E (or_introl (conj eq_refl G)));
    repeat match type of E with _ \/ _ => destruct E as [E|E] end; destruct E as (K & R); try discriminate K; exact R.
  - apply same_values. intros v. specialize (E (text "callbackToken") v). 
    split; intros G; [apply proj1 in E|apply proj2 in E]; specialize (E ltac:(tauto));
    repeat match type of E with _ \/ _ => destruct E as [E|E] end; destruct E as (K & R); try discriminate K; exact R.
  - apply one_or_zero_inj. apply same_values. intros v. specialize (E (text "merkleProof") v). 
    split; intros G; [apply proj1 in E|apply proj2 in E]; specialize (E ltac:(tauto));
    repeat match type of E with _ \/ _ => destruct E as [E|E] end; destruct E as (K & R); try discriminate K; exact R.
  - apply same_values. intros v. specialize (E (text "merkleFormat") v). 
    split; intros G; [apply proj1 in E|apply proj2 in E]; specialize (E ltac:(tauto));
    repeat match type of E with _ \/ _ => destruct E as [E|E] end; destruct E as (K & R); try discriminate K; exact R.
  - apply one_or_zero_inj. apply same_values. intros v. specialize (E (text "dsCheck") v). 
    split; intros G; [apply proj1 in E|apply proj2 in E]; specialize (E ltac:(tauto));
    repeat match type of E with _ \/ _ => destruct E as [E|E] end; destruct E as (K & R); try discriminate K; exact R.
  - apply same_values. intros v. specialize (E (text "callbackEncryption") v). 
    split; intros G; [apply proj1 in E|apply proj2 in E]; specialize (E ltac:(tauto));
    repeat match type of E with _ \/ _ => destruct E as [E|E] end; destruct E as (K & R); try discriminate K; exact R.
Qed.

Lemma member_fun k j v w : member k j v -> member k j w -> v = w.
Proof. unfold member. intros A B. congruence. Qed.

Theorem submission_determines s s' j : submission_says s j -> submission_says s' j -> s = s'.
Proof.
  intros ((h & H & R) & A1 & A2 & A3 & A4 & A5 & A6) ((h' & H' & R') & B1 & B2 & B3 & B4 & B5 & B6).
  assert (h = h') by (pose proof (member_fun _ _ _ _ H H'); congruence). subst h'.
  assert (T : sm_tx s = sm_tx s') by congruence.
  assert (W : forall (x y : option bytes) k, (forall v, member k j v <-> exists u, x = Some u /\ v = JString u) ->
    (forall v, member k j v <-> exists u, y = Some u /\ v = JString u) -> x = y).
  { intros x y k X Y. apply same_values. intros v. split; intros G.
    - destruct (proj1 (Y (JString v)) (proj2 (X (JString v)) (ex_intro _ v (conj G eq_refl)))) as (u & U & E). congruence.
    - destruct (proj1 (X (JString v)) (proj2 (Y (JString v)) (ex_intro _ v (conj G eq_refl)))) as (u & U & E). congruence. }
  assert (W' : forall (x y : option bool) k, (forall v, member k j v <-> exists u : bool, x = Some u /\ v = JString (text (if u then "1" else "0"))) ->
    (forall v, member k j v <-> exists u : bool, y = Some u /\ v = JString (text (if u then "1" else "0"))) -> x = y).
  { intros x y k X Y. apply same_values. intros v. split; intros G.
    - destruct (proj1 (Y _) (proj2 (X _) (ex_intro _ v (conj G eq_refl)))) as (u & U & E). destruct u, v; try discriminate E; exact U.
    - destruct (proj1 (X _) (proj2 (Y _) (ex_intro _ v (conj G eq_refl)))) as (u & U & E). destruct u, v; try discriminate E; exact U. }
  destruct s as [t [a1 a2 a3 a4 a5 a6]], s' as [t' [b1 b2 b3 b4 b5 b6]].
  cbn [sm_tx sm_parameters pm_url pm_token pm_proof pm_format pm_check pm_encryption] in *.
  rewrite T, (W _ _ _ A1 B1), (W _ _ _ A2 B2), (W' _ _ _ A3 B3), (W _ _ _ A4 B4), (W' _ _ _ A5 B5), (W _ _ _ A6 B6). reflexivity.
Qed.

Lemma submission_valid_iff s : submission_valid s = true <-> sm_tx s <> [].
Proof. unfold submission_valid, len. destruct (sm_tx s); cbn [length]; split; intros; try discriminate; try congruence; lia. Qed.

Section Requests.
Variable u1 : bool.
Variable shown : digest -> bytes.
Variable get : bytes -> bytes.
Variable base : bytes.

Theorem submit_exact as_json s :
  (submit_request u1 base as_json s = Throw tt <-> sm_tx s = []) /\
  (forall r, submit_request u1 base as_json s = Ret r -> rq_post r = true /\ rq_path r = base ++ text "/mapi/tx" /\
    if as_json then rq_query r = None /\ exists j, rq_body r = BJson j /\ submission_says s j
    else rq_body r = BRaw (sm_tx s) /\ exists q, rq_query r = Some q /\ query_says (sm_parameters s) q).
Proof.
  pose proof (submission_valid_iff s) as V. unfold submit_request. destruct (submission_valid s).
  - split; [split; [discriminate|]; intros E; destruct (proj1 V eq_refl E)|]. intros r E.
    assert (r = if as_json then mkrequest true (base ++ text "/mapi/tx") None (BJson (submission_write u1 s))
         else mkrequest true (base ++ text "/mapi/tx") (Some (parameters_list (sm_parameters s))) (BRaw (sm_tx s))) by congruence.
    subst r. destruct as_json; cbn [rq_post rq_path rq_query rq_body]; split; try reflexivity; split; try reflexivity; split; try reflexivity.
    + eexists. split; [reflexivity|]. apply submission_written.
    + eexists. split; [reflexivity|]. apply query_written.
  - split; [|discriminate]. split; [|reflexivity]. intros _. destruct (sm_tx s); [reflexivity|]. destruct V as (_ & V). discriminate V. discriminate.
Qed.

Theorem submit_determines c c' s s' r :
  submit_request u1 base c s = Ret r -> submit_request u1 base c' s' = Ret r -> c = c' /\ s = s'.
Proof.
  intros A B. pose proof (proj2 (submit_exact c s) r A) as (_ & _ & P). pose proof (proj2 (submit_exact c' s') r B) as (_ & _ & Q).
  destruct c, c'.
  - split; [reflexivity|]. destruct P as (_ & j & E & P), Q as (_ & j' & E' & Q). assert (j = j') by congruence. subst. exact (submission_determines _ _ _ P Q).
  - destruct P as (_ & j & E & _), Q as (E' & _). congruence.
  - destruct P as (E & _), Q as (_ & j' & E' & _). congruence.
  - split; [reflexivity|]. destruct P as (E & q & F & P), Q as (E' & q' & F' & Q). assert (q = q') by congruence. subst q'.
    pose proof (query_determines _ _ _ P Q). assert (sm_tx s = sm_tx s') by congruence. destruct s, s'. cbn in *. congruence.
Qed.

Theorem submit_all_exact l p :
  (submit_all_request u1 base l p = Throw tt <-> l = [] \/ exists s, In s l /\ sm_tx s = []) /\
  (forall r, submit_all_request u1 base l p = Ret r -> rq_post r = true /\ rq_path r = base ++ text "/mapi/txs" /\
    (exists q, rq_query r = Some q /\ query_says p q) /\ exists js, rq_body r = BJson (JArray js) /\ Forall2 submission_says l js).
Proof.
  unfold submit_all_request. destruct (negb (Nat.eqb (length l) 0) && forallb submission_valid l) eqn:E.
  - apply andb_true_iff in E as (L & F). rewrite forallb_forall in F. split.
    + split; [discriminate|]. intros [->|(s & S1 & S2)]; [discriminate L|]. apply F, submission_valid_iff in S1. congruence.
    + intros r R. assert (r = mkrequest true (base ++ text "/mapi/txs") (Some (parameters_list p)) (BJson (JArray (map (submission_write u1) l)))) by congruence.
      subst r. cbn [rq_post rq_path rq_query rq_body]. split; [reflexivity|]. split; [reflexivity|]. split.
      * eexists. split; [reflexivity|]. apply query_written.
      * eexists. split; [reflexivity|]. clear. induction l; cbn [map]; constructor; auto. apply submission_written.
  - split; [|discriminate]. split; [|reflexivity]. intros _. apply andb_false_iff in E as [E|E].
    + left. destruct l; [reflexivity|discriminate E].
    + right. clear -E. induction l as [|s l IH]; [discriminate E|]. cbn [forallb] in E. apply andb_false_iff in E as [E|E].
      * exists s. split; [left; reflexivity|]. destruct (sm_tx s) eqn:T; [reflexivity|].
        assert (submission_valid s = true) by (apply submission_valid_iff; congruence). congruence.
      * destruct (IH E) as (x & X & Y). exists x. split; [right; exact X|exact Y].
Qed.

Lemma says_all_fun l l' js : Forall2 submission_says l js -> Forall2 submission_says l' js -> l = l'.
Proof.
  intros A. revert l'. induction A as [|s j l js S1 A IH]; intros l' B; inversion B; subst; [reflexivity|].
  f_equal; [eapply submission_determines; eassumption|]. apply IH. assumption.
Qed.

Theorem submit_all_determines l l' p p' r :
  submit_all_request u1 base l p = Ret r -> submit_all_request u1 base l' p' = Ret r -> l = l' /\ p = p'.
Proof.
  intros A B. pose proof (proj2 (submit_all_exact l p) r A) as (_ & _ & (q & Q & P) & js & J & F).
  pose proof (proj2 (submit_all_exact l' p') r B) as (_ & _ & (q' & Q' & P') & js' & J' & F').
  assert (q = q') by congruence. assert (js = js') by congruence. subst.
  split; [exact (says_all_fun _ _ _ F F')|exact (query_determines _ _ _ P P')].
Qed.

Theorem requests_apart c s l p r r' : submit_request u1 base c s = Ret r -> submit_all_request u1 base l p = Ret r' -> rq_path r <> rq_path r'.
Proof.
  intros A B. apply (proj2 (submit_exact c s)) in A as (_ & A & _). apply (proj2 (submit_all_exact l p)) in B as (_ & B & _).
  rewrite A, B. intros E. apply app_inv_head in E. discriminate E.
Qed.

Theorem status_exact d : (status_request shown get d = Throw tt <-> d = zero_digest) /\
  (d <> zero_digest -> status_request shown get d = Ret (mkrequest false (get (text "/mapi/tx/" ++ shown d)) None BNone)).
Proof.
  unfold status_request, digest_valid. destruct (bytes_eqb d zero_digest) eqn:E; cbn [negb].
  - apply bytes_eqb_eq in E. split; [split; auto|]. intros N. contradiction.
  - assert (d <> zero_digest) by (intros X; apply bytes_eqb_eq in X; congruence).
    split; [split; [discriminate|contradiction]|]. reflexivity.
Qed.

End Requests.

Theorem questions_apart get : (forall a b, get a = get b -> a = b) -> rq_path (policy_request get) <> rq_path (fee_request get) /\
  (forall shown d r, status_request shown get d = Ret r -> rq_path r <> rq_path (policy_request get) /\ rq_path r <> rq_path (fee_request get)).
Proof.
  intros G. split; [intros E; apply G in E; discriminate E|]. intros shown d r E.
  unfold status_request in E. destruct (digest_valid d); [|discriminate E].
  assert (R : r = mkrequest false (get (text "/mapi/tx/" ++ shown d)) None BNone) by congruence. rewrite R.
  split; intros F; apply G in F; discriminate F.
Qed.

(* a quote writes a digest as [shown] does without the first two characters *)
Theorem status_or_quote (shown : digest -> bytes) u2 d : (2 <= length (shown d))%nat ->
  ~ (skipn 2 (shown d) = digest_text u2 d /\ text "/mapi/tx/" ++ shown d = text "/mapi/tx/" ++ digest_text u2 d).
Proof.
  intros L (A & B). apply app_inv_head in B. rewrite B in A, L. apply (f_equal (@length byte)) in A. rewrite skipn_length in A. lia.
Qed.
