(* What strptime reads, exactly *)
From Coq Require Import ZArith Lia ZifyBool ZifyNat ZifyN.
From Verif Require Import Base BaseProofs TimeModel TimeSpec TimeProofs.
Local Open Scope Z_scope.

Definition grow (v : Z) (ds : bytes) : Z := fold_left (fun v c => v * 10 + dec c) ds v.
Lemma dec_nonneg c : is_dec c = true -> 0 <= dec c.
Proof. unfold is_dec, dec. lia. Qed.
Lemma grow_ge ds : Forall (fun c => is_dec c = true) ds -> forall v, 0 <= v -> v <= grow v ds.
Proof. induction 1 as [|c ds C _ IH]; intros v L; cbn [grow fold_left]; [lia|]. pose proof (dec_nonneg c C). specialize (IH (v * 10 + dec c) ltac:(lia)). unfold grow in IH. lia. Qed.
Lemma more_back k hi ds q : Forall (fun c => is_dec c = true) ds -> forall v, 0 <= v -> (length ds <= k)%nat -> grow v ds <= hi ->
  (length ds = k \/ hi < grow v ds * 10 \/ no_digit q) -> more_digits k hi v (ds ++ q) = (grow v ds, q).
Proof.
  intros F. revert k. induction F as [|c ds C F IH]; intros k v L K H M.
  - cbn [app grow fold_left length] in *. unfold more_digits. destruct k as [|k]; [reflexivity|]. destruct q as [|c q]; [reflexivity|]. fold more_digits.
    destruct M as [M|[M|M]]; [discriminate M| |].
    + replace (v * 10 <=? hi) with false by lia. reflexivity.
    + cbn [no_digit] in M. rewrite M, andb_false_r. reflexivity.
  - cbn [length] in K. destruct k as [|k]; [lia|]. cbn [app more_digits]. cbn [grow fold_left] in *. fold (grow (v * 10 + dec c) ds) in *. rewrite C. pose proof (dec_nonneg c C) as D.
    pose proof (grow_ge ds F (v * 10 + dec c) ltac:(lia)) as G. replace (v * 10 <=? hi) with true by lia. cbn [andb]. apply IH; [lia|lia|exact H|]. destruct M as [M|M]; [left; cbn [length] in M; lia|right; exact M].
Qed.
Lemma more_forth k hi : forall v s v' q, more_digits k hi v s = (v', q) -> exists ds, s = ds ++ q /\ Forall (fun c => is_dec c = true) ds /\ (length ds <= k)%nat /\ v' = grow v ds /\
  (length ds = k \/ hi < v' * 10 \/ no_digit q).
Proof.
  induction k as [|k IH]; intros v s v' q E; cbn [more_digits] in E.
  - exists []. assert (v' = v /\ q = s) as [-> ->] by (split; congruence). repeat split; [constructor|cbn; lia|left; reflexivity].
  - destruct s as [|c r].
    + exists []. assert (v' = v /\ q = []) as [-> ->] by (split; congruence). repeat split; [constructor|cbn; lia|right; right; exact Logic.I].
    + destruct ((v * 10 <=? hi) && is_dec c) eqn:D.
      * apply andb_prop in D as (D1 & D2). destruct (IH _ _ _ _ E) as (ds & -> & F & L & V & M). exists (c :: ds). split; [reflexivity|]. split; [constructor; assumption|]. cbn [length]. split; [lia|].
        split; [exact V|]. destruct M as [M|M]; [left; lia|right; exact M].
      * exists []. assert (v' = v /\ q = c :: r) as [-> ->] by (split; congruence). repeat split; [constructor|cbn; lia|]. right. apply andb_false_iff in D as [D|D]; [left; lia|right; exact D].
Qed.
Lemma skip_white_split s : exists w, s = w ++ skip_white s /\ Forall (fun c => white c = true) w.
Proof.
  induction s as [|c s (w & E & F)]; [exists []; split; [reflexivity|constructor]|]. cbn [skip_white]. destruct (white c) eqn:W.
  - exists (c :: w). split; [cbn [app]; f_equal; exact E|constructor; assumption].
  - exists []. split; [reflexivity|constructor].
Qed.
Lemma skip_white_app w s : Forall (fun c => white c = true) w -> skip_white (w ++ s) = skip_white s.
Proof. induction 1 as [|c w W _ IH]; [reflexivity|]. cbn [app skip_white]. rewrite W. exact IH. Qed.
Lemma dec_not_white c : is_dec c = true -> white c = false.
Proof. unfold is_dec, white. lia. Qed.
Lemma number_exact lo hi n s v q : (1 <= n)%nat -> get_number lo hi n s = Some (v, q) <-> numeral lo hi n s v q.
Proof.
  intros N1. unfold get_number, numeral. split.
  - destruct (skip_white_split s) as (w & E & W). destruct (skip_white s) as [|c r]; [discriminate|]. destruct (is_dec c) eqn:C; [|discriminate].
    destruct (more_digits (n - 1) hi (dec c) r) as (v' & p) eqn:M. destruct ((lo <=? v') && (v' <=? hi)) eqn:R; [|discriminate]. intros X. assert (v' = v /\ p = q) as [-> ->] by (split; congruence).
    destruct (more_forth _ _ _ _ _ _ M) as (ds & -> & F & L & V & D). exists w, (c :: ds). split; [exact E|]. split; [exact W|]. split; [constructor; assumption|]. cbn [length]. split; [lia|].
    split; [exact V|]. split; [lia|]. destruct D as [D|D]; [left; lia|right; exact D].
  - intros (w & ds & -> & W & F & L & V & R & D). rewrite skip_white_app by exact W. destruct ds as [|c ds]; [cbn [length] in L; lia|]. cbn [app skip_white].
    inversion F as [|? ? C F' E1]. subst. rewrite (dec_not_white c C), C. cbn [length] in L.
    change (digits_value (c :: ds)) with (grow (dec c) ds) in *.
    rewrite (more_back (n - 1) hi ds q F' (dec c) (dec_nonneg c C)); [|lia|lia|destruct D as [D|D]; [left; cbn [length] in D; lia|right; exact D]].
    replace ((lo <=? grow (dec c) ds) && (grow (dec c) ds <=? hi)) with true by lia. reflexivity.
Qed.
Lemma expect_exact c s q : expect c s = Some q <-> s = c :: q.
Proof.
  unfold expect. destruct s as [|x r]; [split; discriminate|]. destruct (byte_eqb x c) eqn:E.
  - apply byte_eqb_eq in E. subst x. split; congruence.
  - split; [discriminate|]. intros X. assert (x = c) as -> by congruence. rewrite byte_eqb_refl in E. discriminate.
Qed.
Lemma number_skips lo hi n s : get_number lo hi n (skip_white s) = get_number lo hi n s.
Proof. unfold get_number. destruct (skip_white_split s) as (w & E & W). rewrite E at 2. rewrite skip_white_app by exact W. reflexivity. Qed.
Theorem format_exact s u : strptime s = Some (mktm (m_date u) 0 (m_hour u) (m_min u) (m_sec u)) <-> has_format s u.
Proof.
  unfold has_format, strptime. split.
  - intros E. destruct (get_number 0 9999 4 s) as [(y & s1)|] eqn:E1; [|discriminate E]. destruct (expect x2d s1) as [s2|] eqn:P1; [|discriminate E]. destruct (get_number 1 12 2 s2) as [(m & s3)|] eqn:E2; [|discriminate E].
    destruct (expect x2d s3) as [s4|] eqn:P2; [|discriminate E]. destruct (get_number 1 31 2 s4) as [(d & s5)|] eqn:E3; [|discriminate E]. rewrite number_skips in E. destruct (get_number 0 23 2 s5) as [(h & s6)|] eqn:E4; [|discriminate E].
    destruct (expect x3a s6) as [s7|] eqn:P3; [|discriminate E]. destruct (get_number 0 59 2 s7) as [(i & s8)|] eqn:E5; [|discriminate E]. destruct (expect x3a s8) as [s9|] eqn:P4; [|discriminate E]. destruct (get_number 0 61 2 s9) as [(c & s10)|] eqn:E6; [|discriminate E].
    apply expect_exact in P1, P2, P3, P4. subst. destruct u as [[y' m' d'] h' i' c']. cbn [m_date m_hour m_min m_sec d_year d_month d_day] in *.
    assert (y = y' /\ m = m' /\ d = d' /\ h = h' /\ i = i' /\ c = c') as (-> & -> & -> & -> & -> & ->) by (repeat split; congruence).
    exists s2, s4, s5, s7, s9, s10. rewrite number_exact in E1, E2, E3, E4, E5, E6 by lia. repeat (split; [assumption|]). assumption.
  - intros (s1 & s2 & s3 & s4 & s5 & s6 & A & B & C & D & E & F). apply number_exact in A, B, C, D, E, F; try lia.
    rewrite A. cbn [expect]. rewrite byte_eqb_refl, B. cbn [expect]. rewrite byte_eqb_refl, C, number_skips, D. cbn [expect]. rewrite byte_eqb_refl, E. cbn [expect]. rewrite byte_eqb_refl, F.
    destruct u as [[y m d] h i c]. reflexivity.
Qed.
Theorem read_exact x r :
  (forall u, has_format (until_nul (x ++ r)) u -> in_format u /\ read_time x r = time_result u) /\
  ((~ exists u, has_format (until_nul (x ++ r)) u) -> read_time x r = Undef).
Proof.
  split.
  - intros u F. assert (G : in_format u).
    { destruct F as (s1 & s2 & s3 & s4 & s5 & s6 & A & B & C & D & E & F).
      assert (Q : forall lo hi n s v q, numeral lo hi n s v q -> lo <= v <= hi) by (intros lo hi n s v q (w & ds & _ & _ & _ & _ & _ & L & _); exact L).
      unfold in_format. repeat (split; [eapply Q; eassumption|]). eapply Q; eassumption. }
    split; [exact G|]. apply format_exact in F. unfold read_time. rewrite F. destruct G as (_ & M & D & H & I0 & C). rewrite to_time_exact by assumption. destruct u as [d h i c]. reflexivity.
  - intros H. destruct (read_any x r) as [E|(u & _ & S1 & _)]; [exact E|]. exfalso. apply H. exists u. apply format_exact. exact S1.
Qed.
