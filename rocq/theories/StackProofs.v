From Verif Require Import Base BaseProofs ScriptModel NumModel StackModel StackSpec.
From Coq Require Import Permutation ZifyBool ZifyNat ZifyN.
Ltac Zify.zify_post_hook ::= Z.div_mod_to_equations.
Local Open Scope N_scope.

Lemma footprint_cons : forall x l, footprint (x :: l) = len x + 32 + footprint l.
Proof. intros. unfold footprint. cbn [fold_right length]. lia. Qed.
Lemma footprint_nil : footprint [] = 0.
Proof. reflexivity. Qed.
Lemma footprint_app : forall l k, footprint (l ++ k) = footprint l + footprint k.
Proof. induction l; intros; cbn [app]; rewrite ?footprint_cons, ?footprint_nil, ?IHl; lia. Qed.
Lemma sum_sizes_footprint : forall l, sum_sizes l = footprint l.
Proof.
  induction l; [reflexivity|]. rewrite footprint_cons, <- IHl. unfold sum_sizes, ELEMENT_OVERHEAD. cbn [fold_right]. lia.
Qed.

Lemma footprint_perm : forall l k, Permutation l k -> footprint l = footprint k.
Proof. induction 1; rewrite ?footprint_cons; lia. Qed.

Lemma fits_perm : forall lim m a m' a', Permutation (m ++ a) (m' ++ a') -> fits lim m a -> fits lim m' a'.
Proof.
  intros lim m a m' a' P F. destruct lim; cbn [fits] in *.
  - destruct F as [F1 F2]. split; [eapply Permutation_Forall; eauto|].
    apply Permutation_length in P. rewrite !app_length in P. lia.
  - apply footprint_perm in P. rewrite !footprint_app in P. lia.
Qed.

Lemma fits_tail : forall lim x m a, fits lim (x :: m) a -> fits lim m a.
Proof.
  intros lim x m a F. destruct lim; cbn [fits app length] in *.
  - destruct F as [F1 F2]. inversion F1. split; [assumption|lia].
  - rewrite footprint_cons in F. lia.
Qed.

Lemma fits_app : forall lim k m a, fits lim (k ++ m) a -> fits lim m a.
Proof. induction k; intros m a0 F; [exact F|]. apply fits_tail in F. auto. Qed.

Lemma nth_error_split3 : forall {A} (l : list A) p x, nth_error l p = Some x ->
  l = firstn p l ++ x :: skipn (p + 1) l.
Proof.
  intros A l p. revert l. induction p; intros [|y l] x H; try discriminate.
  - cbn in H. inversion H. reflexivity.
  - cbn [nth_error] in H. cbn [firstn app Nat.add skipn]. f_equal. auto.
Qed.

Lemma set_nth_perm1 : forall {A} (l : list A) q x y, nth_error l q = Some y ->
  Permutation (x :: l) (y :: set_nth q x l).
Proof.
  intros A. induction l as [|z l IH]; intros [|q] x y H; try discriminate.
  - cbn in H. inversion H. cbn [set_nth]. apply perm_swap.
  - cbn [nth_error] in H. cbn [set_nth].
    transitivity (z :: x :: l); [apply perm_swap|].
    transitivity (z :: y :: set_nth q x l); [apply perm_skip; auto|apply perm_swap].
Qed.

Lemma set_nth_same : forall {A} (l : list A) q x, nth_error l q = Some x -> set_nth q x l = l.
Proof.
  intros A. induction l as [|z l IH]; intros [|q] x H; try discriminate; cbn [set_nth].
  - cbn in H. congruence.
  - f_equal. auto.
Qed.

Lemma swap_perm : forall {A} (l : list A) p q x y, nth_error l p = Some x -> nth_error l q = Some y ->
  Permutation l (set_nth p y (set_nth q x l)).
Proof.
  intros A. induction l as [|z l IH]; intros [|p] [|q] x y Hp Hq; try discriminate.
  - cbn in Hp, Hq. inversion Hp; inversion Hq; subst. cbn [set_nth]. reflexivity.
  - cbn [nth_error] in *. inversion Hp; subst. cbn [set_nth]. apply set_nth_perm1. assumption.
  - cbn [nth_error] in *. inversion Hq; subst. cbn [set_nth]. apply set_nth_perm1. assumption.
  - cbn [nth_error set_nth] in *. apply perm_skip. auto.
Qed.

Lemma set_nth_length : forall {A} (l : list A) p y, length (set_nth p y l) = length l.
Proof. intros A. induction l; intros [|p] y; cbn [set_nth length]; auto. Qed.

Lemma skipn_plus : forall {A} (a b : nat) (l : list A), skipn a (skipn b l) = skipn (b + a) l.
Proof. intros A a b. induction b; intros [|x l]; cbn [skipn Nat.add]; auto. destruct a; reflexivity. Qed.

Definition good_intro : forall s, fits (s_lim s) (s_main s) (s_alt s) -> accounted s -> capped (s_lim s) -> good s.
Proof. unfold good. auto. Qed.

(* a value that stays below 2^64 is not changed by the wrap *)
Lemma dec_mem : forall m n, n <= m -> m < 2 ^ 63 -> (m + 2 ^ 64 - n mod 2 ^ 64) mod 2 ^ 64 = m - n.
Proof.
  intros. change (2 ^ 64) with 18446744073709551616 in *. change (2 ^ 63) with 9223372036854775808 in *.
  rewrite (N.mod_small n) by lia.
  replace (m + 18446744073709551616 - n) with ((m - n) + 1 * 18446744073709551616) by lia.
  rewrite N.mod_add by lia. apply N.mod_small. lia.
Qed.

Ltac destruct_stack s := destruct s as [main alt lim mem].
Ltac unfold_good := unfold becomes, good, accounted, capped in *; cbn [s_lim s_main s_alt s_mem] in *.

Lemma push_back_spec : forall s x, good s -> len x < 2 ^ 62 ->
  match push_back x s with
  | Val _ s' => becomes s s' (x :: s_main s) (s_alt s)
  | Exc _ s' => s' = s /\ ~ fits (s_lim s) (x :: s_main s) (s_alt s)
  | _ => False
  end.
Proof.
  intros s x G L. destruct_stack s. unfold push_back. cbn [s_lim].
  destruct lim as [ms me|max].
  - destruct G as (F & _ & _). cbn [s_lim s_main s_alt fits] in F. destruct F as [F1 F2].
    destruct (N.ltb_spec ms (len x)) as [A|A].
    + split; [reflexivity|]. intros [B _]. cbn [s_main app] in B. inversion B. lia.
    + destruct (N.eqb_spec (combined_size {| s_main := main; s_alt := alt; s_lim := Count ms me; s_mem := mem |}) me) as [E|E];
        unfold combined_size, size, alt_size in E; cbn [s_main s_alt] in E.
      * split; [reflexivity|]. intros [_ B]. cbn [s_main s_alt length] in B. lia.
      * unfold emplace, with_main. unfold_good. cbn [fits app length].
        repeat split; auto; cbn [s_main s_alt app length]; try (constructor; assumption); lia.
  - destruct G as (F & Ac & C). unfold_good. cbn [fits] in F.
    unfold increase_memory_usage, emplace, mbind, with_main, with_mem, ELEMENT_OVERHEAD. cbn [s_mem s_main s_alt s_lim].
    rewrite N.mod_small by (change (2 ^ 62) with 4611686018427387904 in *; change (2 ^ 63) with 9223372036854775808 in *;
                            change (2 ^ 64) with 18446744073709551616 in *; lia).
    destruct (N.ltb_spec max (mem + (len x + 32))) as [A|A].
    + split; [reflexivity|]. cbn [fits]. rewrite footprint_cons. lia.
    + cbn [s_lim s_main s_alt s_mem fits]. 
rewrite footprint_cons. repeat split; lia.
Qed.

Lemma pop_back_spec : forall s x r, good s -> s_main s = x :: r ->
  exists s', pop_back s = Val tt s' /\ becomes s s' r (s_alt s).
Proof.
  intros s x r G E. destruct_stack s. cbn [s_main] in E. subst main.
  unfold pop_back. cbn [s_main s_lim]. destruct G as (F & Ac & C). cbn [s_lim s_main s_alt] in F.
  pose proof (fits_tail _ _ _ _ F) as F'.
  destruct lim.
  - eexists. split; [reflexivity|]. unfold with_main. unfold_good. auto 12.
  - unfold decrease_memory_usage, mbind, with_mem, with_main, ELEMENT_OVERHEAD. cbn [s_main s_lim s_alt s_mem].
    eexists. split; [reflexivity|]. unfold_good. cbn [fits] in *. rewrite footprint_cons in *.
    repeat split; auto. rewrite dec_mem; lia.
Qed.

Lemma pop_back_empty : forall s, s_main s = [] -> pop_back s = Exc X_other s.
Proof. intros s E. unfold pop_back. rewrite E. reflexivity. Qed.

Lemma top_spec : forall s i, (i < 0)%Z ->
  top i s = match nth_error (s_main s) (Z.to_nat (- i - 1)) with Some x => Val x s | None => Exc X_range s end.
Proof. intros. unfold top. destruct (Z.leb_spec 0 i); [lia|reflexivity]. Qed.

Lemma modify_top_spec : forall s x r f y, good s -> s_main s = x :: r -> f x = F_ok y -> len y < 2 ^ 62 ->
  match modify_top f s with
  | Val _ s' => becomes s s' (y :: r) (s_alt s)
  | Exc _ s' => ~ fits (s_lim s) (y :: r) (s_alt s)
  | _ => False
  end.
Proof.
  intros s x r f y G E Ef L. destruct_stack s. cbn [s_main] in E. subst main.
  unfold modify_top. cbn [s_main]. rewrite Ef. cbn [s_lim].
  destruct G as (F & Ac & C). cbn [s_lim s_main s_alt] in F.
  destruct lim as [ms me|max].
  - cbn [fits app length] in F. destruct F as [F1 F2]. inversion F1; subst.
    unfold with_main. cbn [s_main s_lim s_alt s_mem].
    destruct (N.ltb_spec ms (len y)) as [A|A].
    + cbn [fits app]. intros [B _]. inversion B. lia.
    + unfold_good. cbn [fits app length]. repeat split; auto.
  - unfold_good. cbn [fits] in F. rewrite footprint_cons in *.
    unfold increase_memory_usage, decrease_memory_usage, with_main, with_mem. cbn [s_main s_lim s_alt s_mem].
    assert (N1 : max < 2 ^ 63) by assumption.
    destruct (N.ltb_spec (len x) (len y)) as [A|A].
    + rewrite N.mod_small by (change (2 ^ 62) with 4611686018427387904 in *; change (2 ^ 63) with 9223372036854775808 in *;
                              change (2 ^ 64) with 18446744073709551616 in *; lia).
      destruct (N.ltb_spec max (mem + (len y - len x))) as [B|B].
      * cbn [fits]. rewrite footprint_cons. lia.
      * cbn [s_main s_lim s_alt s_mem fits]. rewrite footprint_cons. repeat split; lia.
    + cbn [s_main s_lim s_alt s_mem fits]. rewrite footprint_cons. rewrite dec_mem by lia. repeat split; lia.
Qed.

Lemma erase_range_spec : forall s f l, good s -> (f < l < 0)%Z -> (Z.to_nat (- f) <= length (s_main s))%nat ->
  exists s', erase_range f l s = Val tt s' /\
    becomes s s' (firstn (Z.to_nat (- l)) (s_main s) ++ skipn (Z.to_nat (- f)) (s_main s)) (s_alt s).
Proof.
  intros s f l G B L. destruct_stack s. cbn [s_main] in *.
  unfold erase_range. destruct (Z.leb_spec 0 l); [lia|]. destruct (Z.leb_spec l f); [lia|]. cbn [orb s_main].
  destruct (Nat.ltb_spec (length main) (Z.to_nat (- f))); [lia|].
  set (hi := Z.to_nat (- f)) in *. set (lo := Z.to_nat (- l)) in *.
  assert (HL : (lo <= hi)%nat) by lia.
  assert (P : main = firstn lo main ++ firstn (hi - lo) (skipn lo main) ++ skipn hi main).
  { transitivity (firstn lo main ++ skipn lo main); [symmetry; apply firstn_skipn|]. f_equal.
    rewrite <- (firstn_skipn (hi - lo) (skipn lo main)) at 1. f_equal.
    rewrite skipn_plus. f_equal. lia. }
  destruct G as (F & Ac & C). cbn [s_lim s_main s_alt] in F.
  assert (F' : fits lim (firstn lo main ++ skipn hi main) alt).
  { apply (fits_app lim (firstn (hi - lo) (skipn lo main))).
    eapply fits_perm; [|exact F]. apply Permutation_app_tail. rewrite P at 1. rewrite !app_assoc. apply Permutation_app_tail.
    apply Permutation_app_comm. }
  destruct lim.
  - eexists. split; [reflexivity|]. unfold with_main. unfold_good. auto 12.
  - unfold decrease_memory_usage, with_mem, with_main. cbn [s_lim s_main s_alt s_mem].
    eexists. split; [reflexivity|]. unfold_good. repeat split; auto.
    rewrite sum_sizes_footprint. cbn [fits] in F, F'.
    assert (Q : footprint main = footprint (firstn lo main) + (footprint (firstn (hi - lo) (skipn lo main)) + footprint (skipn hi main)))
      by (rewrite P at 1; rewrite !footprint_app; reflexivity).
    rewrite footprint_app in *. rewrite dec_mem; lia.
Qed.

Lemma erase_spec : forall s i x, good s -> (i < 0)%Z -> nth_error (s_main s) (Z.to_nat (- i - 1)) = Some x ->
  exists s', erase i s = Val tt s' /\
    becomes s s' (firstn (Z.to_nat (- i - 1)) (s_main s) ++ skipn (Z.to_nat (- i - 1) + 1) (s_main s)) (s_alt s).
Proof.
  intros s i x G B E. destruct_stack s. cbn [s_main] in *.
  unfold erase. destruct (Z.leb_spec 0 i); [lia|]. cbn [s_main s_lim]. rewrite E.
  set (p := Z.to_nat (- i - 1)) in *.
  pose proof (nth_error_split3 _ _ _ E) as P.
  destruct G as (F & Ac & C). cbn [s_lim s_main s_alt] in F.
  assert (F' : fits lim (firstn p main ++ skipn (p + 1) main) alt).
  { apply (fits_tail lim x). eapply fits_perm; [|exact F]. apply Permutation_app_tail. rewrite P at 1. symmetry.
    apply Permutation_middle. }
  destruct lim.
  - eexists. split; [reflexivity|]. unfold with_main. unfold_good. auto 12.
  - unfold decrease_memory_usage, with_mem, with_main, ELEMENT_OVERHEAD. cbn [s_lim s_main s_alt s_mem].
    eexists. split; [reflexivity|]. unfold_good. repeat split; auto. cbn [fits] in F, F'.
    assert (Q : footprint main = footprint (firstn p main) + (len x + 32 + footprint (skipn (p + 1) main)))
      by (rewrite P at 1; rewrite footprint_app, footprint_cons; reflexivity).
    rewrite footprint_app in *. rewrite dec_mem; lia.
Qed.

Lemma insert_spec : forall s i x, good s -> (i < 0)%Z -> (Z.to_nat (- i) <= length (s_main s))%nat -> len x < 2 ^ 62 ->
  let main' := firstn (Z.to_nat (- i)) (s_main s) ++ [x] ++ skipn (Z.to_nat (- i)) (s_main s) in
  match insert i x s with
  | Val _ s' => becomes s s' main' (s_alt s)
  | Exc _ s' => s' = s /\ ~ fits (s_lim s) main' (s_alt s)
  | _ => False
  end.
Proof.
  intros s i x G B L Lx. cbv zeta. destruct_stack s. cbn [s_main s_alt s_lim] in *.
  unfold insert. destruct (Z.leb_spec 0 i); [lia|]. set (p := Z.to_nat (- i)) in *. cbn [s_lim].
  destruct G as (F & Ac & C). cbn [s_lim s_main s_alt] in F.
  assert (P : Permutation (firstn p main ++ [x] ++ skipn p main) (x :: main)).
  { cbn [app]. rewrite <- (firstn_skipn p main) at 3. symmetry. apply Permutation_middle. }
  assert (PF : forall lim, fits lim (x :: main) alt <-> fits lim (firstn p main ++ [x] ++ skipn p main) alt).
  { intros l. split; apply fits_perm; apply Permutation_app_tail; [symmetry|]; exact P. }
  destruct lim as [ms me|max].
  - cbn [fits] in F. destruct F as [F1 F2].
    unfold combined_size, size, alt_size. cbn [s_main s_alt].
    destruct (N.ltb_spec ms (len x)) as [A|A]; cbn [orb].
    + split; [reflexivity|]. rewrite <- PF. intros [Q _]. inversion Q. lia.
    + destruct (N.eqb_spec (N.of_nat (length main) + N.of_nat (length alt)) me) as [E|E].
      * split; [reflexivity|]. rewrite <- PF. intros [_ Q]. cbn [length] in Q. lia.
      * destruct (Nat.ltb_spec (length main) p); [lia|]. unfold with_main. unfold_good.
        assert (Q : fits (Count ms me) (x :: main) alt) by (cbn [fits app length]; split; auto; lia).
        apply PF in Q. auto 12.
  - unfold increase_memory_usage, mbind, with_mem, with_main, ELEMENT_OVERHEAD. unfold_good. cbn [fits] in F.
    rewrite N.mod_small by (change (2 ^ 62) with 4611686018427387904 in *; change (2 ^ 63) with 9223372036854775808 in *;
                            change (2 ^ 64) with 18446744073709551616 in *; lia).
    destruct (N.ltb_spec max (mem + (len x + 32))) as [A|A].
    + split; [reflexivity|]. rewrite <- PF. cbn [fits]. rewrite footprint_cons. lia.
    + cbn [s_main s_lim s_alt s_mem]. destruct (Nat.ltb_spec (length main) p); [lia|]. cbn [s_main s_lim s_alt s_mem].
      repeat split; auto.
      * apply PF. cbn [fits]. rewrite footprint_cons. lia.
      * apply footprint_perm in P. rewrite P, footprint_cons. lia.
Qed.

Lemma to_alt_spec : forall s x r, good s -> s_main s = x :: r ->
  exists s', to_alt s = Val tt s' /\ becomes s s' r (x :: s_alt s).
Proof.
  intros s x r (F & Ac & C) E. destruct_stack s. cbn [s_main] in E. subst main. unfold to_alt. cbn [s_main s_alt s_lim s_mem].
  eexists. split; [reflexivity|]. unfold_good. repeat split; auto.
  - eapply fits_perm; [|exact F]. cbn [app]. apply Permutation_middle.
  - destruct lim; [trivial|]. rewrite !footprint_cons in *. lia.
Qed.

Lemma from_alt_spec : forall s x r, good s -> s_alt s = x :: r ->
  exists s', from_alt s = Val tt s' /\ becomes s s' (x :: s_main s) r.
Proof.
  intros s x r (F & Ac & C) E. destruct_stack s. cbn [s_alt] in E. subst alt. unfold from_alt. cbn [s_main s_alt s_lim s_mem].
  eexists. split; [reflexivity|]. unfold_good. repeat split; auto.
  - eapply fits_perm; [|exact F]. cbn [app]. symmetry. apply Permutation_middle.
  - destruct lim; [trivial|]. rewrite !footprint_cons in *. lia.
Qed.

Lemma swap_spec : forall s d1 d2 x y, good s ->
  nth_error (s_main s) (N.to_nat (d1 - 1)) = Some x -> nth_error (s_main s) (N.to_nat (d2 - 1)) = Some y ->
  exists s', swap d1 d2 s = Val tt s' /\
    becomes s s' (set_nth (N.to_nat (d1 - 1)) y (set_nth (N.to_nat (d2 - 1)) x (s_main s))) (s_alt s).
Proof.
  intros s d1 d2 x y (F & Ac & C) E1 E2. destruct_stack s. cbn [s_main] in *. unfold swap. cbn [s_main]. rewrite E1, E2.
  pose proof (swap_perm _ _ _ _ _ E1 E2) as P.
  eexists. split; [reflexivity|]. unfold with_main. unfold_good. repeat split; auto.
  - eapply fits_perm; [|exact F]. apply Permutation_app_tail. exact P.
  - destruct lim; [trivial|]. rewrite <- (footprint_perm _ _ P). assumption.
Qed.

Lemma set_nth_footprint : forall l p x y, nth_error l p = Some x -> len y = len x -> footprint (set_nth p y l) = footprint l.
Proof.
  induction l as [|z l IH]; intros [|p] x y E L; try discriminate; cbn [set_nth nth_error] in *; rewrite !footprint_cons.
  - inversion E; subst. lia.
  - rewrite (IH _ _ _ E L). reflexivity.
Qed.

Lemma set_nth_Forall : forall (P : bytes -> Prop) l p y, Forall P l -> P y -> Forall P (set_nth p y l).
Proof. intros P. induction l; intros [|p] y F H; cbn [set_nth]; inversion F; subst; constructor; auto. Qed.

Lemma update_top_spec : forall s i x y, good s -> (i < 0)%Z ->
  nth_error (s_main s) (Z.to_nat (- i - 1)) = Some x -> len y = len x ->
  exists s', update_top i y s = Val tt s' /\ becomes s s' (set_nth (Z.to_nat (- i - 1)) y (s_main s)) (s_alt s).
Proof.
  intros s i x y (F & Ac & C) B E L. destruct_stack s. cbn [s_main] in *. unfold update_top.
  eexists. split; [reflexivity|]. unfold with_main. unfold_good. repeat split; auto.
  - destruct lim; cbn [fits] in *.
    + destruct F as [F1 F2]. rewrite set_nth_length. split; [|assumption].
      apply Forall_app in F1. destruct F1 as [F1 F3]. apply Forall_app. split; [|assumption].
      apply set_nth_Forall; [assumption|]. rewrite L. rewrite Forall_forall in F1. apply F1. eapply nth_error_In; eauto.
    + rewrite (set_nth_footprint _ _ _ _ E L). assumption.
  - destruct lim; [trivial|]. rewrite (set_nth_footprint _ _ _ _ E L). assumption.
Qed.

Lemma becomes_good : forall s s' m a, becomes s s' m a -> good s' /\ s_lim s' = s_lim s.
Proof. unfold becomes. tauto. Qed.

Lemma do_op_good : forall o s s', good s -> op_sane o -> do_op o s = Val tt s' -> good s' /\ s_lim s' = s_lim s.
Proof.
  intros o s s' G O H. destruct o; cbn [do_op op_sane] in *.
  - pose proof (push_back_spec s x G O) as P. rewrite H in P. eapply becomes_good; eauto.
  - destruct (s_main s) as [|x r] eqn:E.
    + rewrite pop_back_empty in H by assumption. discriminate.
    + destruct (pop_back_spec s x r G E) as (t & P & B). rewrite H in P. inversion P; subst. eapply becomes_good; eauto.
  - destruct (Z.leb_spec 0 i) as [A|A].
    + unfold erase in H. destruct (Z.leb_spec 0 i); [discriminate|lia].
    + destruct (nth_error (s_main s) (Z.to_nat (- i - 1))) as [x|] eqn:E.
      * destruct (erase_spec s i x G A E) as (t & P & B). rewrite H in P. inversion P; subst. eapply becomes_good; eauto.
      * unfold erase in H. destruct (Z.leb_spec 0 i); [lia|]. rewrite E in H. destruct (s_lim s); discriminate.
  - destruct (Z.leb_spec 0 last) as [A|A]; [unfold erase_range in H; destruct (Z.leb_spec 0 last); [discriminate|lia]|].
    destruct (Z.leb_spec last first) as [A'|A'].
    { unfold erase_range in H. destruct (Z.leb_spec 0 last); [discriminate|]. destruct (Z.leb_spec last first); [discriminate|lia]. }
    destruct (Nat.leb_spec (Z.to_nat (- first)) (length (s_main s))) as [A2|A2].
    + destruct (erase_range_spec s first last G ltac:(lia) A2) as (t & P & B). rewrite H in P. inversion P; subst. eapply becomes_good; eauto.
    + unfold erase_range in H. destruct (Z.leb_spec 0 last); [discriminate|]. destruct (Z.leb_spec last first); [discriminate|].
      cbn [orb] in H. destruct (Nat.ltb_spec (length (s_main s)) (Z.to_nat (- first))); [discriminate|lia].
  - destruct (Z.leb_spec 0 i) as [A|A].
    + unfold insert in H. destruct (Z.leb_spec 0 i); [discriminate|lia].
    + destruct (Nat.leb_spec (Z.to_nat (- i)) (length (s_main s))) as [A2|A2].
      * pose proof (insert_spec s i x G A A2 O) as P. cbv zeta in P. rewrite H in P. eapply becomes_good; eauto.
      * unfold insert in H. destruct (Z.leb_spec 0 i); [lia|]. destruct (s_lim s) eqn:El.
        -- destruct ((max_size <? len x) || (combined_size s =? max_elements)); [discriminate|].
           destruct (Nat.ltb_spec (length (s_main s)) (Z.to_nat (- i))); [discriminate|lia].
        -- unfold mbind, increase_memory_usage in H.
           destruct (max_usage <? (s_mem s + (len x + ELEMENT_OVERHEAD)) mod 2 ^ 64); [discriminate|].
           cbn [with_mem s_main] in H. destruct (Nat.ltb_spec (length (s_main s)) (Z.to_nat (- i))); [discriminate|lia].
  - destruct (s_main s) as [|x r] eqn:E.
    + unfold to_alt in H. rewrite E in H. discriminate.
    + destruct (to_alt_spec s x r G E) as (t & P & B). rewrite H in P. inversion P; subst. eapply becomes_good; eauto.
  - destruct (s_alt s) as [|x r] eqn:E.
    + unfold from_alt in H. rewrite E in H. discriminate.
    + destruct (from_alt_spec s x r G E) as (t & P & B). rewrite H in P. inversion P; subst. eapply becomes_good; eauto.
  - destruct (nth_error (s_main s) (N.to_nat (d1 - 1))) as [x|] eqn:E1;
      [|unfold swap in H; rewrite E1 in H; discriminate].
    destruct (nth_error (s_main s) (N.to_nat (d2 - 1))) as [y|] eqn:E2;
      [|unfold swap in H; rewrite E1, E2 in H; discriminate].
    destruct (swap_spec s d1 d2 x y G E1 E2) as (t & P & B). rewrite H in P. inversion P; subst. eapply becomes_good; eauto.
  - destruct (s_main s) as [|y r] eqn:E.
    + unfold replace_back, modify_top in H. rewrite E in H. discriminate.
    + pose proof (modify_top_spec s y r (fun _ => F_ok x) x G E eq_refl O) as P. unfold replace_back in H. rewrite H in P.
      eapply becomes_good; eauto.
Qed.

Lemma do_ops_good : forall l s s', good s -> Forall op_sane l -> do_ops l s = Val tt s' -> good s' /\ s_lim s' = s_lim s.
Proof.
  induction l as [|o l IH]; intros s s' G F H; cbn [do_ops] in H.
  - inversion H; subst. auto.
  - inversion F; subst. unfold mbind in H. destruct (do_op o s) as [[] t| | |] eqn:E; try discriminate.
    destruct (do_op_good _ _ _ G H2 E) as [G' L']. destruct (IH _ _ G' H3 H) as [G'' L'']. split; [assumption|congruence].
Qed.

Lemma good0 : forall l, capped l -> good (stack0 l).
Proof. intros l C. unfold good, accounted. cbn. destruct l; cbn; repeat split; auto; try lia. Qed.
