From Verif Require Import Base BaseProofs ScriptModel NumModel NumSpec NumProofs ShiftProofs.
From Verif Require Import StackModel StackSpec StackProofs MachineModel MachineSpec.
From Coq Require Import Permutation ZifyBool ZifyNat ZifyN.
Ltac Zify.zify_post_hook ::= Z.div_mod_to_equations.
Local Open Scope N_scope.

(* ---- bytewise operations ---- *)

Lemma nth_zip f a b j : f x00 x00 = x00 -> length a = length b ->
  nth j (zip_bytes f a b) x00 = f (nth j a x00) (nth j b x00).
Proof.
  intros Hf. revert b j. induction a as [|x a IH]; intros [|y b] j L; try discriminate; cbn [zip_bytes].
  - destruct j; cbn [nth]; auto.
  - destruct j; cbn [nth]; [reflexivity|]. apply IH. cbn [length] in L. lia.
Qed.

Lemma zip_length f a b : length a = length b -> length (zip_bytes f a b) = length a.
Proof. revert b. induction a as [|x a IH]; intros [|y b] L; try discriminate; cbn [zip_bytes length] in *; auto. Qed.

Lemma zip_combine (fb : byte -> byte -> byte) (fn : N -> N -> N) (f : bool -> bool -> bool) a b :
  fb x00 x00 = x00 -> (forall x y m, m < 8 -> N.testbit (b2n (fb x y)) m = f (N.testbit (b2n x) m) (N.testbit (b2n y) m)) ->
  (forall x y m, N.testbit (fn x y) m = f (N.testbit x m) (N.testbit y m)) ->
  length a = length b -> zip_bytes fb a b = combine fn a b.
Proof.
  intros F0 Fb Fn L. unfold combine. rewrite <- (zip_length fb a b L).
  rewrite <- (le_le_val (zip_bytes fb a b)) at 1. f_equal. apply N.bits_inj. intros k.
  rewrite Fn, !le_val_testbit, nth_zip, Fb; auto. apply N.mod_lt. lia.
Qed.

Lemma bytes2 (P : byte -> byte -> bool) :
  forallb (fun x => forallb (P x) all_bytes) all_bytes = true -> forall x y, P x y = true.
Proof. intros H x y. exact (for_all_bytes (P x) (for_all_bytes (fun x => forallb (P x) all_bytes) H x) y). Qed.

Lemma small_mod m : m < 8 -> m < 8. Proof. auto. Qed.

Lemma and_combine a b : length a = length b -> zip_bytes byte_and a b = combine N.land a b.
Proof.
  intros L. apply (zip_combine _ _ andb); auto.
  - intros x y m Hm. unfold byte_and. rewrite n2b_testbit, N.land_spec; auto.
  - intros. apply N.land_spec.
Qed.
Lemma or_combine a b : length a = length b -> zip_bytes byte_or a b = combine N.lor a b.
Proof.
  intros L. apply (zip_combine _ _ orb); auto.
  - intros x y m Hm. unfold byte_or. rewrite n2b_testbit, N.lor_spec; auto.
  - intros. apply N.lor_spec.
Qed.
Lemma xor_combine a b : length a = length b -> zip_bytes byte_xor a b = combine N.lxor a b.
Proof.
  intros L. apply (zip_combine _ _ xorb); auto.
  - intros x y m Hm. unfold byte_xor. rewrite n2b_testbit, N.lxor_spec; auto.
  - intros. apply N.lxor_spec.
Qed.

Lemma not_complement x : map byte_not x = complement x.
Proof.
  unfold complement.
  assert (H : le_val (map byte_not x) = pow256 (length x) - 1 - le_val x).
  { induction x as [|c x IH]; [reflexivity|]. cbn [map le_val length]. rewrite IH, pow256_S.
    pose proof (le_val_bound x). pose proof (b2n_lt c). unfold byte_not. rewrite b2n_n2b by lia. lia. }
  rewrite <- (le_le_val (map byte_not x)), map_length, H. reflexivity.
Qed.

Lemma complement_length x : length (complement x) = length x.
Proof. apply le_length. Qed.
Lemma combine_length f x y : length (combine f x y) = length x.
Proof. apply le_length. Qed.

(* ---- sizes of numbers ---- *)

Lemma pow256_mono a b : (a <= b)%nat -> pow256 a <= pow256 b.
Proof. intros H. unfold pow256. apply N.pow_le_mono_r; lia. Qed.

Lemma sn_enc_size z k : Z.abs_N z < pow256 k -> (length (sn_enc z) <= k + 1)%nat.
Proof.
  intros H. rewrite sn_enc_length. destruct (Z.eq_dec z 0) as [->|Nz]; [cbn; lia|].
  destruct (sn_size_pos z Nz) as (m & E & _ & B). rewrite E.
  destruct (Nat.le_gt_cases (S m) (k + 1)) as [?|G]; [assumption|].
  destruct m as [|m]; [lia|]. specialize (B m eq_refl).
  pose proof (pow256_mono k m ltac:(lia)). lia.
Qed.

Lemma abs_lt b : Z.abs_N (sn_val b) < pow256 (length b).
Proof.
  destruct (sn_val_bound b) as [B| ->]; [|cbn; lia].
  destruct b as [|x b]; [cbn; lia|]. cbn [length] in *. rewrite pow256_S. replace (S (length b) - 1)%nat with (length b) in B by lia. lia.
Qed.

Lemma pow256_double k : 2 * pow256 k <= pow256 (S k).
Proof. rewrite pow256_S. lia. Qed.

Lemma enc_len z k : Z.abs_N z < pow256 k -> len (sn_enc z) <= N.of_nat k + 1.
Proof. intros H. apply sn_enc_size in H. unfold len. lia. Qed.

Lemma add_len a b f : (forall x y, Z.abs (f x y) <= Z.abs x + Z.abs y)%Z ->
  len (sn_enc (f (sn_val a) (sn_val b))) <= N.max (len a) (len b) + 2.
Proof.
  intros F. specialize (F (sn_val a) (sn_val b)). pose proof (abs_lt a). pose proof (abs_lt b).
  set (k := Nat.max (length a) (length b)).
  pose proof (pow256_mono (length a) k ltac:(lia)). pose proof (pow256_mono (length b) k ltac:(lia)).
  pose proof (pow256_double k).
  pose proof (enc_len (f (sn_val a) (sn_val b)) (S k) ltac:(lia)). unfold len in *. lia.
Qed.

Lemma mul_len a b : len (sn_enc (sn_val a * sn_val b)) <= len a + len b + 1.
Proof.
  pose proof (abs_lt a). pose proof (abs_lt b).
  pose proof (enc_len (sn_val a * sn_val b) (length a + length b)) as H1.
  rewrite Zabs2N.inj_mul, pow256_add in H1. specialize (H1 ltac:(nia)). unfold len in *. lia.
Qed.

Lemma un_len a z : (Z.abs z <= 2 * Z.abs (sn_val a) + 1)%Z -> len (sn_enc z) <= len a + 3.
Proof.
  intros H. pose proof (abs_lt a). pose proof (pow256_double (length a)). pose proof (pow256_double (S (length a))).
  pose proof (pow256_pos (length a)).
  pose proof (enc_len z (S (S (length a))) ltac:(lia)). unfold len in *. lia.
Qed.

Lemma bool_len b : len (sn_bool b) <= 1.
Proof. destruct b; vm_compute; discriminate. Qed.

(* ---- symbolic execution ---- *)

Definition at_ (m0 m : mstate) (s a : list bytes) : Prop :=
  becomes (m_stack m0) (m_stack m) s a /\ m_exec m = m_exec m0 /\ m_else m = m_else m0 /\ m_ops m = m_ops m0.

Lemma at_refl m : good (m_stack m) -> at_ m m (s_main (m_stack m)) (s_alt (m_stack m)).
Proof. intros G. unfold at_, becomes. auto 8. Qed.

Section Rules.
Variable cf : config.
Variable m0 : mstate.
Variable e : option stacks.
Notation lim := (s_lim (m_stack m0)).

Lemma R_done m s a : at_ m0 m s a -> e = Some (s, a) -> agrees m0 (mret tt m) e.
Proof. intros (B & E1 & E2 & E3) E. unfold agrees, mret. exists s, a. auto. Qed.

Lemma R_last (p : M unit) m : agrees m0 ((p ;;; mret tt) m) e -> agrees m0 (p m) e.
Proof. unfold mbind, mret. destruct (p m) as [[] ?| | |]; auto. Qed.

Lemma R_assoc {A B} (p : M A) (f : A -> M B) (g : B -> M unit) m :
  agrees m0 ((x <- p ;; (y <- f x ;; g y)) m) e -> agrees m0 ((y <- (x <- p ;; f x) ;; g y) m) e.
Proof. unfold mbind. destruct (p m); auto. Qed.

Lemma R_ret {A} (x : A) (F : A -> M unit) m : agrees m0 (F x m) e -> agrees m0 ((y <- mret x ;; F y) m) e.
Proof. auto. Qed.

Lemma R_fail {A} err (F : A -> M unit) m : err <> E_OK -> e = None -> agrees m0 ((y <- fail err ;; F y) m) e.
Proof. intros H E. unfold mbind, fail, mstop. cbn. repeat split; auto. destruct err; auto; congruence. Qed.

Lemma R_fail_last err m : err <> E_OK -> e = None -> agrees m0 (fail err m) e.
Proof. intros H E. cbn. repeat split; auto. destruct err; auto; congruence. Qed.

Lemma R_guard b err (F : unit -> M unit) m : err <> E_OK ->
  (b = true -> agrees m0 (F tt m) e) -> (b = false -> e = None) -> agrees m0 ((y <- guard b err ;; F y) m) e.
Proof. intros H T E. unfold guard. destruct b; [apply T; reflexivity|]. apply R_fail; auto. Qed.

Lemma R_need k err (F : unit -> M unit) m s a : at_ m0 m s a -> err <> E_OK ->
  (k <= N.of_nat (length s) -> agrees m0 (F tt m) e) -> (N.of_nat (length s) < k -> e = None) ->
  agrees m0 ((y <- need k err ;; F y) m) e.
Proof.
  intros ((_ & Em & _) & _) H T E. unfold need.
  change (agrees m0 ((y <- guard (k <=? size (m_stack m)) err ;; F y) m) e).
  unfold size. rewrite Em. apply R_guard; auto; intros B.
  - apply T. lia.
  - apply E. lia.
Qed.

Lemma R_size (F : N -> M unit) m s a : at_ m0 m s a -> agrees m0 (F (N.of_nat (length s)) m) e ->
  agrees m0 ((y <- get_size ;; F y) m) e.
Proof. intros ((_ & Em & _) & _) H. unfold mbind, get_size, size. rewrite Em. exact H. Qed.

Lemma lift_top i m x s a : at_ m0 m s a -> (i < 0)%Z -> nth_error s (Z.to_nat (- i - 1)) = Some x -> top_at i m = Val x m.
Proof.
  intros ((_ & Em & _) & _) Hi E. unfold top_at, lift. rewrite top_spec by assumption. rewrite Em, E. destruct m; reflexivity.
Qed.

Lemma R_top i (F : bytes -> M unit) m s a x : at_ m0 m s a -> (i < 0)%Z -> nth_error s (Z.to_nat (- i - 1)) = Some x ->
  agrees m0 (F x m) e -> agrees m0 ((y <- top_at i ;; F y) m) e.
Proof. intros H Hi E G. unfold mbind. rewrite (lift_top _ _ _ _ _ H Hi E). exact G. Qed.

Lemma R_top_none i (F : bytes -> M unit) m s a : at_ m0 m s a -> (i < 0)%Z -> nth_error s (Z.to_nat (- i - 1)) = None ->
  e = None -> agrees m0 ((y <- top_at i ;; F y) m) e.
Proof.
  intros ((_ & Em & _) & _) Hi E G. unfold mbind, top_at, lift. rewrite top_spec by assumption. rewrite Em, E.
  cbn. intros. congruence.
Qed.

Lemma R_number b (F : bytes -> M unit) m :
  (operand cf b = Some (sn_val b) -> agrees m0 (F b m) e) -> (operand cf b = None -> e = None) ->
  agrees m0 ((y <- num cf b ;; F y) m) e.
Proof.
  intros T E. unfold num, number, read_integer, operand in *.
  destruct (N.ltb_spec (c_max_num cf) (len b)) as [L|L]; destruct (N.leb_spec (len b) (c_max_num cf)) as [L'|L']; try lia; cbn [andb] in *.
  - cbn. intros. rewrite E in H; [discriminate|reflexivity].
  - destruct (minimal cf); cbn [negb orb andb] in *; [destruct (is_minimal_number b); cbn [negb] in *|].
    + apply T. reflexivity.
    + cbn. intros. rewrite E in H; [discriminate|reflexivity].
    + apply T. reflexivity.
Qed.

Lemma at_next m st' s a s' a' : at_ m0 m s a -> becomes (m_stack m) st' s' a' ->
  at_ m0 {| m_stack := st'; m_exec := m_exec m; m_else := m_else m; m_ops := m_ops m |} s' a'.
Proof.
  intros ((L & _ & _ & _) & E1 & E2 & E3) (L' & M1 & A1 & G). unfold at_, becomes. cbn. repeat split; auto; try congruence; apply G.
Qed.

Lemma at_good m s a : at_ m0 m s a -> good (m_stack m) /\ s_main (m_stack m) = s /\ s_alt (m_stack m) = a /\ s_lim (m_stack m) = lim.
Proof. intros ((L & E1 & E2 & G) & _). auto. Qed.

Lemma R_pop (F : unit -> M unit) m s a x : at_ m0 m (x :: s) a ->
  (forall m', at_ m0 m' s a -> agrees m0 (F tt m') e) -> agrees m0 ((y <- pop ;; F y) m) e.
Proof.
  intros H T. destruct (at_good _ _ _ H) as (G & Em & Ea & El).
  destruct (pop_back_spec _ _ _ G Em) as (st & P & B). unfold mbind, pop, lift. rewrite P.
  apply T. eapply at_next; [exact H|]. rewrite Ea in B. exact B.
Qed.

Lemma R_push (F : unit -> M unit) m s a x : at_ m0 m s a -> len x < 2 ^ 62 ->
  (forall m', at_ m0 m' (x :: s) a -> agrees m0 (F tt m') e) ->
  (~ fits lim (x :: s) a -> forall s' a', e = Some (s', a') -> ~ fits lim s' a') ->
  agrees m0 ((y <- push_stack x ;; F y) m) e.
Proof.
  intros H L T N. destruct (at_good _ _ _ H) as (G & Em & Ea & El).
  pose proof (push_back_spec _ x G L) as P. unfold mbind, push_stack, lift.
  destruct (push_back x (m_stack m)) as [[] st| |er st|]; try contradiction.
  - apply T. eapply at_next; [exact H|]. rewrite Em, Ea in P. exact P.
  - destruct P as [_ P]. cbn. rewrite Em, Ea, El in P. auto.
Qed.

Lemma R_lift (p : SO unit) (F : unit -> M unit) m s a s' a' : at_ m0 m s a ->
  (exists st, p (m_stack m) = Val tt st /\ becomes (m_stack m) st s' a') ->
  (forall m', at_ m0 m' s' a' -> agrees m0 (F tt m') e) -> agrees m0 ((y <- lift p ;; F y) m) e.
Proof.
  intros H (st & P & B) T. unfold mbind, lift. rewrite P. apply T. eapply at_next; eauto.
Qed.

Lemma R_modify f (F : unit -> M unit) m s a x y : at_ m0 m (x :: s) a -> f x = F_ok y -> len y < 2 ^ 62 ->
  (forall m', at_ m0 m' (y :: s) a -> agrees m0 (F tt m') e) ->
  (~ fits lim (y :: s) a -> forall s' a', e = Some (s', a') -> ~ fits lim s' a') ->
  agrees m0 ((z <- lift (modify_top f) ;; F z) m) e.
Proof.
  intros H Ef L T N. destruct (at_good _ _ _ H) as (G & Em & Ea & El).
  pose proof (modify_top_spec _ _ _ f y G Em Ef L) as P. unfold mbind, lift.
  destruct (modify_top f (m_stack m)) as [[] st| |er st|]; try contradiction.
  - apply T. eapply at_next; [exact H|]. rewrite Ea in P. exact P.
  - cbn. rewrite Ea, El in P. auto.
Qed.

Lemma R_modify_throw f (F : unit -> M unit) m s a x y er : at_ m0 m (x :: s) a -> f x = F_throw er y -> e = None ->
  agrees m0 ((z <- lift (modify_top f) ;; F z) m) e.
Proof.
  intros H Ef E. destruct (at_good _ _ _ H) as (G & Em & Ea & El).
  unfold mbind, lift, modify_top. rewrite Em, Ef. cbn. intros. congruence.
Qed.

Lemma R_to_alt (F : unit -> M unit) m x s a : at_ m0 m (x :: s) a ->
  (forall m', at_ m0 m' s (x :: a) -> agrees m0 (F tt m') e) -> agrees m0 ((z <- lift to_alt ;; F z) m) e.
Proof.
  intros H T. destruct (at_good _ _ _ H) as (G & Em & Ea & El). eapply R_lift; [exact H| |exact T].
  destruct (to_alt_spec _ _ _ G Em) as (st & P & B). rewrite Ea in B. eauto.
Qed.

Lemma R_from_alt (F : unit -> M unit) m x s a : at_ m0 m s (x :: a) ->
  (forall m', at_ m0 m' (x :: s) a -> agrees m0 (F tt m') e) -> agrees m0 ((z <- lift from_alt ;; F z) m) e.
Proof.
  intros H T. destruct (at_good _ _ _ H) as (G & Em & Ea & El). eapply R_lift; [exact H| |exact T].
  destruct (from_alt_spec _ _ _ G Ea) as (st & P & B). rewrite Em in B. eauto.
Qed.

Lemma R_erase_range f l (F : unit -> M unit) m s a : at_ m0 m s a -> (f < l < 0)%Z -> (Z.to_nat (- f) <= length s)%nat ->
  (forall m', at_ m0 m' (firstn (Z.to_nat (- l)) s ++ skipn (Z.to_nat (- f)) s) a -> agrees m0 (F tt m') e) ->
  agrees m0 ((z <- lift (erase_range f l) ;; F z) m) e.
Proof.
  intros H B L T. destruct (at_good _ _ _ H) as (G & Em & Ea & El). eapply R_lift; [exact H| |exact T].
  rewrite <- Em in L. destruct (erase_range_spec _ _ _ G B L) as (st & P & Q). rewrite Em, Ea in Q. eauto.
Qed.

Lemma R_erase i (F : unit -> M unit) m s a x : at_ m0 m s a -> (i < 0)%Z -> nth_error s (Z.to_nat (- i - 1)) = Some x ->
  (forall m', at_ m0 m' (firstn (Z.to_nat (- i - 1)) s ++ skipn (Z.to_nat (- i - 1) + 1) s) a -> agrees m0 (F tt m') e) ->
  agrees m0 ((z <- lift (erase i) ;; F z) m) e.
Proof.
  intros H B L T. destruct (at_good _ _ _ H) as (G & Em & Ea & El). eapply R_lift; [exact H| |exact T].
  rewrite <- Em in L. destruct (erase_spec _ _ _ G B L) as (st & P & Q). rewrite Em, Ea in Q. eauto.
Qed.

Lemma R_swap d1 d2 (F : unit -> M unit) m s a x y : at_ m0 m s a ->
  nth_error s (N.to_nat (d1 - 1)) = Some x -> nth_error s (N.to_nat (d2 - 1)) = Some y ->
  (forall m', at_ m0 m' (set_nth (N.to_nat (d1 - 1)) y (set_nth (N.to_nat (d2 - 1)) x s)) a -> agrees m0 (F tt m') e) ->
  agrees m0 ((z <- lift (swap d1 d2) ;; F z) m) e.
Proof.
  intros H L1 L2 T. destruct (at_good _ _ _ H) as (G & Em & Ea & El). eapply R_lift; [exact H| |exact T].
  rewrite <- Em in L1, L2. destruct (swap_spec _ _ _ _ _ G L1 L2) as (st & P & Q). rewrite Em, Ea in Q. eauto.
Qed.

Lemma R_update i (F : unit -> M unit) m s a x y : at_ m0 m s a -> (i < 0)%Z ->
  nth_error s (Z.to_nat (- i - 1)) = Some x -> len y = len x ->
  (forall m', at_ m0 m' (set_nth (Z.to_nat (- i - 1)) y s) a -> agrees m0 (F tt m') e) ->
  agrees m0 ((z <- lift (update_top i y) ;; F z) m) e.
Proof.
  intros H B L1 L2 T. destruct (at_good _ _ _ H) as (G & Em & Ea & El). eapply R_lift; [exact H| |exact T].
  rewrite <- Em in L1. destruct (update_top_spec _ _ _ _ G B L1 L2) as (st & P & Q). rewrite Em, Ea in Q. eauto.
Qed.

Lemma R_insert i x (F : unit -> M unit) m s a : at_ m0 m s a -> (i < 0)%Z -> (Z.to_nat (- i) <= length s)%nat -> len x < 2 ^ 62 ->
  let s' := firstn (Z.to_nat (- i)) s ++ [x] ++ skipn (Z.to_nat (- i)) s in
  (forall m', at_ m0 m' s' a -> agrees m0 (F tt m') e) ->
  (~ fits lim s' a -> forall s' a', e = Some (s', a') -> ~ fits lim s' a') ->
  agrees m0 ((z <- lift (insert i x) ;; F z) m) e.
Proof.
  cbv zeta. intros H B L Lx T N. destruct (at_good _ _ _ H) as (G & Em & Ea & El).
  rewrite <- Em in L. pose proof (insert_spec _ i x G B L Lx) as P. cbv zeta in P. unfold mbind, lift.
  destruct (insert i x (m_stack m)) as [[] st| |er st|]; try contradiction.
  - apply T. eapply at_next; [exact H|]. rewrite Em, Ea in P. exact P.
  - destruct P as [_ P]. cbn. rewrite Em, Ea, El in P. auto.
Qed.
End Rules.

Lemma fits_cons_not lim x s a : ~ fits lim s a -> ~ fits lim (x :: s) a.
Proof. intros N F. apply N. eapply fits_tail; eauto. Qed.

Ltac solve_lt := first [reflexivity | lia].
Ltac not_ok := discriminate.
(* failing limits: the final stacks contain what failed to fit *)
Ltac limits := let N := fresh in let s' := fresh in let a' := fresh in let E := fresh in
  intros N s' a' E; inversion E; subst; clear E; repeat first [exact N | apply fits_cons_not].

Ltac r_last := apply R_last.
Ltac r_need := eapply R_need; [eassumption | not_ok | cbn [length]; try (intros ?Hlen; exfalso; lia); intros _ | cbn [length]; try (intros ?Hlen; exfalso; lia); try (intros _; reflexivity)].
Ltac r_top := eapply R_top; [eassumption | reflexivity | reflexivity |].
Ltac r_pop := eapply R_pop; [eassumption | let m := fresh "m" in let H := fresh "At" in intros m H].
Ltac r_push := eapply R_push; [eassumption | | let m := fresh "m" in let H := fresh "At" in intros m H | try limits].
Ltac r_done := eapply R_done; [eassumption | try reflexivity].

Ltac intro_at := let m := fresh "m" in let H := fresh "At" in intros m H.
Ltac r_to_alt := eapply R_to_alt; [eassumption | intro_at].
Ltac r_from_alt := eapply R_from_alt; [eassumption | intro_at].
Ltac r_swap := eapply R_swap; [eassumption | reflexivity | reflexivity | intro_at].
