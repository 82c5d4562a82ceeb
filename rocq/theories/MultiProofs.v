(* What OP_CHECKMULTISIG does. *)
From Verif Require Import Base BaseProofs WireModel WireProofs ScriptModel ScriptSpec ScriptProofs ProgramProofs NumModel NumSpec NumProofs.
From Verif Require Import StackModel StackSpec StackProofs MachineModel MachineSpec MachineProofs OpcodeProofs RunProofs ControlProofs FlowProofs MultisigProofs MultiSpec.
From Coq Require Import Lia ZifyBool ZifyNat ZifyN.
Local Open Scope N_scope.

(* ---- trials ---- *)
Section Trial.
Variable ver : bytes -> bytes -> result.

Fixpoint trial (sigs pubs : list bytes) {struct pubs} : serror + bool :=
  match sigs with
  | [] => inr true
  | s :: ss =>
    match pubs with
    | [] => inr false
    | k :: ks => if (length ks <? length ss)%nat then inr false
                 else if serror_is_ok (r_error (ver s k)) then trial (if r_success (ver s k) then ss else sigs) ks else inl (r_error (ver s k))
    end
  end.
Lemma ok_iff e : serror_is_ok e = true <-> e = E_OK.
Proof. destruct e; split; (reflexivity || discriminate). Qed.
Lemma trial_few sigs pubs : (length pubs < length sigs)%nat -> trial sigs pubs = inr false.
Proof.
  intros L. destruct sigs as [|s ss]; [cbn in L; lia|]. destruct pubs as [|k ks]; [reflexivity|]. cbn [trial length] in *.
  replace (length ks <? length ss)%nat with true by lia. reflexivity.
Qed.
Lemma trial_tried sigs pubs : tried ver sigs pubs (trial sigs pubs).
Proof.
  revert sigs. induction pubs as [|k ks IH]; intros sigs.
  - destruct sigs; [apply tried_all|apply tried_few; cbn; lia].
  - destruct sigs as [|s ss]; [apply tried_all|]. cbn [trial]. destruct (length ks <? length ss)%nat eqn:L; [apply tried_few; cbn [length]; lia|].
    destruct (serror_is_ok (r_error (ver s k))) eqn:E.
    + apply ok_iff in E. destruct (r_success (ver s k)) eqn:S; [apply tried_good; auto; lia|apply tried_bad; auto; lia].
    + apply tried_error; [lia|]. intros X. apply ok_iff in X. congruence.
Qed.
Lemma tried_trial sigs pubs o : tried ver sigs pubs o -> trial sigs pubs = o.
Proof.
  induction 1 as [pubs|sigs pubs L|s sigs k pubs L E|s sigs k pubs o L E S T IH|s sigs k pubs o L E S T IH].
  - destruct pubs; reflexivity.
  - apply trial_few, L.
  - cbn [trial]. replace (length pubs <? length sigs)%nat with false by lia. destruct (serror_is_ok (r_error (ver s k))) eqn:X; [|reflexivity]. apply ok_iff in X. congruence.
  - cbn [trial]. replace (length pubs <? length sigs)%nat with false by lia. rewrite (proj2 (ok_iff _) E), S. exact IH.
  - cbn [trial]. replace (length pubs <? length sigs)%nat with false by lia. rewrite (proj2 (ok_iff _) E), S. exact IH.
Qed.
Theorem tried_one sigs pubs : exists o, tried ver sigs pubs o /\ forall o', tried ver sigs pubs o' -> o' = o.
Proof. exists (trial sigs pubs). split; [apply trial_tried|]. intros o' T. apply tried_trial in T. congruence. Qed.

Lemma matching_length sigs pubs : matching ver sigs pubs -> (length sigs <= length pubs)%nat.
Proof. induction 1; cbn [length] in *; lia. Qed.
Lemma matching_tail s sigs pubs : matching ver (s :: sigs) pubs -> matching ver sigs pubs.
Proof.
  revert s sigs. induction pubs as [|k ks IH]; intros s sigs M; [inversion M|]. inversion M as [|? ? ? ? _ M'|? ? ? M']; subst; [apply match_later, M'|apply match_later, (IH s), M'].
Qed.
(* the first key that is good may be used *)
Lemma matching_greedy s sigs k pubs : r_success (ver s k) = true -> (matching ver (s :: sigs) (k :: pubs) <-> matching ver sigs pubs).
Proof.
  intros S. split; [|apply match_this, S]. intros M. inversion M as [|? ? ? ? _ M'|? ? ? M']; subst; [exact M'|]. apply (matching_tail s), M'.
Qed.
Theorem tried_matching sigs pubs : (forall s k, In s sigs -> In k pubs -> r_error (ver s k) = E_OK) ->
  (tried ver sigs pubs (inr true) <-> matching ver sigs pubs) /\ (tried ver sigs pubs (inr false) <-> ~ matching ver sigs pubs).
Proof.
  intros F. assert (A : exists b : bool, trial sigs pubs = inr b /\ (b = true <-> matching ver sigs pubs)).
  { revert sigs F. induction pubs as [|k ks IH]; intros sigs F.
    - destruct sigs as [|s ss]; [exists true; split; [reflexivity|]; split; [intros _; apply match_none|reflexivity]|].
      exists false. split; [reflexivity|]. split; [discriminate|]. intros M. inversion M.
    - destruct sigs as [|s ss]; [exists true; split; [reflexivity|]; split; [intros _; apply match_none|reflexivity]|].
      cbn [trial]. destruct (length ks <? length ss)%nat eqn:L.
      + exists false. split; [reflexivity|]. split; [discriminate|]. intros M. apply matching_length in M. cbn [length] in M. lia.
      + rewrite (proj2 (ok_iff _) (F s k (or_introl eq_refl) (or_introl eq_refl))). destruct (r_success (ver s k)) eqn:S.
        * destruct (IH ss) as (b & E & B); [intros x y X Y; apply F; right; assumption|]. exists b. split; [exact E|]. rewrite B. symmetry. apply matching_greedy, S.
        * destruct (IH (s :: ss)) as (b & E & B); [intros x y X Y; apply F; [exact X|right; exact Y]|]. exists b. split; [exact E|]. rewrite B.
          split; [apply match_later|]. intros M. inversion M as [|? ? ? ? S' _|? ? ? M']; subst; [congruence|exact M']. }
  destruct A as (b & E & B). split; split.
  - intros T. apply tried_trial in T. apply B. congruence.
  - intros M. apply B in M. subst b. rewrite <- E. apply trial_tried.
  - intros T M. apply tried_trial in T. apply B in M. congruence.
  - intros M. assert (b = false) by (destruct b; [exfalso; apply M, B; reflexivity|reflexivity]). subst b. rewrite <- E. apply trial_tried.
Qed.
Theorem tried_errors sigs pubs e : tried ver sigs pubs (inl e) -> e <> E_OK /\ exists s k, In s sigs /\ In k pubs /\ r_error (ver s k) = e.
Proof.
  remember (inl e : serror + bool) as o eqn:O. induction 1 as [| |s sigs k pubs L E|s sigs k pubs o L E S T IH|s sigs k pubs o L E S T IH]; try discriminate O.
  - assert (X : r_error (ver s k) = e) by congruence. split; [congruence|]. exists s, k. split; [left; reflexivity|]. split; [left; reflexivity|exact X].
  - destruct (IH O) as (A & x & y & X & Y & Z). split; [exact A|]. exists x, y. split; [right; exact X|]. split; [right; exact Y|exact Z].
  - destruct (IH O) as (A & x & y & X & Y & Z). split; [exact A|]. exists x, y. split; [exact X|]. split; [right; exact Y|exact Z].
Qed.
End Trial.

(* ---- the machine ---- *)
Lemma neg_index_exact k : 1 <= k <= 2 ^ 31 -> neg_index k = (- Z.of_N k)%Z.
Proof.
  intros K. unfold neg_index, int32_of. rewrite (N.mod_small k) by (change (2 ^ 31) with 2147483648 in K; change (2 ^ 64) with 18446744073709551616; lia).
  change (2 ^ 64) with 18446744073709551616. change (2 ^ 31) with 2147483648 in *. change (2 ^ 32) with 4294967296.
  assert (X : (18446744073709551616 - k) mod 4294967296 = 4294967296 - k).
  { symmetry. apply (N.mod_unique _ _ 4294967295); lia. }
  rewrite X. destruct (N.ltb_spec (4294967296 - k) 2147483648); lia.
Qed.
Lemma top_nth k m x : 1 <= k <= 2 ^ 31 -> nth_error (s_main (m_stack m)) (N.to_nat (k - 1)) = Some x -> top_at (neg_index k) m = Val x m.
Proof.
  intros K E. unfold top_at, lift, top. rewrite (neg_index_exact k K). replace (0 <=? - Z.of_N k)%Z with false by lia.
  replace (Z.to_nat (- - Z.of_N k - 1)) with (N.to_nat (k - 1)) by lia. rewrite E. destruct m; reflexivity.
Qed.
Lemma number_ok b mi mx m : len b <= mx -> (mi = true -> is_minimal_number b = true) -> number b mi mx m = Val b m.
Proof.
  intros L Mi. rewrite number_exact. replace (mx <? len b) with false by lia. destruct mi; [rewrite Mi by reflexivity|]; reflexivity.
Qed.
Lemma need_ok k m : k <= size (m_stack m) -> need_stack k m = Val tt m.
Proof. intros L. unfold need_stack. rewrite need_exact. replace (k <=? size (m_stack m)) with true by lia. reflexivity. Qed.
Lemma guard_ok b e m : b = true -> guard b e m = Val tt m.
Proof. intros ->. reflexivity. Qed.

Section Multi.
Variable doc : option rdoc.
Variable cf : config.

Lemma loop_exact code q ver : code = match doc with None => None | Some d => Some (d, q) end ->
  ver = match doc with None => fun _ _ => result_of_bool true | Some d => d_verify d q end ->
  forall pubs sigs isig ikey m, (length sigs <= length pubs)%nat ->
  (forall i x, nth_error sigs i = Some x -> nth_error (s_main (m_stack m)) (N.to_nat isig + i - 1) = Some x) ->
  (forall i x, nth_error pubs i = Some x -> nth_error (s_main (m_stack m)) (N.to_nat ikey + i - 1) = Some x) ->
  1 <= isig -> 1 <= ikey -> isig + N.of_nat (length sigs) <= 2 ^ 31 -> ikey + N.of_nat (length pubs) <= 2 ^ 31 ->
  multisig_loop code (length pubs) isig ikey (N.of_nat (length sigs)) (N.of_nat (length pubs)) m =
  match trial ver sigs pubs with inl e => Stop (result_of_error e) m | inr ok => Val ok m end.
Proof.
  intros Ec Ev. induction pubs as [|k ks IH]; intros sigs isig ikey m L Hs Hp I1 K1 I2 K2.
  - destruct sigs; [reflexivity|cbn in L; lia].
  - destruct sigs as [|s ss]; [reflexivity|]. cbn [length multisig_loop]. replace (N.of_nat (S (length ss)) =? 0) with false by lia.
    cbn [length] in *. change (2 ^ 31) with 2147483648 in *.
    unfold mbind at 1. rewrite (top_nth isig m s) by (change (2 ^ 31) with 2147483648; try lia; specialize (Hs 0%nat s eq_refl); rewrite <- Hs; f_equal; lia).
    unfold mbind at 1. rewrite (top_nth ikey m k) by (change (2 ^ 31) with 2147483648; try lia; specialize (Hp 0%nat k eq_refl); rewrite <- Hp; f_equal; lia).
    assert (R : match code with None => result_of_bool true | Some (d, p) => d_verify d p s k end = ver s k) by (subst code ver; destruct doc; reflexivity).
    rewrite R. cbv zeta. unfold mbind at 1. unfold guard. cbn [trial]. replace (length ks <? length ss)%nat with false by lia.
    destruct (serror_is_ok (r_error (ver s k))) eqn:E; [|reflexivity]. unfold mret at 1. cbv iota beta.
    assert (Hp' : forall i x, nth_error ks i = Some x -> nth_error (s_main (m_stack m)) (N.to_nat (ikey + 1) + i - 1) = Some x).
    { intros i x X. rewrite <- (Hp (S i) x X). f_equal. lia. }
    destruct (r_success (ver s k)).
    + replace (N.of_nat (S (length ks)) - 1) with (N.of_nat (length ks)) by lia. replace (N.of_nat (S (length ss)) - 1) with (N.of_nat (length ss)) by lia.
      replace (N.of_nat (length ks) <? N.of_nat (length ss)) with false by lia. apply IH; try lia; [|exact Hp'].
      intros i x X. rewrite <- (Hs (S i) x X). f_equal. lia.
    + replace (N.of_nat (S (length ks)) - 1) with (N.of_nat (length ks)) by lia.
      destruct (N.of_nat (length ks) <? N.of_nat (S (length ss))) eqn:F.
      * rewrite trial_few by (cbn [length]; lia). reflexivity.
      * change (N.of_nat (S (length ss))) with (N.of_nat (length (s :: ss))). apply IH; try (cbn [length]; lia); [|exact Hp']. exact Hs.
Qed.

Definition moved (m m' : mstate) (main : list bytes) : Prop :=
  becomes (m_stack m) (m_stack m') main (s_alt (m_stack m)) /\ m_exec m' = m_exec m /\ m_else m' = m_else m /\ m_ops m' = m_ops m.
Lemma pop_moved m x r : good (m_stack m) -> s_main (m_stack m) = x :: r -> exists m', pop m = Val tt m' /\ moved m m' r.
Proof.
  intros G E. destruct (pop_back_spec _ _ _ G E) as (s & P & B). unfold pop, lift. rewrite P. eexists. split; [reflexivity|]. split; [exact B|]. split; [reflexivity|]. split; reflexivity.
Qed.
Lemma moved_trans a b c x y : moved a b x -> moved b c y -> moved a c y.
Proof.
  intros ((L & M & A & G) & E1 & E2 & E3) ((L' & M' & A' & G') & F1 & F2 & F3). split; [|split; [congruence|split; congruence]]. split; [congruence|]. split; [exact M'|]. split; [congruence|exact G'].
Qed.
Lemma moved_good m m' x : moved m m' x -> good (m_stack m') /\ s_main (m_stack m') = x.
Proof. intros ((_ & M & _ & G) & _). auto. Qed.

(* the signatures, after everything above them is gone *)
Lemma cleanup_sigs failed b rest : forall m, good (m_stack m) -> s_main (m_stack m) = b ++ rest ->
  if failed && has_flag FLAG_NULLFAIL (c_flags cf) && existsb (fun s => negb (len s =? 0)) b
  then exists m', multisig_cleanup cf (length b) failed 0 m = Stop (result_of_error E_SIG_NULLFAIL) m'
  else exists m', multisig_cleanup cf (length b) failed 0 m = Val tt m' /\ moved m m' rest.
Proof.
  induction b as [|s b IH]; intros m G E.
  - cbn [existsb length multisig_cleanup]. rewrite andb_false_r. exists m. split; [reflexivity|]. split; [|split; [reflexivity|split; reflexivity]]. split; [reflexivity|]. split; [exact E|]. split; [reflexivity|exact G].
  - cbn [app] in E. cbn [existsb length]. destruct (pop_moved m s (b ++ rest) G E) as (m1 & P & V). destruct (moved_good _ _ _ V) as [G1 E1].
    specialize (IH m1 G1 E1).
    assert (St : multisig_cleanup cf (S (length b)) failed 0 m =
      if failed && has_flag FLAG_NULLFAIL (c_flags cf) && negb (len s =? 0) then Stop (result_of_error E_SIG_NULLFAIL) m else multisig_cleanup cf (length b) failed 0 m1).
    { cbn [multisig_cleanup]. change (0 - 1) with 0. change (0 =? 0) with true. rewrite andb_true_r. destruct (failed && has_flag FLAG_NULLFAIL (c_flags cf)); cbn [andb].
      - unfold mbind at 1. unfold mbind at 1. rewrite (top1 m s (b ++ rest) E). unfold guard. destruct (len s =? 0); cbn [negb]; [|reflexivity].
        unfold mret at 1. unfold mbind at 1. rewrite P. reflexivity.
      - unfold mbind at 1. unfold mret at 1. unfold mbind at 1. rewrite P. reflexivity. }
    change (multisig_cleanup cf (S (length b))) with (multisig_cleanup cf (length (s :: b))) in St. cbn [length] in St. rewrite St. clear St.
    destruct (failed && has_flag FLAG_NULLFAIL (c_flags cf)) eqn:F; cbn [andb] in *.
    + destruct (len s =? 0); cbn [negb orb]; [|exists m; reflexivity]. destruct (existsb _ b); [exact IH|].
      destruct IH as (m' & C & W). exists m'. split; [exact C|]. exact (moved_trans _ _ _ _ _ V W).
    + destruct IH as (m' & C & W). exists m'. split; [exact C|]. exact (moved_trans _ _ _ _ _ V W).
Qed.
Lemma cleanup_exact failed a b rest : forall m, good (m_stack m) -> s_main (m_stack m) = a ++ b ++ rest ->
  if failed && has_flag FLAG_NULLFAIL (c_flags cf) && existsb (fun s => negb (len s =? 0)) b
  then exists m', multisig_cleanup cf (length a + length b) failed (N.of_nat (length a)) m = Stop (result_of_error E_SIG_NULLFAIL) m'
  else exists m', multisig_cleanup cf (length a + length b) failed (N.of_nat (length a)) m = Val tt m' /\ moved m m' rest.
Proof.
  induction a as [|s a IH]; intros m G E; [apply cleanup_sigs; assumption|].
  cbn [app] in E. destruct (pop_moved m s (a ++ b ++ rest) G E) as (m1 & P & V). destruct (moved_good _ _ _ V) as [G1 E1]. specialize (IH m1 G1 E1).
  assert (St : multisig_cleanup cf (length (s :: a) + length b) failed (N.of_nat (length (s :: a))) m = multisig_cleanup cf (length a + length b) failed (N.of_nat (length a)) m1).
  { cbn [length plus multisig_cleanup]. replace (N.of_nat (S (length a)) =? 0) with false by lia. rewrite andb_false_r. replace (N.of_nat (S (length a)) - 1) with (N.of_nat (length a)) by lia.
    unfold mbind at 1. unfold mret at 1. unfold mbind at 1. rewrite P. reflexivity. }
  rewrite St. destruct (failed && _ && _); [exact IH|]. destruct IH as (m' & C & W). exists m'. split; [exact C|]. exact (moved_trans _ _ _ _ _ V W).
Qed.

Lemma fits_drop l x y a r alt b : fits l ((x :: y :: a) ++ r) alt -> roomy l -> len b <= 1 -> fits l (b :: r) alt.
Proof.
  intros F R L. destruct l; cbn [fits roomy] in *.
  - destruct F as [F1 F2]. rewrite <- app_assoc in F1. apply Forall_app in F1. destruct F1 as [_ F1]. split; [constructor; [lia|exact F1]|]. rewrite app_length in F2. cbn [length] in *. lia.
  - assert (X : footprint (b :: r) <= footprint ((x :: y :: a) ++ r)); [|lia]. clear F R. unfold footprint. cbn [app fold_right length]. rewrite app_length.
    assert (Y : fold_right (fun x n => len x + n) 0 r <= fold_right (fun x n => len x + n) 0 (a ++ r)) by (clear; induction a as [|z a IH]; cbn [app fold_right]; lia). lia.
Qed.

Theorem multisig_exact c code v m pubs sigs dummy r o : good (m_stack m) -> roomy (s_lim (m_stack m)) -> small (s_main (m_stack m)) ->
  multi_args cf m pubs sigs dummy r -> (doc <> None -> script_code c = Ret code) ->
  tried (multi_check doc code (s_main (m_stack m)) (length sigs)) sigs pubs o ->
  match o with
  | inl e => exists m', op_checkmultisig doc cf c v m = Stop (result_of_error e) m'
  | inr ok => multi_end cf v m pubs sigs dummy r ok (op_checkmultisig doc cf c v m)
  end.
Proof.
  intros G Ro (Sz & _) [(nk & ns & E & (Kv & Kl & Km) & (Sv & Sl & Sm)) Mk Mo Ms] Hc T. apply tried_trial in T.
  set (ver := multi_check doc code (s_main (m_stack m)) (length sigs)) in *.
  assert (Len : length (s_main (m_stack m)) = (length pubs + length sigs + 3 + length r)%nat) by (rewrite E; cbn [length]; rewrite app_length; cbn [length]; rewrite app_length; cbn [length]; lia).
  assert (Size : size (m_stack m) = N.of_nat (length pubs + length sigs + 3 + length r)) by (unfold size; rewrite Len; reflexivity).
  rewrite Len in Sz.
  set (nkeys := N.of_nat (length pubs)). set (nsigs := N.of_nat (length sigs)).
  set (m1 := {| m_stack := m_stack m; m_exec := m_exec m; m_else := m_else m; m_ops := m_ops m + nkeys |}).
  set (q := fold_left cleanup_script_code (removed (s_main (m_stack m)) (length sigs)) code).
  assert (P1 : forall k : bytes, nth_error (s_main (m_stack m)) 0 = Some nk) by (intros _; rewrite E; reflexivity).
  assert (Pk : forall i x, nth_error pubs i = Some x -> nth_error (s_main (m_stack m)) (S i) = Some x).
  { intros i x X. rewrite E. cbn [nth_error]. rewrite nth_error_app1; [exact X|]. apply nth_error_Some. congruence. }
  assert (Pn : nth_error (s_main (m_stack m)) (S (length pubs)) = Some ns) by (rewrite E; cbn [nth_error]; rewrite nth_error_app2, Nat.sub_diag by lia; reflexivity).
  assert (Ps : forall i x, nth_error sigs i = Some x -> nth_error (s_main (m_stack m)) (S (S (length pubs + i))) = Some x).
  { intros i x X. rewrite E. change (nth_error (nk :: ?l) (S ?n)) with (nth_error l n). rewrite nth_error_app2 by lia. replace (S (length pubs + i) - length pubs)%nat with (S i) by lia. change (nth_error (ns :: ?l) (S ?n)) with (nth_error l n).
    rewrite nth_error_app1; [exact X|]. apply nth_error_Some. congruence. }
  change (2 ^ 31) with 2147483648 in Sz.
  assert (U : op_checkmultisig doc cf c v m =
    (ok <- multisig_loop (match doc with None => None | Some d => Some (d, q) end) (N.to_nat nkeys) (nkeys + 3) 2 nsigs nkeys ;;
     multisig_cleanup cf (N.to_nat (nkeys + nsigs + 2)) (negb ok) (nkeys + 2) ;;;
     need_stack 1 ;;;
     d <- top_at (-1) ;;
     guard (negb (has_flag FLAG_NULLDUMMY (c_flags cf)) || (len d =? 0)) E_SIG_NULLDUMMY ;;;
     pop ;;; push_stack (sn_bool ok) ;;;
     if v then if ok then pop ;;; mstop (result_of_bool true) else fail E_CHECKMULTISIGVERIFY else mret tt) m1).
  { unfold op_checkmultisig. unfold mbind at 1. rewrite need_ok by (rewrite Size; lia).
    unfold mbind at 1. rewrite (top_nth 1 m nk) by (try exact (P1 nk); change (2 ^ 31) with 2147483648; lia).
    unfold mbind at 1. rewrite number_ok by assumption. unfold mbind at 1. rewrite guard_ok by lia. cbv zeta.
    replace (Z.to_N (sn_val nk)) with nkeys by (unfold nkeys; lia).
    unfold mbind at 1. rewrite guard_ok by (unfold nkeys; lia). unfold mbind at 1. unfold get at 1. unfold mbind at 1. unfold set_ops at 1. fold m1.
    unfold mbind at 1. rewrite guard_ok by (unfold nkeys; lia). unfold mbind at 1. rewrite need_ok by (change (m_stack m1) with (m_stack m); rewrite Size; unfold nkeys; lia).
    unfold mbind at 1. rewrite (top_nth (nkeys + 2) m1 ns) by (change (m_stack m1) with (m_stack m); unfold nkeys; change (2 ^ 31) with 2147483648; try lia; rewrite <- Pn; f_equal; lia).
    unfold mbind at 1. rewrite number_ok by assumption. unfold mbind at 1. rewrite guard_ok by lia.
    replace (Z.to_N (sn_val ns)) with nsigs by (unfold nsigs; lia).
    unfold mbind at 1. rewrite guard_ok by (unfold nkeys, nsigs; lia). unfold mbind at 1. rewrite need_ok by (change (m_stack m1) with (m_stack m); rewrite Size; unfold nkeys, nsigs; lia).
    unfold mbind at 1. destruct doc as [d|]; [|reflexivity].
    unfold mbind at 1. unfold code_of. rewrite (Hc ltac:(discriminate)). unfold mret at 1. unfold mbind at 1. unfold get_main. unfold mret at 1.
    change (s_main (m_stack m1)) with (s_main (m_stack m)). unfold q, removed. unfold nsigs. rewrite Nat2N.id. reflexivity. }
  rewrite U. clear U.
  assert (Lp : multisig_loop (match doc with None => None | Some d => Some (d, q) end) (N.to_nat nkeys) (nkeys + 3) 2 nsigs nkeys m1 =
    match trial ver sigs pubs with inl e => Stop (result_of_error e) m1 | inr ok => Val ok m1 end).
  { unfold nkeys, nsigs. rewrite Nat2N.id. apply (loop_exact _ q).
    - reflexivity.
    - unfold ver, multi_check, q. destruct doc; reflexivity.
    - exact Ms.
    - intros i x X. change (m_stack m1) with (m_stack m). rewrite <- (Ps i x X). f_equal. lia.
    - intros i x X. change (m_stack m1) with (m_stack m). rewrite <- (Pk i x X). reflexivity.
    - lia.
    - lia.
    - change (2 ^ 31) with 2147483648. lia.
    - change (2 ^ 31) with 2147483648. lia. }
  rewrite T in Lp. destruct o as [e|ok]; unfold mbind at 1; rewrite Lp; [eexists; reflexivity|]. cbv beta iota.
  assert (G1 : good (m_stack m1)) by exact G.
  assert (E1 : s_main (m_stack m1) = (nk :: pubs ++ [ns]) ++ sigs ++ dummy :: r) by (change (m_stack m1) with (m_stack m); rewrite E; cbn [app]; rewrite <- app_assoc; reflexivity).
  assert (C := cleanup_exact (negb ok) (nk :: pubs ++ [ns]) sigs (dummy :: r) m1 G1 E1).
  replace (length (nk :: pubs ++ [ns]) + length sigs)%nat with (N.to_nat (nkeys + nsigs + 2)) in C by (cbn [length]; rewrite app_length; cbn [length]; unfold nkeys, nsigs; lia).
  replace (N.of_nat (length (nk :: pubs ++ [ns]))) with (nkeys + 2) in C by (cbn [length]; rewrite app_length; cbn [length]; unfold nkeys; lia).
  destruct (negb ok && has_flag FLAG_NULLFAIL (c_flags cf) && existsb (fun s => negb (len s =? 0)) sigs) eqn:NF.
  { destruct C as (m' & C). unfold mbind at 1. rewrite C. unfold multi_end. rewrite NF. exists m'. reflexivity. }
  destruct C as (m2 & C & V). unfold mbind at 1. rewrite C. destruct (moved_good _ _ _ V) as [G2 E2].
  unfold mbind at 1. rewrite need_ok by (unfold size; rewrite E2; cbn [length]; lia). unfold mbind at 1. rewrite (top1 m2 dummy r E2).
  unfold mbind at 1. unfold guard at 1. replace (negb (has_flag FLAG_NULLDUMMY (c_flags cf)) || (len dummy =? 0)) with (negb (has_flag FLAG_NULLDUMMY (c_flags cf) && negb (len dummy =? 0))) by (destruct (has_flag FLAG_NULLDUMMY (c_flags cf)), (len dummy =? 0); reflexivity).
  destruct (has_flag FLAG_NULLDUMMY (c_flags cf) && negb (len dummy =? 0)) eqn:ND; cbn [negb]; [unfold multi_end; rewrite NF, ND; eexists; reflexivity|]. unfold mret at 1.
  destruct (pop_moved m2 dummy r G2 E2) as (m3 & P3 & V3). unfold mbind at 1. rewrite P3. destruct (moved_good _ _ _ V3) as [G3 E3].
  assert (W := moved_trans _ _ _ _ _ V V3). destruct W as ((WL & WM & WA & WG) & WX & WE & WO).
  assert (Pu := push_back_spec (m_stack m3) (sn_bool ok) G3 (bool62 ok)).
  unfold mbind at 1. unfold push_stack at 1. unfold lift at 1. destruct (push_back (sn_bool ok) (m_stack m3)) as [[] s4| | |]; try contradiction.
  - destruct Pu as (L4 & M4 & A4 & G4). set (m4 := {| m_stack := s4; m_exec := m_exec m3; m_else := m_else m3; m_ops := m_ops m3 |}).
    destruct v.
    + destruct ok; [|unfold multi_end; rewrite NF, ND; eexists; reflexivity]. destruct (pop_moved m4 (sn_bool true) r G4) as (m5 & P5 & _); [change (m_stack m4) with s4; rewrite M4, E3; reflexivity|].
      unfold mbind. rewrite P5. unfold multi_end. rewrite NF, ND. eexists. reflexivity.
    + unfold multi_end. rewrite NF, ND. exists m4. split; [reflexivity|]. change (m_stack m4) with s4. split; [split; [rewrite L4; exact WL|split; [rewrite M4, E3; destruct ok; reflexivity|split; [rewrite A4; exact WA|exact G4]]]|]. split; [exact WX|]. split; [exact WE|exact WO].
  - exfalso. destruct Pu as [_ Pu]. apply Pu. rewrite E3, WL, WA.
    change (m_stack m1) with (m_stack m) in *. destruct G as (F & _). rewrite E in F.
    replace (nk :: pubs ++ ns :: sigs ++ dummy :: r) with ((nk :: pubs ++ ns :: sigs ++ [dummy]) ++ r) in F by (cbn [app]; rewrite <- app_assoc; cbn [app]; rewrite <- app_assoc; reflexivity).
    destruct (pubs ++ ns :: sigs ++ [dummy]) as [|y a] eqn:D; [destruct pubs; discriminate D|]. exact (fits_drop _ _ _ _ _ _ _ F Ro (bool_len ok)).
Qed.

(* ---- arguments that are refused ---- *)
Lemma count_number b m : number b (minimal cf) 4 m = match count_of (minimal cf) b with inl e => Exc (X_script e) m | inr _ => Val b m end.
Proof. rewrite number_exact. unfold count_of. destruct (4 <? len b); [reflexivity|]. destruct (minimal cf && negb (is_minimal_number b)); reflexivity. Qed.
Lemma count_ok b z : count_of (minimal cf) b = inr z <-> sn_val b = z /\ len b <= 4 /\ (minimal cf = true -> is_minimal_number b = true).
Proof.
  unfold count_of. destruct (4 <? len b) eqn:L; [split; [discriminate|lia]|]. destruct (minimal cf); cbn [andb].
  - destruct (is_minimal_number b); cbn [negb]; split; try discriminate; [intros X|intros (A & _)|intros (_ & _ & A); specialize (A eq_refl); discriminate A].
    + split; [congruence|]. split; [lia|auto].
    + congruence.
  - split; [intros X; split; [congruence|]; split; [lia|discriminate]|]. intros (A & _). congruence.
Qed.
Theorem refused_exact c v m : small (s_main (m_stack m)) ->
  match multi_refused cf (m_ops m) (s_main (m_stack m)) with
  | Some (false, e) => exists m', op_checkmultisig doc cf c v m = Stop (result_of_error e) m'
  | Some (true, e) => exists m', op_checkmultisig doc cf c v m = Exc (X_script e) m'
  | None => exists pubs sigs dummy r, multi_args cf m pubs sigs dummy r
  end.
Proof.
  intros (Sz & _). unfold multi_refused. change (2 ^ 31) with 2147483648 in Sz. unfold op_checkmultisig.
  destruct (s_main (m_stack m)) as [|nk rest] eqn:E.
  { unfold mbind at 1. unfold need_stack. rewrite need_exact. unfold size. rewrite E. eexists. reflexivity. }
  assert (Size : size (m_stack m) = N.of_nat (S (length rest))) by (unfold size; rewrite E; reflexivity).
  cbn [length] in Sz.
  destruct (count_of (minimal cf) nk) as [e|k] eqn:Ck.
  { unfold mbind at 1. rewrite need_ok by (rewrite Size; lia). unfold mbind at 1. rewrite (top_nth 1 m nk) by (try (rewrite E; reflexivity); change (2 ^ 31) with 2147483648; lia).
    unfold mbind at 1. rewrite count_number, Ck. eexists. reflexivity. }
  assert (Vk := proj1 (proj1 (count_ok nk k) Ck)).
  destruct ((k <? 0)%Z || (Z.of_N (c_max_keys cf) <? k)%Z) eqn:B1.
  { unfold mbind at 1. rewrite need_ok by (rewrite Size; lia). unfold mbind at 1. rewrite (top_nth 1 m nk) by (try (rewrite E; reflexivity); change (2 ^ 31) with 2147483648; lia).
    unfold mbind at 1. rewrite count_number, Ck. unfold mbind at 1. unfold guard at 1. rewrite Vk. destruct (0 <=? k)%Z eqn:P; [|eexists; reflexivity]. cbv zeta. unfold mret at 1.
    unfold mbind at 1. unfold guard at 1. replace (Z.to_N k <=? c_max_keys cf) with false by lia. eexists. reflexivity. }
  set (m1 := {| m_stack := m_stack m; m_exec := m_exec m; m_else := m_else m; m_ops := m_ops m + Z.to_N k |}).
  destruct (Z.of_N (c_max_ops cf) <? Z.of_N (m_ops m) + k)%Z eqn:B2.
  { unfold mbind at 1. rewrite need_ok by (rewrite Size; lia). unfold mbind at 1. rewrite (top_nth 1 m nk) by (try (rewrite E; reflexivity); change (2 ^ 31) with 2147483648; lia).
    unfold mbind at 1. rewrite count_number, Ck. unfold mbind at 1. rewrite Vk. rewrite guard_ok by lia. cbv zeta.
    unfold mbind at 1. rewrite guard_ok by lia. unfold mbind at 1. unfold get at 1. unfold mbind at 1. unfold set_ops at 1. fold m1. unfold mbind at 1. unfold guard at 1.
    replace (m_ops m + Z.to_N k <=? c_max_ops cf) with false by lia. eexists. reflexivity. }
  destruct (nth_error rest (Z.to_nat k)) as [ns|] eqn:Nn.
  2:{ apply nth_error_None in Nn.
    unfold mbind at 1. rewrite need_ok by (rewrite Size; lia). unfold mbind at 1. rewrite (top_nth 1 m nk) by (try (rewrite E; reflexivity); change (2 ^ 31) with 2147483648; lia).
    unfold mbind at 1. rewrite count_number, Ck. unfold mbind at 1. rewrite Vk. rewrite guard_ok by lia. cbv zeta.
    unfold mbind at 1. rewrite guard_ok by lia. unfold mbind at 1. unfold get at 1. unfold mbind at 1. unfold set_ops at 1. fold m1. unfold mbind at 1. rewrite guard_ok by lia.
    unfold mbind at 1. unfold need_stack at 1. rewrite need_exact. change (m_stack m1) with (m_stack m). rewrite Size. replace (Z.to_N k + 2 <=? N.of_nat (S (length rest))) with false by lia. eexists. reflexivity. }
  assert (Ln : (Z.to_nat k < length rest)%nat) by (apply nth_error_Some; congruence).
  assert (Tn : top_at (neg_index (Z.to_N k + 2)) m1 = Val ns m1).
  { apply top_nth; [change (2 ^ 31) with 2147483648; lia|]. change (m_stack m1) with (m_stack m). rewrite E. replace (N.to_nat (Z.to_N k + 2 - 1)) with (S (Z.to_nat k)) by lia. exact Nn. }
  destruct (count_of (minimal cf) ns) as [e|n] eqn:Cn.
  { unfold mbind at 1. rewrite need_ok by (rewrite Size; lia). unfold mbind at 1. rewrite (top_nth 1 m nk) by (try (rewrite E; reflexivity); change (2 ^ 31) with 2147483648; lia).
    unfold mbind at 1. rewrite count_number, Ck. unfold mbind at 1. rewrite Vk. rewrite guard_ok by lia. cbv zeta.
    unfold mbind at 1. rewrite guard_ok by lia. unfold mbind at 1. unfold get at 1. unfold mbind at 1. unfold set_ops at 1. fold m1. unfold mbind at 1. rewrite guard_ok by lia.
    unfold mbind at 1. rewrite need_ok by (change (m_stack m1) with (m_stack m); rewrite Size; lia). unfold mbind at 1. rewrite Tn. unfold mbind at 1. rewrite count_number, Cn. eexists. reflexivity. }
  assert (Vn := proj1 (proj1 (count_ok ns n) Cn)).
  destruct ((n <? 0)%Z || (k <? n)%Z) eqn:B3.
  { unfold mbind at 1. rewrite need_ok by (rewrite Size; lia). unfold mbind at 1. rewrite (top_nth 1 m nk) by (try (rewrite E; reflexivity); change (2 ^ 31) with 2147483648; lia).
    unfold mbind at 1. rewrite count_number, Ck. unfold mbind at 1. rewrite Vk. rewrite guard_ok by lia. cbv zeta.
    unfold mbind at 1. rewrite guard_ok by lia. unfold mbind at 1. unfold get at 1. unfold mbind at 1. unfold set_ops at 1. fold m1. unfold mbind at 1. rewrite guard_ok by lia.
    unfold mbind at 1. rewrite need_ok by (change (m_stack m1) with (m_stack m); rewrite Size; lia). unfold mbind at 1. rewrite Tn. unfold mbind at 1. rewrite count_number, Cn.
    unfold mbind at 1. rewrite Vn. unfold guard at 1. destruct (0 <=? n)%Z eqn:P; [|eexists; reflexivity]. unfold mret at 1. unfold mbind at 1. unfold guard at 1. replace (Z.to_N n <=? Z.to_N k) with false by lia. eexists. reflexivity. }
  destruct (Z.of_nat (length rest) <? k + n + 2)%Z eqn:B4.
  { unfold mbind at 1. rewrite need_ok by (rewrite Size; lia). unfold mbind at 1. rewrite (top_nth 1 m nk) by (try (rewrite E; reflexivity); change (2 ^ 31) with 2147483648; lia).
    unfold mbind at 1. rewrite count_number, Ck. unfold mbind at 1. rewrite Vk. rewrite guard_ok by lia. cbv zeta.
    unfold mbind at 1. rewrite guard_ok by lia. unfold mbind at 1. unfold get at 1. unfold mbind at 1. unfold set_ops at 1. fold m1. unfold mbind at 1. rewrite guard_ok by lia.
    unfold mbind at 1. rewrite need_ok by (change (m_stack m1) with (m_stack m); rewrite Size; lia). unfold mbind at 1. rewrite Tn. unfold mbind at 1. rewrite count_number, Cn.
    unfold mbind at 1. rewrite Vn. rewrite guard_ok by lia. unfold mbind at 1. rewrite guard_ok by lia.
    unfold mbind at 1. unfold need_stack at 1. rewrite need_exact. change (m_stack m1) with (m_stack m). rewrite Size. replace (Z.to_N k + Z.to_N n + 3 <=? N.of_nat (S (length rest))) with false by lia. eexists. reflexivity. }
  destruct (nth_split_at rest (Z.to_nat k) ltac:(lia)) as (pubs & s2 & E1 & Lp).
  rewrite E1, nth_error_app2, Lp, Nat.sub_diag in Nn by lia. destruct s2 as [|u s3]; [discriminate Nn|]. assert (u = ns) as -> by (cbn in Nn; congruence).
  assert (L3 : (length rest = length pubs + S (length s3))%nat) by (rewrite E1, app_length; reflexivity).
  destruct (nth_split_at s3 (Z.to_nat n) ltac:(lia)) as (sigs & s4 & E2 & Ls).
  assert (L4 : (length s3 = length sigs + length s4)%nat) by (rewrite E2, app_length; reflexivity).
  destruct s4 as [|dummy r]; [cbn in L4; lia|].
  exists pubs, sigs, dummy, r. split; try lia. exists nk, ns. split; [rewrite E, E1, E2; reflexivity|]. apply count_ok in Ck, Cn. split.
  - destruct Ck as (A & B & C). split; [lia|]. auto.
  - destruct Cn as (A & B & C). split; [lia|]. auto.
Qed.
Theorem args_unrefused m pubs sigs dummy r : multi_args cf m pubs sigs dummy r -> multi_refused cf (m_ops m) (s_main (m_stack m)) = None.
Proof.
  intros [(nk & ns & E & K & S) Mk Mo Ms]. apply count_ok in K, S. unfold multi_refused. rewrite E, K.
  replace ((Z.of_nat (length pubs) <? 0)%Z || (Z.of_N (c_max_keys cf) <? Z.of_nat (length pubs))%Z) with false by lia.
  replace (Z.of_N (c_max_ops cf) <? Z.of_N (m_ops m) + Z.of_nat (length pubs))%Z with false by lia.
  rewrite Nat2Z.id, nth_error_app2, Nat.sub_diag by lia. cbn [nth_error]. rewrite S.
  replace ((Z.of_nat (length sigs) <? 0)%Z || (Z.of_nat (length pubs) <? Z.of_nat (length sigs))%Z) with false by lia.
  rewrite app_length. cbn [length]. rewrite app_length. cbn [length].
  match goal with |- (if ?b then _ else _) = _ => replace b with false by lia end. reflexivity.
Qed.
End Multi.

(* ---- what is removed from the script code ---- *)
Lemma rev_layout (nk ns dummy : bytes) pubs sigs r : rev (nk :: pubs ++ ns :: sigs ++ dummy :: r) = rev r ++ dummy :: rev sigs ++ ns :: rev pubs ++ [nk].
Proof. cbn [rev]. rewrite rev_app_distr. cbn [rev]. rewrite rev_app_distr. cbn [rev]. rewrite <- !app_assoc. cbn [app]. reflexivity. Qed.
Theorem removed_signatures nk ns dummy pubs sigs : removed (nk :: pubs ++ ns :: sigs ++ [dummy]) (length sigs) = rev sigs.
Proof.
  unfold removed. rewrite (rev_layout nk ns dummy pubs sigs []). cbn [rev app skipn]. rewrite firstn_app, rev_length, Nat.sub_diag. cbn [firstn].
  rewrite app_nil_r. rewrite <- (rev_length sigs). apply firstn_all.
Qed.
Theorem removed_others nk ns dummy pubs sigs r : (length sigs < length r)%nat -> removed (nk :: pubs ++ ns :: sigs ++ dummy :: r) (length sigs) = firstn (length sigs) (skipn 1 (rev r)).
Proof.
  intros L. unfold removed. rewrite rev_layout. rewrite skipn_app, rev_length. rewrite firstn_app, skipn_length, rev_length.
  replace (length sigs - (length r - 1))%nat with 0%nat by lia. cbn [firstn]. apply app_nil_r.
Qed.

(* ---- as opcodes ---- *)
Theorem refused_ops X doc cf c m : small (s_main (m_stack m)) ->
  match multi_refused cf (m_ops m) (s_main (m_stack m)) with
  | Some (false, e) => (exists m', exec_op X doc cf c OP_CHECKMULTISIG m = Stop (result_of_error e) m') /\
                       (exists m', exec_op X doc cf c OP_CHECKMULTISIGVERIFY m = Stop (result_of_error e) m')
  | Some (true, e) => (exists m', exec_op X doc cf c OP_CHECKMULTISIG m = Exc (X_script e) m') /\
                      (exists m', exec_op X doc cf c OP_CHECKMULTISIGVERIFY m = Exc (X_script e) m')
  | None => exists pubs sigs dummy r, multi_args cf m pubs sigs dummy r
  end.
Proof.
  intros Sm. assert (A := refused_exact doc cf c false m Sm). assert (B := refused_exact doc cf c true m Sm).
  change (exec_op X doc cf c OP_CHECKMULTISIG m) with (op_checkmultisig doc cf c false m).
  change (exec_op X doc cf c OP_CHECKMULTISIGVERIFY m) with (op_checkmultisig doc cf c true m).
  destruct (multi_refused cf (m_ops m) (s_main (m_stack m))) as [[[|] e]|]; auto.
Qed.
Theorem multisig_ops X doc cf c code m pubs sigs dummy r o :
  good (m_stack m) -> roomy (s_lim (m_stack m)) -> small (s_main (m_stack m)) ->
  multi_args cf m pubs sigs dummy r -> (doc <> None -> script_code c = Ret code) ->
  tried (multi_check doc code (s_main (m_stack m)) (length sigs)) sigs pubs o ->
  match o with
  | inl e => (exists m', exec_op X doc cf c OP_CHECKMULTISIG m = Stop (result_of_error e) m') /\
             (exists m', exec_op X doc cf c OP_CHECKMULTISIGVERIFY m = Stop (result_of_error e) m')
  | inr ok => multi_end cf false m pubs sigs dummy r ok (exec_op X doc cf c OP_CHECKMULTISIG m) /\
              multi_end cf true m pubs sigs dummy r ok (exec_op X doc cf c OP_CHECKMULTISIGVERIFY m)
  end.
Proof.
  intros G R Sm A C T. assert (H1 := multisig_exact doc cf c code false m pubs sigs dummy r o G R Sm A C T).
  assert (H2 := multisig_exact doc cf c code true m pubs sigs dummy r o G R Sm A C T).
  change (exec_op X doc cf c OP_CHECKMULTISIG m) with (op_checkmultisig doc cf c false m).
  change (exec_op X doc cf c OP_CHECKMULTISIGVERIFY m) with (op_checkmultisig doc cf c true m).
  destruct o; auto.
Qed.
