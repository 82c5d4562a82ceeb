(* Proofs about requests and responses, and about version masks over time. *)
From Coq Require Import String Lia ZifyBool ZifyNat ZifyN.
From Verif Require Import Base BaseProofs TextModel WireModel WireSpec MerkleModel WorkModel JsonModel StratumModel StratumSpec StratumProofs StratumFields StratumConfigModel StratumConfigSpec StratumConfigFields StratumSessionModel StratumSessionSpec.
Local Open Scope N_scope.

(* ---------------------------------------------------------------- tables *)
Lemma tab_find_del k k' t : tab_find k (tab_del k' t) = if k =? k' then None else tab_find k t.
Proof.
  induction t as [|[i m] t IH]; cbn [tab_del tab_find]; [destruct (k =? k'); reflexivity|]. destruct (k' =? i) eqn:E.
  - rewrite IH. destruct (k =? k') eqn:F; [reflexivity|]. destruct (k =? i) eqn:G; [lia|reflexivity].
  - cbn [tab_find]. rewrite IH. destruct (k =? i) eqn:G; [|reflexivity]. destruct (k =? k') eqn:F; [lia|reflexivity].
Qed.
Lemma tab_find_set k k' m t : tab_find k (tab_set k' m t) = if k =? k' then Some m else tab_find k t.
Proof. unfold tab_set. cbn [tab_find]. rewrite tab_find_del. destruct (k =? k'); reflexivity. Qed.

(* ---------------------------------------------------------------- receiving *)
Lemma answers_exact k j : answers k j <-> response_valid j = true /\ msg_id j = JUint k.
Proof.
  unfold answers. split.
  - intros (r & e & X). apply response_exact in X. tauto.
  - intros [V I]. exists (msg_result j), (msg_error j). apply response_exact. auto.
Qed.
Lemma response_first j : response_valid j = true -> notification_valid j = false.
Proof. intros V. destruct (notification_valid j) eqn:E; [|reflexivity]. apply kinds_apart in E. destruct E as [_ E]. congruence. Qed.
Lemma receive_answer k j r : answers k j ->
  receive j r = match tab_find k (rm_table r) with Some m => (mkremote (rm_requests r) (tab_del k (rm_table r)) (rm_sending r), RResponse m j) | None => (r, RThrow) end.
Proof. intros A. apply answers_exact in A. destruct A as [V I]. unfold receive. rewrite (response_first j V), V, I. reflexivity. Qed.
Lemma receive_other j r : (forall k, ~ answers k j) -> fst (receive j r) = r /\ forall m j', snd (receive j r) <> RResponse m j'.
Proof.
  intros N. unfold receive. destruct (notification_valid j); [split; [reflexivity|discriminate]|]. destruct (response_valid j) eqn:V.
  - destruct (msg_id j) eqn:I; try (split; [reflexivity|discriminate]). exfalso. apply (N n). apply answers_exact. auto.
  - destruct (request_valid j); split; try reflexivity; discriminate.
Qed.
Lemma answers_dec j : (exists k, answers k j) \/ forall k, ~ answers k j.
Proof.
  destruct (response_valid j) eqn:V; [|right; intros k A; apply answers_exact in A; destruct A; congruence]. destruct (msg_id j) eqn:I; try (right; intros k A; apply answers_exact in A; destruct A; congruence).
  left. exists n. apply answers_exact. auto.
Qed.
Lemma answers_fun k k' j : answers k j -> answers k' j -> k = k'.
Proof. intros A B. apply answers_exact in A, B. destruct A as [_ A], B as [_ B]. congruence. Qed.
Lemma receive_requests j r : rm_requests (fst (receive j r)) = rm_requests r /\ rm_sending (fst (receive j r)) = rm_sending r.
Proof.
  destruct (answers_dec j) as [[k A]|N]; [rewrite (receive_answer k j r A); destruct (tab_find k (rm_table r)); split; reflexivity|]. destruct (receive_other j r N) as [-> _]. split; reflexivity.
Qed.
Lemma receive_find j r k : tab_find k (rm_table (fst (receive j r))) = None /\ answers k j \/ tab_find k (rm_table (fst (receive j r))) = tab_find k (rm_table r) /\ ~ answers k j.
Proof.
  destruct (answers_dec j) as [[k' A]|N].
  - rewrite (receive_answer k' j r A). destruct (tab_find k' (rm_table r)) as [m|] eqn:F; cbn [fst rm_table].
    + rewrite tab_find_del. destruct (k =? k') eqn:E; [left; split; [reflexivity|]; apply N.eqb_eq in E; subst; exact A|]. right. split; [reflexivity|]. intros B. pose proof (answers_fun _ _ _ A B). lia.
    + destruct (k =? k') eqn:E; [apply N.eqb_eq in E; subst; auto|]. right. split; [reflexivity|]. intros B. pose proof (answers_fun _ _ _ A B). lia.
  - destruct (receive_other j r N) as [-> _]. right. split; [reflexivity|apply N].
Qed.

(* ---------------------------------------------------------------- histories *)
Lemma run_app : forall h1 h2 r, run (h1 ++ h2) r = (fst (run h2 (fst (run h1 r))), snd (run h1 r) ++ snd (run h2 (fst (run h1 r)))).
Proof.
  induction h1 as [|e h1 IH]; intros h2 r; cbn [app run fst snd]; [destruct (run h2 r); reflexivity|]. rewrite IH. cbn [fst snd]. rewrite app_assoc. reflexivity.
Qed.
Lemma run_snoc h e r : fst (run (h ++ [e]) r) = fst (step e (fst (run h r))).
Proof. rewrite run_app. reflexivity. Qed.
Lemma finishes_app a b : finishes (a ++ b) = finishes a + finishes b.
Proof. induction a as [|[]] ; cbn [app finishes]; lia. Qed.
Lemma finishes_receives h : only_receives h -> finishes h = 0.
Proof. induction h as [|e h IH]; intros O; [reflexivity|]. destruct (O e (or_introl eq_refl)) as [j ->]. cbn [finishes]. apply IH. intros x I. apply O. right. exact I. Qed.

Fixpoint busy_after (b : bool) (h : list event) : bool :=
  match h with [] => b | Begin _ _ :: t => busy_after true t | Finish _ :: t | Fail _ :: t => busy_after false t | Receive _ :: t => busy_after b t end.
Lemma busy_snoc e : forall h b, busy_after b (h ++ [e]) = match e with Begin _ _ => true | Finish _ | Fail _ => false | Receive _ => busy_after b h end.
Proof. induction h as [|[] h IH]; intros b; cbn [app busy_after]; [destruct e; reflexivity|apply IH|apply IH|apply IH|apply IH]. Qed.
Lemma sequential_snoc e : forall h b, sequential b (h ++ [e]) <-> sequential b h /\ match e with Begin _ _ => busy_after b h = false | Finish i | Fail i => i = O /\ busy_after b h = true | Receive _ => True end.
Proof.
  induction h as [|x h IH]; intros b; cbn [app].
  - cbn [sequential busy_after]. destruct e; tauto.
  - destruct x; cbn [sequential busy_after]; rewrite IH; tauto.
Qed.

(* the request that is being sent *)
Definition opened (h : list event) (m : method) : Prop := exists h1 p h2, h = h1 ++ Begin m p :: h2 /\ only_receives h2.
Lemma receives_snoc h e : only_receives (h ++ [e]) <-> only_receives h /\ exists j, e = Receive j.
Proof.
  unfold only_receives. split.
  - intros O. split; [intros x I; apply O; apply in_or_app; auto|apply O; apply in_or_app; right; left; reflexivity].
  - intros [O [j ->]] x I. apply in_app_or in I. destruct I as [I|[<-|[]]]; eauto.
Qed.
Lemma opened_snoc h e m : opened (h ++ [e]) m <-> (exists p, e = Begin m p) \/ (exists j, e = Receive j) /\ opened h m.
Proof.
  split.
  - intros (h1 & p & h2 & E & O). destruct (exists_last (l := Begin m p :: h2)) as (t & x & X); [discriminate|]. rewrite X, app_assoc in E. apply app_inj_tail in E. destruct E as [-> ->].
    destruct h2 as [|y h2] using rev_ind; [left; exists p; destruct t as [|z t]; [cbn in X; congruence|destruct t; discriminate X]|]. clear IHh2.
    right. rewrite app_comm_cons in X. apply app_inj_tail in X. destruct X as [<- <-]. apply receives_snoc in O. destruct O as [O Y]. split; [exact Y|]. exists h1, p, h2. auto.
  - intros [[p ->]|[[j ->] (h1 & p & h2 & -> & O)]].
    + exists h, p, []. split; [reflexivity|]. intros x [].
    + exists h1, p, (h2 ++ [Receive j]). split; [rewrite <- app_assoc; reflexivity|]. apply receives_snoc. eauto.
Qed.
Lemma opened_nil m : ~ opened [] m.
Proof. intros (h1 & p & h2 & E & _). destruct h1; discriminate E. Qed.

Lemma waiting_shape h k m : waiting h k m <-> exists a h3, h = a ++ Finish 0 :: h3 /\ opened a m /\ finishes a = k /\ forall j, In (Receive j) h3 -> ~ answers k j.
Proof.
  split.
  - intros (h1 & p & h2 & h3 & -> & O & F & N). exists (h1 ++ Begin m p :: h2), h3. split; [rewrite <- app_assoc; reflexivity|]. split; [exists h1, p, h2; auto|]. split; [|exact N].
    rewrite finishes_app. cbn [finishes]. rewrite (finishes_receives h2 O). lia.
  - intros (a & h3 & -> & (h1 & p & h2 & -> & O) & F & N). exists h1, p, h2, h3. split; [rewrite <- app_assoc; reflexivity|]. split; [exact O|]. split; [|exact N].
    rewrite finishes_app in F. cbn [finishes] in F. rewrite (finishes_receives h2 O) in F. lia.
Qed.
Lemma waiting_snoc h e k m : waiting (h ++ [e]) k m <-> (e = Finish 0 /\ opened h m /\ finishes h = k) \/ (waiting h k m /\ forall j, e = Receive j -> ~ answers k j).
Proof.
  rewrite !waiting_shape. split.
  - intros (a & h3 & E & O & F & N). destruct h3 as [|x h3] using rev_ind.
    + apply app_inj_tail in E. destruct E as [-> ->]. auto.
    + clear IHh3. right. rewrite app_comm_cons, app_assoc in E. apply app_inj_tail in E. destruct E as [-> ->]. split; [exists a, h3; split; [reflexivity|split; [exact O|split; [exact F|]]]; intros j I; apply N; apply in_or_app; auto|].
      intros j ->. apply N. apply in_or_app. right. left. reflexivity.
  - intros [(-> & O & F)|[(a & h3 & -> & O & F & N) X]].
    + exists h, []. split; [reflexivity|]. split; [exact O|]. split; [exact F|]. intros j [].
    + exists a, (h3 ++ [e]). split; [rewrite <- app_assoc; reflexivity|]. split; [exact O|]. split; [exact F|]. intros j I. apply in_app_or in I. destruct I as [I|[->|[]]]; [apply N; exact I|apply X; reflexivity].
Qed.
Lemma waiting_bound h k m : waiting h k m -> k < finishes h.
Proof. intros W. apply waiting_shape in W. destruct W as (a & h3 & -> & _ & <- & _). rewrite finishes_app. cbn [finishes]. lia. Qed.

Lemma sequential_state : forall h, sequential false h -> finishes h <= 2 ^ 32 ->
  let r := fst (run h remote_new) in
  rm_requests r = finishes h mod 2 ^ 32 /\
  (busy_after false h = false -> rm_sending r = [] /\ forall m, ~ opened h m) /\
  (busy_after false h = true -> exists m0, rm_sending r = [(finishes h mod 2 ^ 32, m0)] /\ forall m, opened h m <-> m = m0) /\
  (forall k m, tab_find k (rm_table r) = Some m <-> waiting h k m).
Proof.
  induction h as [|e h IH] using rev_ind; intros S B; cbn zeta.
  - cbn [run fst remote_new rm_requests rm_sending rm_table busy_after finishes]. split; [reflexivity|]. split; [split; [reflexivity|apply opened_nil]|]. split; [discriminate|]. intros k m. cbn [tab_find]. split; [discriminate|]. intros W. apply waiting_bound in W. cbn [finishes] in W. lia.
  - apply sequential_snoc in S. destruct S as [S X]. rewrite finishes_app in B. destruct IH as (A1 & A2 & A3 & A4); [exact S|lia|]. cbn zeta in *.
    rewrite run_snoc, busy_snoc, finishes_app. set (r := fst (run h remote_new)) in *. destruct e as [m p|i|i|j]; cbn [step fst finishes].
    + destruct (A2 X) as [E N]. unfold send_begin. cbn [fst rm_requests rm_sending rm_table]. rewrite E, A1. replace (finishes h + 0) with (finishes h) by lia. split; [reflexivity|]. split; [discriminate|]. split.
      * intros _. exists m. split; [reflexivity|]. intros m'. rewrite opened_snoc. split; [intros [[p' Y]|[[j Y] _]]; [congruence|discriminate Y]|]. intros ->. left. eauto.
      * intros k m'. rewrite A4, waiting_snoc. split; [intros W; right; split; [exact W|discriminate]|]. intros [[Y _]|[W _]]; [discriminate Y|exact W].
    + destruct X as [-> X]. destruct (A3 X) as (m0 & E & O). unfold send_finish. rewrite E. cbn [nth_error remove_nth rm_requests rm_sending rm_table]. cbn [finishes] in B. split.
      * rewrite A1. rewrite N.add_mod_idemp_l by discriminate. f_equal; lia.
      * split; [intros _; split; [reflexivity|]; intros m Y; apply opened_snoc in Y; destruct Y as [[p Y]|[[j Y] _]]; discriminate Y|]. split; [discriminate|]. intros k m.
        rewrite tab_find_set, waiting_snoc. rewrite N.mod_small by lia. destruct (k =? finishes h) eqn:K.
        -- apply N.eqb_eq in K. subst k. split.
           ++ intros Y. left. split; [reflexivity|]. split; [apply O; congruence|reflexivity].
           ++ intros [(_ & Y & _)|[W _]]; [apply O in Y; congruence|]. apply waiting_bound in W. lia.
        -- rewrite A4. split; [intros W; right; split; [exact W|discriminate]|]. intros [(_ & _ & Y)|[W _]]; [lia|exact W].
    + destruct X as [-> X]. destruct (A3 X) as (m0 & E & O). unfold send_fail. rewrite E. cbn [remove_nth rm_requests rm_sending rm_table]. split; [rewrite A1; f_equal; lia|].
      split; [intros _; split; [reflexivity|]; intros m Y; apply opened_snoc in Y; destruct Y as [[p Y]|[[j Y] _]]; discriminate Y|]. split; [discriminate|]. intros k m. rewrite A4, waiting_snoc. split; [intros W; right; split; [exact W|discriminate]|]. intros [[Y _]|[W _]]; [discriminate Y|exact W].
    + destruct (receive_requests j r) as [R1 R2]. rewrite R1, R2. replace (finishes h + 0) with (finishes h) by lia. split; [exact A1|]. split; [|split].
      * intros Y. destruct (A2 Y) as [E N]. split; [exact E|]. intros m Z. apply opened_snoc in Z. destruct Z as [[p Z]|[_ Z]]; [discriminate Z|exact (N m Z)].
      * intros Y. destruct (A3 Y) as (m0 & E & O). exists m0. split; [exact E|]. intros m. rewrite opened_snoc, <- (O m). split; [intros [[p Z]|[_ Z]]; [discriminate Z|exact Z]|]. intros Z. right. split; [eauto|exact Z].
      * intros k m. rewrite waiting_snoc. destruct (receive_find j r k) as [[F A]|[F A]]; rewrite F.
        -- split; [discriminate|]. intros [[Y _]|[_ Y]]; [discriminate Y|]. exfalso. exact (Y j eq_refl A).
        -- rewrite A4. split; [intros W; right; split; [exact W|intros j' Z; assert (j = j') as <- by congruence; exact A]|]. intros [[Y _]|[W _]]; [discriminate Y|exact W].
Qed.
Lemma dispatch h k j : sequential false h -> finishes h <= 2 ^ 32 -> answers k j ->
  (forall m j', snd (receive j (fst (run h remote_new))) = RResponse m j' <-> j' = j /\ waiting h k m) /\
  (snd (receive j (fst (run h remote_new))) = RThrow <-> forall m, ~ waiting h k m).
Proof.
  intros S B A. destruct (sequential_state h S B) as (_ & _ & _ & W). cbn zeta in W. set (r := fst (run h remote_new)) in *. rewrite (receive_answer k j r A). destruct (tab_find k (rm_table r)) as [m|] eqn:F; cbn [snd]; split.
  - intros m' j'. split; [intros E; assert (m = m') as <- by congruence; split; [congruence|apply W; exact F]|]. intros [-> X]. apply W in X. congruence.
  - split; [discriminate|]. intros N. exfalso. apply (N m). apply W. exact F.
  - intros m' j'. split; [discriminate|]. intros [_ X]. apply W in X. congruence.
  - split; [|reflexivity]. intros _ m X. apply W in X. congruence.
Qed.
Lemma waiting_fun h k m m' : sequential false h -> finishes h <= 2 ^ 32 -> waiting h k m -> waiting h k m' -> m = m'.
Proof. intros S B X Y. destruct (sequential_state h S B) as (_ & _ & _ & W). apply W in X, Y. congruence. Qed.
(* a response that was handed on is refused the next time *)
Lemma once h k j j' : sequential false h -> finishes h <= 2 ^ 32 -> answers k j -> answers k j' -> snd (receive j' (fst (receive j (fst (run h remote_new))))) = RThrow.
Proof.
  intros S B A A'. set (r := fst (run h remote_new)). rewrite (receive_answer k j' _ A'). destruct (receive_find j r k) as [[F _]|[_ N]]; [rewrite F; reflexivity|contradiction].
Qed.

(* ---------------------------------------------------------------- all histories *)
Lemma remove_length {A} : forall i (l : list A), (i < length l)%nat -> length (remove_nth i l) = pred (length l).
Proof. induction i as [|i IH]; intros [|a l] L; cbn [remove_nth length] in *; try lia. rewrite IH by lia. lia. Qed.
Lemma possible_numbers : forall h r n, possible (length (rm_sending r)) h -> rm_requests r = n mod 2 ^ 32 -> rm_requests (fst (run h r)) = (n + finishes h) mod 2 ^ 32.
Proof.
  induction h as [|e h IH]; intros r n P E; cbn [run fst finishes]; [rewrite E; f_equal; lia|]. destruct e as [m p|i|i|j]; cbn [step fst snd possible finishes] in *.
  - apply IH; [cbn [send_begin fst rm_sending]; rewrite app_length; cbn [length]; replace (length (rm_sending r) + 1)%nat with (S (length (rm_sending r))) by lia; exact P|exact E].
  - destruct P as [L P]. unfold send_finish. destruct (nth_error (rm_sending r) i) as [[k m]|] eqn:X; [|apply nth_error_None in X; lia]. rewrite (IH _ (n + 1)).
    + f_equal. lia.
    + cbn [rm_sending]. rewrite remove_length by exact L. exact P.
    + cbn [rm_requests]. rewrite E, N.add_mod_idemp_l by discriminate. reflexivity.
  - destruct P as [L P]. apply IH; [cbn [send_fail rm_sending]; rewrite remove_length by exact L; exact P|exact E].
  - destruct (receive_requests j r) as [R1 R2]. apply IH; [rewrite R2; exact P|rewrite R1; exact E].
Qed.
Lemma numbers_exact h m p : possible 0 h -> snd (send_begin m p (fst (run h remote_new))) = request (JUint (finishes h mod 2 ^ 32)) m p.
Proof. intros P. unfold send_begin. cbn [snd]. rewrite (possible_numbers h remote_new 0 P eq_refl). reflexivity. Qed.

Section Count.
Variable f : N -> method -> bool.
Fixpoint tally (t : list (N * method)) : nat := match t with [] => O | (k, m) :: r => (if f k m then 1 else 0) + tally r end.
Lemma tally_app a b : tally (a ++ b) = (tally a + tally b)%nat.
Proof. induction a as [|[k m] a IH]; cbn [app tally]; lia. Qed.
Lemma tally_del k t : (tally (tab_del k t) <= tally t)%nat.
Proof. induction t as [|[i m] t IH]; cbn [tab_del tally]; [lia|]. destruct (k =? i); cbn [tally]; lia. Qed.
Lemma tally_found k m : forall t, tab_find k t = Some m -> (tally (tab_del k t) + (if f k m then 1 else 0) <= tally t)%nat.
Proof.
  induction t as [|[i m'] t IH]; intros F; cbn [tab_find tab_del tally] in *; [discriminate F|]. destruct (k =? i) eqn:E.
  - apply N.eqb_eq in E. subst i. assert (m' = m) as -> by congruence. pose proof (tally_del k t). lia.
  - specialize (IH F). cbn [tally]. lia.
Qed.
Lemma tally_nth : forall i l k m, nth_error l i = Some (k, m) -> tally l = ((if f k m then 1 else 0) + tally (remove_nth i l))%nat.
Proof.
  induction i as [|i IH]; intros [|[k' m'] l] k m E; cbn [nth_error remove_nth tally] in *; try discriminate E.
  - assert (k' = k) as -> by congruence. assert (m' = m) as -> by congruence. lia.
  - rewrite (IH l k m E). lia.
Qed.
Lemma tally_remove : forall i l, (tally (remove_nth i l) <= tally l)%nat.
Proof. induction i as [|i IH]; intros [|[k m] l]; cbn [remove_nth tally]; try lia. specialize (IH l). lia. Qed.
Lemma handed_app a b : handed f (a ++ b) = (handed f a + handed f b)%nat.
Proof. induction a as [|[] a IH]; cbn [app handed]; lia. Qed.
Lemma receive_tally j r : (handed f [snd (receive j r)] + tally (rm_table (fst (receive j r))) <= tally (rm_table r))%nat.
Proof.
  destruct (answers_dec j) as [[k A]|N].
  - rewrite (receive_answer k j r A). destruct (tab_find k (rm_table r)) as [m|] eqn:F; cbn [fst snd rm_table handed]; [|lia]. apply answers_exact in A. destruct A as [_ A]. rewrite A. pose proof (tally_found k m _ F). lia.
  - destruct (receive_other j r N) as [-> X]. destruct (snd (receive j r)) eqn:E; cbn [handed]; try lia. exfalso. exact (X m j0 eq_refl).
Qed.
Lemma handed_bound : forall h r n, possible (length (rm_sending r)) h -> rm_requests r = n mod 2 ^ 32 ->
  (handed f (snd (run h r)) <= tally (rm_table r) + tally (rm_sending r) + begun f n h)%nat.
Proof.
  induction h as [|e h IH]; intros r n P E; cbn [run snd begun]; [cbn [handed]; lia|]. rewrite handed_app. destruct e as [m p|i|i|j]; cbn [step fst snd possible begun] in *.
  - cbn [handed]. specialize (IH (fst (send_begin m p r)) n). cbn [send_begin fst rm_sending rm_requests rm_table] in IH. rewrite app_length in IH. cbn [length] in IH. replace (length (rm_sending r) + 1)%nat with (S (length (rm_sending r))) in IH by lia.
    specialize (IH P E). rewrite tally_app in IH. cbn [tally] in IH. rewrite E in IH. unfold send_begin. cbn [fst]. rewrite E. lia.
  - destruct P as [L P]. cbn [handed]. unfold send_finish. destruct (nth_error (rm_sending r) i) as [[k m]|] eqn:X; [|apply nth_error_None in X; lia].
    match goal with |- context [run h ?s] => specialize (IH s (n + 1)) end. cbn [rm_sending rm_requests rm_table] in IH. rewrite remove_length in IH by exact L. specialize (IH P). rewrite E, N.add_mod_idemp_l in IH by discriminate. specialize (IH eq_refl).
    pose proof (tally_nth i _ k m X). unfold tab_set in IH. cbn [tally] in IH. pose proof (tally_del k (rm_table r)). unfold tab_set. rewrite E. rewrite N.add_mod_idemp_l by discriminate. lia.
  - destruct P as [L P]. cbn [handed]. specialize (IH (send_fail i r) n). cbn [send_fail rm_sending rm_requests rm_table] in IH. rewrite remove_length in IH by exact L. specialize (IH P E). pose proof (tally_remove i (rm_sending r)). unfold send_fail in *. cbn [handed] in *. lia.
  - destruct (receive_requests j r) as [R1 R2]. specialize (IH (fst (receive j r)) n). rewrite R1, R2 in IH. specialize (IH P E). pose proof (receive_tally j r). lia.
Qed.
Lemma handed_all h : possible 0 h -> (handed f (snd (run h remote_new)) <= begun f 0 h)%nat.
Proof. intros P. pose proof (handed_bound h remote_new 0 P eq_refl) as B. cbn [remote_new rm_table rm_sending tally] in B. lia. Qed.
End Count.

(* two requests that are sent at the same time *)
Lemma crossed h a b p q j j' : possible 0 h -> rm_sending (fst (run h remote_new)) = [] -> answers (finishes h mod 2 ^ 32) j -> answers (finishes h mod 2 ^ 32) j' ->
  snd (run (h ++ [Begin a p; Begin b q; Finish 0; Finish 0; Receive j; Receive j']) remote_new) = snd (run h remote_new) ++ [RResponse b j; RThrow].
Proof.
  intros P S A A'. rewrite run_app. cbn [snd]. f_equal. pose proof (possible_numbers h remote_new 0 P eq_refl) as E. set (r := fst (run h remote_new)) in *. change (0 + finishes h) with (finishes h) in E.
  assert (X : fst (run [Begin a p; Begin b q; Finish 0; Finish 0] r) = mkremote (((finishes h mod 2 ^ 32 + 1) mod 2 ^ 32 + 1) mod 2 ^ 32) (tab_set (finishes h mod 2 ^ 32) b (tab_set (finishes h mod 2 ^ 32) a (rm_table r))) []).
  { cbn [run step fst snd]. unfold send_begin. cbn [fst rm_requests rm_table rm_sending]. rewrite S, E. reflexivity. }
  change [Begin a p; Begin b q; Finish 0; Finish 0; Receive j; Receive j'] with ([Begin a p; Begin b q; Finish 0; Finish 0] ++ [Receive j; Receive j']).
  rewrite run_app, X. cbn [snd]. change (snd (run [Begin a p; Begin b q; Finish 0; Finish 0] r)) with (@nil reaction). cbn [app run step fst snd].
  set (s := mkremote _ _ _). assert (F : tab_find (finishes h mod 2 ^ 32) (rm_table s) = Some b) by (unfold s; cbn [rm_table]; rewrite tab_find_set, N.eqb_refl; reflexivity).
  pose proof (receive_answer _ j s A) as R. rewrite F in R. rewrite R. cbn [fst snd]. rewrite (receive_answer _ j' _ A'). cbn [rm_table]. rewrite tab_find_del, N.eqb_refl. reflexivity.
Qed.

(* ---------------------------------------------------------------- masks over time *)
Lemma last_set_snoc l o x : last_set (l ++ [o]) x <-> o = MSet x \/ ((forall y, o <> MSet y) /\ last_set l x).
Proof.
  split.
  - intros [(a & b & E & N)|[-> N]].
    + destruct b as [|y b] using rev_ind; [apply app_inj_tail in E; left; tauto|]. clear IHb. rewrite app_comm_cons, app_assoc in E. apply app_inj_tail in E. destruct E as [-> ->]. right.
      split; [intros z ->; apply (N z); apply in_or_app; right; left; reflexivity|]. left. exists a, b. split; [reflexivity|]. intros z I. apply (N z). apply in_or_app. auto.
    + right. split; [intros y ->; apply (N y); apply in_or_app; right; left; reflexivity|]. right. split; [reflexivity|]. intros y I. apply (N y). apply in_or_app. auto.
  - intros [->|[D [(a & b & -> & N)|[-> N]]]].
    + left. exists l, []. split; [reflexivity|]. intros y [].
    + left. exists a, (b ++ [o]). split; [rewrite <- app_assoc; reflexivity|]. intros y I. apply in_app_or in I. destruct I as [I|[I|[]]]; [exact (N y I)|exact (D y I)].
    + right. split; [reflexivity|]. intros y I. apply in_app_or in I. destruct I as [I|[I|[]]]; [exact (N y I)|exact (D y I)].
Qed.
Lemma last_request_snoc l o x : last_request (l ++ [o]) x <-> o = MConfigure x \/ ((forall y, o <> MConfigure y) /\ last_request l x).
Proof.
  split.
  - intros [(a & b & E & N)|[-> N]].
    + destruct b as [|y b] using rev_ind; [apply app_inj_tail in E; left; tauto|]. clear IHb. rewrite app_comm_cons, app_assoc in E. apply app_inj_tail in E. destruct E as [-> ->]. right.
      split; [intros z ->; apply (N z); apply in_or_app; right; left; reflexivity|]. left. exists a, b. split; [reflexivity|]. intros z I. apply (N z). apply in_or_app. auto.
    + right. split; [intros y ->; apply (N y); apply in_or_app; right; left; reflexivity|]. right. split; [reflexivity|]. intros y I. apply (N y). apply in_or_app. auto.
  - intros [->|[D [(a & b & -> & N)|[-> N]]]].
    + left. exists l, []. split; [reflexivity|]. intros y [].
    + left. exists a, (b ++ [o]). split; [rewrite <- app_assoc; reflexivity|]. intros y I. apply in_app_or in I. destruct I as [I|[I|[]]]; [exact (N y I)|exact (D y I)].
    + right. split; [reflexivity|]. intros y I. apply in_app_or in I. destruct I as [I|[I|[]]]; [exact (N y I)|exact (D y I)].
Qed.
Lemma mask_state : forall l, (forall x, last_set l x <-> x = mk_local (mask_run l)) /\ (forall r, last_request l r <-> r = mk_requested (mask_run l)).
Proof.
  induction l as [|o l [A B]] using rev_ind.
  - split; intros x; split.
    + intros [(a & b & E & _)|[-> _]]; [destruct a; discriminate E|reflexivity].
    + intros ->. right. split; [reflexivity|]. intros y [].
    + intros [(a & b & E & _)|[-> _]]; [destruct a; discriminate E|reflexivity].
    + intros ->. right. split; [reflexivity|]. intros y [].
  - unfold mask_run. rewrite fold_left_app. fold (mask_run l). cbn [fold_left]. destruct o as [r|x]; cbn [mask_step masks_configure masks_set mk_local mk_requested]; split; intros y; rewrite ?last_set_snoc, ?last_request_snoc.
    + rewrite A. split; [intros [X|[_ X]]; [discriminate X|exact X]|]. intros X. right. split; [discriminate|exact X].
    + split; [intros [X|[N _]]; [congruence|exfalso; exact (N r eq_refl)]|]. intros ->. auto.
    + split; [intros [X|[N _]]; [congruence|exfalso; exact (N x eq_refl)]|]. intros ->. auto.
    + rewrite B. split; [intros [X|[_ X]]; [discriminate X|exact X]|]. intros X. right. split; [discriminate|exact X].
Qed.
Lemma mask_history l x r : last_set l x -> last_request l r ->
  (forall z, masks_get (mask_run l) = Some z <-> z = Z.land x (vr_mask r) /\ exists ps, NoDup ps /\ (forall i, In i ps -> (i < 32)%nat /\ bit x i /\ bit (vr_mask r) i) /\ vr_bits r <= N.of_nat (length ps)) /\
  (forall z, masks_get (mask_run l) = Some z -> forall i, bit z i <-> bit x i /\ bit (vr_mask r) i).
Proof.
  intros X R. destruct (mask_state l) as [A B]. apply A in X. apply B in R. subst x r. unfold masks_get. split; [intros z; apply mask_make_exact|]. intros z. apply mask_make_bits.
Qed.
Lemma mask_history_total l : exists x r, last_set l x /\ last_request l r.
Proof. destruct (mask_state l) as [A B]. exists (mk_local (mask_run l)), (mk_requested (mask_run l)). split; [apply A|apply B]; reflexivity. Qed.
