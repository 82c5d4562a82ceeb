(* Proofs about what is asked of ARC. *)
From Coq Require Import String Lia ZifyBool ZifyNat ZifyN.
From Verif Require Import Base BaseProofs WireModel WireSpec WireProofs MerkleModel TextModel TextSpec TextProofs JsonModel ScriptModel MachineModel SighashModel ExtModel ExtSpec ExtProofs TscModel Bip44Model HdSpec HdPathProofs Bip44Proofs EnvelopeProofs ArcModel ArcSpec ArcProofs.
Local Open Scope list_scope.
Local Open Scope N_scope.

(* ---------------------------------------------------------------- headers *)
Definition opt {A} (name : bytes) (f : A -> bytes) (x : option A) : list (bytes * bytes) := match x with Some a => [(name, f a)] | None => [] end.
Lemma add_pure {A B} name (f : A -> bytes) x m (k : list (bytes * bytes) -> outcome unit B) :
  and_then (add_header name (fun a => Ret (f a)) x m) k = k (m ++ opt name f x).
Proof. destruct x; cbn [add_header and_then opt]; [reflexivity|rewrite app_nil_r; reflexivity]. Qed.
Definition middle (s : submit) : list (bytes * bytes) :=
  opt (text "X-CallbackURL") (fun x => x) (sm_url s) ++ opt (text "X-FullStatusUpdates") bool_text (sm_full s) ++ opt (text "X-MaxTimeout") int_text (sm_timeout s) ++
  opt (text "X-SkipFeeValidation") bool_text (sm_skip_fee s) ++ opt (text "X-SkipScriptValidation") bool_text (sm_skip_script s) ++ opt (text "X-SkipTxValidation") bool_text (sm_skip_tx s) ++
  opt (text "X-CumulativeFeeValidation") bool_text (sm_cumulative s) ++ opt (text "X-CallbackToken") (fun x => x) (sm_token s).
Lemma headers_form s :
  headers s = and_then (content_text (sm_content s)) (fun c =>
    match sm_wait s with
    | Some n => and_then (wait_text n) (fun w => Ret ((text "Content-Type", c) :: middle s ++ [(text "X-WaitFor", w)]))
    | None => Ret ((text "Content-Type", c) :: middle s)
    end).
Proof.
  unfold headers. destruct (content_text (sm_content s)) as [c|u|] eqn:C; cbn [add_header and_then]; rewrite C; cbn [and_then]; [|reflexivity|reflexivity].
  change (add_header (text "X-CallbackURL") Ret) with (add_header (text "X-CallbackURL") (fun a : bytes => Ret ((fun x => x) a) : outcome unit bytes)).
  change (add_header (text "X-CallbackToken") Ret) with (add_header (text "X-CallbackToken") (fun a : bytes => Ret ((fun x => x) a) : outcome unit bytes)).
  rewrite !add_pure. unfold middle. rewrite <- !app_assoc. cbn [app]. destruct (sm_wait s) as [n|]; cbn [add_header]; [|reflexivity].
  destruct (wait_text n) as [w|u|]; cbn [and_then]; try reflexivity.
Qed.
Lemma in_opt {A} name (f : A -> bytes) x k v : In (k, v) (opt name f x) <-> k = name /\ exists a, x = Some a /\ v = f a.
Proof.
  destruct x as [a|]; cbn [opt In]; split.
  - intros [E|[]]. assert (k = name) by congruence. assert (v = f a) by congruence. split; [assumption|]. exists a. split; [reflexivity|assumption].
  - intros (-> & b & E & ->). left. assert (a = b) as -> by congruence. reflexivity.
  - intros [].
  - intros (_ & b & E & _). discriminate E.
Qed.
Lemma in_middle s k v : In (k, v) (middle s) <->
  (k = text "X-CallbackURL" /\ sm_url s = Some v) \/
  (exists b, v = bool_text b /\
    ((k = text "X-FullStatusUpdates" /\ sm_full s = Some b) \/ (k = text "X-SkipFeeValidation" /\ sm_skip_fee s = Some b) \/
     (k = text "X-SkipScriptValidation" /\ sm_skip_script s = Some b) \/ (k = text "X-SkipTxValidation" /\ sm_skip_tx s = Some b) \/
     (k = text "X-CumulativeFeeValidation" /\ sm_cumulative s = Some b))) \/
  (k = text "X-MaxTimeout" /\ exists z, sm_timeout s = Some z /\ v = int_text z) \/
  (k = text "X-CallbackToken" /\ sm_token s = Some v).
Proof.
  unfold middle. rewrite !in_app_iff, !in_opt. split.
  - intros [(K & a & A & V)|[(K & a & A & V)|[(K & a & A & V)|[(K & a & A & V)|[(K & a & A & V)|[(K & a & A & V)|[(K & a & A & V)|(K & a & A & V)]]]]]]].
    + left. split; [exact K|congruence].
    + right. left. exists a. split; [exact V|]. left. tauto.
    + right. right. left. split; [exact K|]. exists a. tauto.
    + right. left. exists a. split; [exact V|]. tauto.
    + right. left. exists a. split; [exact V|]. tauto.
    + right. left. exists a. split; [exact V|]. tauto.
    + right. left. exists a. split; [exact V|]. tauto.
    + right. right. right. split; [exact K|congruence].
  - intros [(K & A)|[(b & V & [(K & A)|[(K & A)|[(K & A)|[(K & A)|(K & A)]]]])|[(K & z & A & V)|(K & A)]]].
    + left. split; [exact K|]. exists v. split; [exact A|reflexivity].
    + right. left. split; [exact K|]. exists b. split; [exact A|exact V].
    + right. right. right. left. split; [exact K|]. exists b. split; [exact A|exact V].
    + right. right. right. right. left. split; [exact K|]. exists b. split; [exact A|exact V].
    + right. right. right. right. right. left. split; [exact K|]. exists b. split; [exact A|exact V].
    + right. right. right. right. right. right. left. split; [exact K|]. exists b. split; [exact A|exact V].
    + right. right. left. split; [exact K|]. exists z. split; [exact A|exact V].
    + right. right. right. right. right. right. right. split; [exact K|]. exists v. split; [exact A|reflexivity].
Qed.
Lemma headers_exact s l : headers s = Ret l -> forall k v, In (k, v) l <-> header_of s k v.
Proof.
  rewrite headers_form. destruct (content_text (sm_content s)) as [c|u|] eqn:C; cbn [and_then]; try discriminate. intros E k v. unfold header_of. rewrite C.
  assert (X : In (k, v) l <-> (k = text "Content-Type" /\ v = c) \/ In (k, v) (middle s) \/ (k = text "X-WaitFor" /\ exists n, sm_wait s = Some n /\ wait_text n = Ret v)).
  { destruct (sm_wait s) as [n|] eqn:W; [destruct (wait_text n) as [w|u|] eqn:T; cbn [and_then] in E; try discriminate E|].
    - assert (l = (text "Content-Type", c) :: middle s ++ [(text "X-WaitFor", w)]) as -> by congruence. cbn [In]. rewrite in_app_iff. cbn [In]. split.
      + intros [Y|[Y|[Y|[]]]].
        * left. split; congruence.
        * right. left. exact Y.
        * right. right. split; [congruence|]. exists n. split; [reflexivity|congruence].
      + intros [(-> & ->)|[Y|(-> & m & M & Y)]]; [left; reflexivity|right; left; exact Y|]. right. right. left. assert (m = n) as -> by congruence. congruence.
    - assert (l = (text "Content-Type", c) :: middle s) as -> by congruence. cbn [In]. split.
      + intros [Y|Y]; [left; split; congruence|right; left; exact Y].
      + intros [(-> & ->)|[Y|(_ & m & M & _)]]; [left; reflexivity|right; exact Y|discriminate M]. }
  rewrite X, in_middle. assert (Y : v = c <-> (Ret c : outcome unit bytes) = Ret v) by (split; congruence). rewrite Y. tauto.
Qed.
Lemma wait_named n : (exists w, wait_text n = Ret w) <-> 2 <= n <= 8.
Proof.
  unfold wait_text. repeat match goal with |- context [if ?x =? ?k then _ else _] => destruct (N.eqb_spec x k); [subst; split; [lia|intros _; eexists; reflexivity]|] end.
  split; [intros (w & X); discriminate X|lia].
Qed.
Lemma headers_defined s : (exists l, headers s = Ret l) <-> sm_content s <> COther /\ forall n, sm_wait s = Some n -> 2 <= n <= 8.
Proof.
  rewrite headers_form. split.
  - intros (l & E). split; [intros X; rewrite X in E; discriminate E|]. intros n W. rewrite W in E. destruct (content_text (sm_content s)); cbn [and_then] in E; try discriminate E.
    apply wait_named. destruct (wait_text n); cbn [and_then] in E; try discriminate E. eexists. reflexivity.
  - intros (C & W). assert (X : exists c, content_text (sm_content s) = Ret c) by (destruct (sm_content s); [eexists; reflexivity| eexists; reflexivity| eexists; reflexivity|contradiction]).
    destruct X as (c & ->). cbn [and_then]. destruct (sm_wait s) as [n|]; [|eexists; reflexivity]. destruct (proj2 (wait_named n) (W n eq_refl)) as (w & ->). eexists. reflexivity.
Qed.
Lemma headers_thrown s : headers s = Throw tt <-> sm_content s = COther \/ exists n, sm_wait s = Some n /\ ~ 2 <= n <= 8.
Proof.
  rewrite headers_form. split.
  - intros E. destruct (sm_content s); try (left; reflexivity); right; cbn [content_text and_then] in E;
      (destruct (sm_wait s) as [n|]; [|discriminate E]; exists n; split; [reflexivity|]; intros X; apply wait_named in X; destruct X as (w & X); rewrite X in E; discriminate E).
  - intros [->|(n & -> & X)]; [reflexivity|]. assert (W : wait_text n = Throw tt).
    { unfold wait_text. repeat match goal with |- context [if ?x =? ?k then _ else _] => destruct (N.eqb_spec x k); [subst; lia|] end. reflexivity. }
    rewrite W. destruct (sm_content s); reflexivity.
Qed.
Lemma bool_text_inj a b : bool_text a = bool_text b -> a = b.
Proof. destruct a, b; intros E; (reflexivity || (vm_compute in E; discriminate E)). Qed.
Lemma to_string_plain n r : to_string n <> x2d :: r.
Proof.
  rewrite to_string_decimal. destruct (decimal_numeral n) as (A & B & _). intros E. rewrite E in B. inversion B as [|x y D _]. vm_compute in D. discriminate D.
Qed.
Lemma int_text_inj a b : int_text a = int_text b -> a = b.
Proof.
  unfold int_text. destruct (a <? 0)%Z eqn:A, (b <? 0)%Z eqn:B; intros E.
  - change (text "-") with [x2d] in E. cbn [app] in E. assert (X : to_string (Z.abs_N a) = to_string (Z.abs_N b)) by congruence. apply to_string_inj in X. lia.
  - change (text "-") with [x2d] in E. cbn [app] in E. symmetry in E. apply to_string_plain in E. contradiction.
  - change (text "-") with [x2d] in E. cbn [app] in E. apply to_string_plain in E. contradiction.
  - apply to_string_inj in E. lia.
Qed.
Lemma wait_inj a b w : wait_text a = Ret w -> wait_text b = Ret w -> a = b.
Proof.
  intros A B. assert (X : 2 <= a <= 8) by (apply wait_named; eexists; exact A). assert (Y : 2 <= b <= 8) by (apply wait_named; eexists; exact B).
  assert (Z : forallb (fun x => forallb (fun y => match wait_text x, wait_text y with Ret p, Ret q => negb (bytes_eqb p q) || (x =? y) | _, _ => false end) [2;3;4;5;6;7;8]) [2;3;4;5;6;7;8] = true) by (vm_compute; reflexivity).
  rewrite forallb_forall in Z. assert (IA : In a [2;3;4;5;6;7;8]) by (cbn [In]; lia). assert (IB : In b [2;3;4;5;6;7;8]) by (cbn [In]; lia).
  specialize (Z a IA). rewrite forallb_forall in Z. specialize (Z b IB). rewrite A, B in Z. rewrite (proj2 (bytes_eqb_eq w w) eq_refl) in Z. cbn [negb orb] in Z. lia.
Qed.
Lemma content_inj a b c : content_text a = Ret c -> content_text b = Ret c -> a = b.
Proof. destruct a, b; intros A B; try reflexivity; try discriminate A; try discriminate B; exfalso; rewrite <- A in B; vm_compute in B; discriminate B. Qed.

(* an option is what its header says *)
Lemma option_eq {A} (x y : option A) : (forall a, x = Some a <-> y = Some a) -> x = y.
Proof. intros E. destruct x as [a|]; [symmetry; apply E; reflexivity|]. destruct y as [b|]; [|reflexivity]. apply E. reflexivity. Qed.
Ltac other := repeat match goal with
  | H : _ /\ _ |- _ => destruct H
  | H : _ \/ _ |- _ => destruct H
  | H : exists _, _ |- _ => destruct H
  | H : text _ = text _ |- _ => (vm_compute in H; discriminate H) || clear H
  end.
Lemma header_url s v : header_of s (text "X-CallbackURL") v <-> sm_url s = Some v.
Proof. unfold header_of. split; [intros H; other; assumption|tauto]. Qed.
Lemma header_token s v : header_of s (text "X-CallbackToken") v <-> sm_token s = Some v.
Proof. unfold header_of. split; [intros H; other; assumption|tauto]. Qed.
Lemma header_full s v : header_of s (text "X-FullStatusUpdates") v <-> exists b, v = bool_text b /\ sm_full s = Some b.
Proof. unfold header_of. split; [intros H; other; eexists; split; eassumption|intros (b & A & B); right; right; left; exists b; tauto]. Qed.
Lemma header_skip_fee s v : header_of s (text "X-SkipFeeValidation") v <-> exists b, v = bool_text b /\ sm_skip_fee s = Some b.
Proof. unfold header_of. split; [intros H; other; eexists; split; eassumption|intros (b & A & B); right; right; left; exists b; tauto]. Qed.
Lemma header_skip_script s v : header_of s (text "X-SkipScriptValidation") v <-> exists b, v = bool_text b /\ sm_skip_script s = Some b.
Proof. unfold header_of. split; [intros H; other; eexists; split; eassumption|intros (b & A & B); right; right; left; exists b; tauto]. Qed.
Lemma header_skip_tx s v : header_of s (text "X-SkipTxValidation") v <-> exists b, v = bool_text b /\ sm_skip_tx s = Some b.
Proof. unfold header_of. split; [intros H; other; eexists; split; eassumption|intros (b & A & B); right; right; left; exists b; tauto]. Qed.
Lemma header_cumulative s v : header_of s (text "X-CumulativeFeeValidation") v <-> exists b, v = bool_text b /\ sm_cumulative s = Some b.
Proof. unfold header_of. split; [intros H; other; eexists; split; eassumption|intros (b & A & B); right; right; left; exists b; tauto]. Qed.
Lemma header_timeout s v : header_of s (text "X-MaxTimeout") v <-> exists z, sm_timeout s = Some z /\ v = int_text z.
Proof. unfold header_of. split; [intros H; other; eexists; split; eassumption|intros (b & A & B); do 3 right; left; split; [reflexivity|exists b; tauto]]. Qed.
Lemma header_wait s v : header_of s (text "X-WaitFor") v <-> exists n, sm_wait s = Some n /\ wait_text n = Ret v.
Proof. unfold header_of. split; [intros H; other; eexists; split; eassumption|intros (b & A & B); do 5 right; split; [reflexivity|exists b; tauto]]. Qed.
Lemma header_content s v : header_of s (text "Content-Type") v <-> content_text (sm_content s) = Ret v.
Proof. unfold header_of. split; [intros H; other; assumption|tauto]. Qed.
Lemma headers_determine a b l : headers a = Ret l -> headers b = Ret l -> a = b.
Proof.
  intros A B. assert (X : forall k v, header_of a k v <-> header_of b k v) by (intros k v; rewrite <- (headers_exact a l A k v); apply (headers_exact b l B k v)).
  assert (FB : forall (k : bytes) (x y : option bool), (forall v, header_of a k v <-> exists b, v = bool_text b /\ x = Some b) -> (forall v, header_of b k v <-> exists b, v = bool_text b /\ y = Some b) -> x = y).
  { intros k x y P Q. apply option_eq. intros d. split; intros E.
    - assert (Y : header_of b k (bool_text d)) by (apply X; apply P; exists d; tauto). apply Q in Y. destruct Y as (e & Y & ->). apply bool_text_inj in Y. congruence.
    - assert (Y : header_of a k (bool_text d)) by (apply X; apply Q; exists d; tauto). apply P in Y. destruct Y as (e & Y & ->). apply bool_text_inj in Y. congruence. }
  destruct a as [a1 a2 a3 a4 a5 a6 a7 a8 a9 a10] eqn:EA, b as [b1 b2 b3 b4 b5 b6 b7 b8 b9 b10] eqn:EB. rewrite <- EA, <- EB in X, FB.
  assert (a1 = b1) as ->.
  { destruct (proj1 (headers_defined a)) as (N & _); [exists l; rewrite EA; exact A|]. assert (Y : exists c, content_text a1 = Ret c) by (rewrite EA in N; cbn [sm_content] in N; destruct a1; [eexists; reflexivity| eexists; reflexivity|eexists; reflexivity|contradiction]).
    destruct Y as (c & Y). apply (content_inj _ _ c Y). pose proof (proj2 (header_content a c)) as P. rewrite EA in P. cbn [sm_content] in P. specialize (P Y). rewrite <- EA in P. apply X in P. apply header_content in P. rewrite EB in P. exact P. }
  assert (a2 = b2) as ->.
  { apply option_eq. intros v. pose proof (header_url a v) as P. pose proof (header_url b v) as Q. rewrite (X _ v) in P. rewrite EA in P. rewrite EB in P, Q. cbn [sm_url] in P, Q. tauto. }
  assert (a9 = b9) as ->.
  { apply option_eq. intros v. pose proof (header_token a v) as P. pose proof (header_token b v) as Q. rewrite (X _ v) in P. rewrite EA in P. rewrite EB in P, Q. cbn [sm_token] in P, Q. tauto. }
  assert (a3 = b3) as ->.
  { apply (FB (text "X-FullStatusUpdates")); [intros v; rewrite (header_full a v), EA; reflexivity|intros v; rewrite (header_full b v), EB; reflexivity]. }
  assert (a5 = b5) as ->.
  { apply (FB (text "X-SkipFeeValidation")); [intros v; rewrite (header_skip_fee a v), EA; reflexivity|intros v; rewrite (header_skip_fee b v), EB; reflexivity]. }
  assert (a6 = b6) as ->.
  { apply (FB (text "X-SkipScriptValidation")); [intros v; rewrite (header_skip_script a v), EA; reflexivity|intros v; rewrite (header_skip_script b v), EB; reflexivity]. }
  assert (a7 = b7) as ->.
  { apply (FB (text "X-SkipTxValidation")); [intros v; rewrite (header_skip_tx a v), EA; reflexivity|intros v; rewrite (header_skip_tx b v), EB; reflexivity]. }
  assert (a8 = b8) as ->.
  { apply (FB (text "X-CumulativeFeeValidation")); [intros v; rewrite (header_cumulative a v), EA; reflexivity|intros v; rewrite (header_cumulative b v), EB; reflexivity]. }
  assert (a4 = b4) as ->.
  { apply option_eq. intros z. pose proof (header_timeout a (int_text z)) as P. pose proof (header_timeout b (int_text z)) as Q. rewrite (X _ (int_text z)) in P. rewrite EA in P. rewrite EB in P, Q. cbn [sm_timeout] in P, Q. split; intros E.
    - destruct (proj1 Q (proj2 P (ex_intro _ z (conj E eq_refl)))) as (y & Y & I). apply int_text_inj in I. congruence.
    - destruct (proj1 P (proj2 Q (ex_intro _ z (conj E eq_refl)))) as (y & Y & I). apply int_text_inj in I. congruence. }
  assert (a10 = b10) as ->; [|reflexivity].
  { destruct (proj1 (headers_defined a)) as (_ & NA); [exists l; rewrite EA; exact A|]. destruct (proj1 (headers_defined b)) as (_ & NB); [exists l; rewrite EB; exact B|]. rewrite EA in NA. rewrite EB in NB. cbn [sm_wait] in NA, NB.
    apply option_eq. intros n. split; intros E.
    - destruct (proj2 (wait_named n) (NA n E)) as (w & W). pose proof (header_wait a w) as P. pose proof (header_wait b w) as Q. rewrite (X _ w) in P. rewrite EA in P. rewrite EB in P, Q. cbn [sm_wait] in P, Q.
      destruct (proj1 Q (proj2 P (ex_intro _ n (conj E W)))) as (y & Y & Z). rewrite (wait_inj n y w W Z). exact Y.
    - destruct (proj2 (wait_named n) (NB n E)) as (w & W). pose proof (header_wait a w) as P. pose proof (header_wait b w) as Q. rewrite (X _ w) in P. rewrite EA in P. rewrite EB in P, Q. cbn [sm_wait] in P, Q.
      destruct (proj1 P (proj2 Q (ex_intro _ n (conj E W)))) as (y & Y & Z). rewrite (wait_inj n y w W Z). exact Y. }
Qed.
