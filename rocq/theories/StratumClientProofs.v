(* Proofs about the client and the server. *)
From Coq Require Import String Lia ZifyBool ZifyNat ZifyN.
From Verif Require Import Base BaseProofs TextModel WireModel WireSpec MerkleModel WorkModel JsonModel StratumModel StratumSpec StratumProofs StratumFields StratumConfigModel StratumConfigSpec DictProofs StratumConfigProofs StratumConfigFields StratumSessionModel StratumSessionSpec StratumSessionProofs.
Local Open Scope N_scope.

Lemma with_same c : with_remote (cl_remote c) c = c.
Proof. destruct c; reflexivity. Qed.

(* ---------------------------------------------------------------- configure *)
Lemma answers_valid_never o q : answers_valid o q = true <-> q = [].
Proof.
  unfold answers_valid. destruct q as [|[n x] q]; [split; reflexivity|]. split; [|discriminate]. change (init_list [JObject o]) with (JArray [JObject o]). cbn [forallb j_get fst]. discriminate.
Qed.
Lemma receive_configure_exact o x c :
  receive_configure o x c = match co_configure o with
                            | Some [] => match answer_of x with Ret _ => (set_results x c, [], Done) | _ => (c, [], Thrown) end
                            | _ => (c, [], Thrown)
                            end.
Proof.
  unfold receive_configure. destruct (co_configure o) as [q|]; [|reflexivity]. destruct (answer_of x) as [a|[]|] eqn:A.
  - destruct q as [|e q]; [cbn [answers_valid forallb negb]; reflexivity|]. destruct (answers_valid a (e :: q)) eqn:V; [apply answers_valid_never in V; discriminate V|reflexivity].
  - destruct q; reflexivity.
  - exfalso. clear - A. unfold answer_of in A. revert A. generalize (@nil (bytes * json)). induction x as [|[n y] x IH]; intros z; cbn [answer_of_from]; [discriminate|]. destruct (rs_accepted y); cbn [acc_json acc_bool bind]; try discriminate; apply IH.
Qed.
Lemma results_defined o : results_of o <> Undef.
Proof.
  unfold results_of. assert (X : forall o acc ps, sort_answers o acc ps <> Undef).
  { induction o0 as [|[k v] o0 IH]; intros acc ps; cbn [sort_answers]; [discriminate|]. destruct (split_dots k) as [|? [|? [|]]]; try discriminate; apply IH. }
  destruct (sort_answers o [] []) as [m|[]|] eqn:E; cbn [bind]; [destruct (forallb _ _); discriminate|discriminate|exfalso; exact (X _ _ _ E)].
Qed.

(* what handling a response can change *)
Definition same_mining (a b : client) : Prop :=
  cl_minimum a = cl_minimum b /\ cl_difficulty a = cl_difficulty b /\ cl_extranonce a = cl_extranonce b /\ cl_mask a = cl_mask b /\ cl_notify a = cl_notify b.
Lemma response_keeps o m j c : let y := receive_response o m j c in
  cl_remote (fst (fst y)) = cl_remote c /\ cl_submitted (fst (fst y)) = cl_submitted c /\ same_mining (fst (fst y)) c /\ shares_accepted (snd (fst y)) = 0.
Proof.
  cbn zeta. assert (T : forall e d, let y := (c, e, d) : reply in shares_accepted e = 0 -> cl_remote (fst (fst y)) = cl_remote c /\ cl_submitted (fst (fst y)) = cl_submitted c /\ same_mining (fst (fst y)) c /\ shares_accepted (snd (fst y)) = 0).
  { cbn [fst snd]. intros e d Z. repeat split. exact Z. }
  assert (U : forall c', (c' = set_authorized c \/ c' = count_accepted c \/ exists x, c' = set_results x c) -> let y := (c', [], Done) : reply in cl_remote (fst (fst y)) = cl_remote c /\ cl_submitted (fst (fst y)) = cl_submitted c /\ same_mining (fst (fst y)) c /\ shares_accepted (snd (fst y)) = 0).
  { cbn [fst snd]. intros c' [->|[->|[x ->]]]; repeat split. }
  unfold receive_response. destruct m; try (apply T; reflexivity); destruct (msg_error j) as [e|]; try (apply T; reflexivity).
  - destruct (negb (boolean_valid j)); [apply T; reflexivity|]. destruct (boolean_result j) as [[]|[]|]; try (apply T; reflexivity). apply U. auto.
  - destruct (msg_result j); try (apply T; reflexivity). destruct (results_of o0) as [x|[]|]; try (apply T; reflexivity). rewrite receive_configure_exact. destruct (co_configure o) as [[|]|]; try (apply T; reflexivity). destruct (answer_of x); try (apply T; reflexivity). apply U. eauto.
  - destruct (msg_result j); try (apply T; reflexivity). destruct (subscribed_read l) as [x|[]|]; apply T; reflexivity.
  - destruct (msg_result j) as [|[]| | | | | |]; try (apply T; reflexivity). apply U. auto.
Qed.
Lemma response_accepted o m j c : cl_accepted c < 2 ^ 32 -> let y := receive_response o m j c in cl_accepted (fst (fst y)) = (cl_accepted c + shares_accepted [Handled m j]) mod 2 ^ 32.
Proof.
  intros B. cbn zeta. assert (Z : (cl_accepted c + 0) mod 2 ^ 32 = cl_accepted c) by (rewrite N.add_0_r; apply N.mod_small; exact B).
  unfold receive_response. destruct m; cbn [shares_accepted fst]; try (symmetry; exact Z); destruct (msg_error j) as [e|]; cbn [fst]; try (symmetry; exact Z).
  - destruct (negb (boolean_valid j)); [symmetry; exact Z|]. destruct (boolean_result j) as [[]|[]|]; symmetry; exact Z.
  - destruct (msg_result j); try (symmetry; exact Z). destruct (results_of o0) as [x|[]|]; try (symmetry; exact Z). rewrite receive_configure_exact. destruct (co_configure o) as [[|]|]; try (symmetry; exact Z). destruct (answer_of x); symmetry; exact Z.
  - destruct (msg_result j); try (symmetry; exact Z). destruct (subscribed_read l) as [x|[]|]; symmetry; exact Z.
  - destruct (msg_result j) as [|[]| | | | | |]; try (symmetry; exact Z). reflexivity.
Qed.
Lemma notification_keeps j c : let y := receive_notification j c in
  cl_remote (fst (fst y)) = cl_remote c /\ cl_submitted (fst (fst y)) = cl_submitted c /\ cl_accepted (fst (fst y)) = cl_accepted c /\ cl_authorized (fst (fst y)) = cl_authorized c /\
  cl_results (fst (fst y)) = cl_results c /\ cl_minimum (fst (fst y)) = cl_minimum c /\ cl_mask (fst (fst y)) = cl_mask c /\ shares_accepted (snd (fst y)) = 0 /\ forall m i, ~ In (Handled m i) (snd (fst y)).
Proof.
  cbn zeta. unfold receive_notification. destruct (notify_valid j); [repeat split; intros m i [X|[]]; discriminate X|]. destruct (msg_method j); try (repeat split; intros m i []).
  - destruct (whole_difficulty_valid (set_difficulty_read (msg_params j))); repeat split; intros m i [].
  - destruct (set_mask_read (msg_params j)) as [[z|]|[]|] eqn:E; try (repeat split; intros m i []). exfalso. unfold set_mask_read in E. destruct (msg_params j) as [|[| | | | |s| |] [|]]; try discriminate E. exact (proj1 (mask_never s) z E).
  - destruct (set_extranonce_read (msg_params j)) as [[x|]|[]|]; repeat split; intros m i [].
  - destruct (msg_params j) as [|[| | | | |s| |] [|]]; repeat split; intros m i X; cbn [fst snd In] in X; try contradiction. destruct X as [X|[]]; discriminate X.
Qed.

(* ---------------------------------------------------------------- the client's requests *)
Section Client.
Variables (mem : bool) (o : client_options).

Lemma receive_cases j c :
  let x := receive j (cl_remote c) in
  (exists m, snd x = RResponse m j /\ client_receive o j c = (let y := receive_response o m j (with_remote (fst x) c) in (fst (fst y), Handled m j :: snd (fst y), snd y))) \/
  ((forall m i, snd x <> RResponse m i) /\ fst x = cl_remote c /\
    ((snd x = RThrow /\ client_receive o j c = (c, [], Thrown)) \/ (notification_valid j = true /\ client_receive o j c = receive_notification j c) \/ (request_valid j = true /\ response_valid j = false /\ notification_valid j = false /\ client_receive o j c = receive_request o j c))).
Proof.
  cbn zeta. unfold client_receive, receive. destruct (notification_valid j) eqn:V; cbn [fst snd].
  - right. split; [discriminate|]. split; [reflexivity|]. right. left. split; [reflexivity|]. rewrite with_same. reflexivity.
  - destruct (response_valid j) eqn:W.
    + destruct (msg_id j); cbn [fst snd]; try (right; split; [discriminate|]; split; [reflexivity|]; left; rewrite with_same; split; reflexivity). destruct (tab_find n (rm_table (cl_remote c))) as [m|]; cbn [fst snd]; [left; exists m; split; reflexivity|].
      right; split; [discriminate|]; split; [reflexivity|]; left; rewrite with_same; split; reflexivity.
    + destruct (request_valid j) eqn:U; cbn [fst snd]; (right; split; [discriminate|]; split; [reflexivity|]); rewrite with_same; [right; right; repeat split|left; split; reflexivity].
Qed.

Lemma step_remote e c : cl_remote (fst (fst (client_step mem o e c))) = fst (step (as_event mem e) (cl_remote c)).
Proof.
  destruct e; try reflexivity. cbn [client_step as_event step fst]. destruct (receive_cases j c) as [(m & _ & E)|(_ & R & D)].
  - rewrite E. cbn zeta. cbn [fst]. destruct (response_keeps o m j (with_remote (fst (receive j (cl_remote c))) c)) as [X _]. rewrite X. reflexivity.
  - rewrite R. destruct D as [[_ ->]|[[_ ->]|(_ & _ & _ & ->)]]; [reflexivity| |reflexivity]. apply notification_keeps.
Qed.
Lemma step_submitted e c : cl_submitted (fst (fst (client_step mem o e c))) = match e with CSubmit _ => (cl_submitted c + 1) mod 2 ^ 32 | _ => cl_submitted c end.
Proof.
  destruct e; try reflexivity. cbn [client_step]. destruct (receive_cases j c) as [(m & _ & E)|(_ & R & D)].
  - rewrite E. cbn zeta. cbn [fst]. destruct (response_keeps o m j (with_remote (fst (receive j (cl_remote c))) c)) as (_ & X & _). rewrite X. reflexivity.
  - destruct D as [[_ ->]|[[_ ->]|(_ & _ & _ & ->)]]; [reflexivity| |reflexivity]. apply notification_keeps.
Qed.
Lemma shares_cons m j l : shares_accepted (Handled m j :: l) = shares_accepted [Handled m j] + shares_accepted l.
Proof. destruct m; cbn [shares_accepted]; lia. Qed.
Lemma shares_app a b : shares_accepted (a ++ b) = shares_accepted a + shares_accepted b.
Proof. induction a as [|x a IH]; [reflexivity|]. cbn [app]. destruct x as [|m j| | | | | |]; try exact IH. rewrite (shares_cons m j a), (shares_cons m j (a ++ b)), IH. lia. Qed.
Lemma step_accepted e c : cl_accepted c < 2 ^ 32 -> cl_accepted (fst (fst (client_step mem o e c))) = (cl_accepted c + shares_accepted (snd (fst (client_step mem o e c)))) mod 2 ^ 32.
Proof.
  intros B. assert (Z : cl_accepted c = (cl_accepted c + 0) mod 2 ^ 32) by (rewrite N.add_0_r; symmetry; apply N.mod_small; exact B).
  destruct e; try exact Z. cbn [client_step]. destruct (receive_cases j c) as [(m & _ & E)|(_ & R & D)].
  - rewrite E. cbn zeta. cbn [fst snd]. rewrite shares_cons. set (c' := with_remote _ _). destruct (response_keeps o m j c') as (_ & _ & _ & X). rewrite X, N.add_0_r. rewrite (response_accepted o m j c' B). reflexivity.
  - destruct D as [[_ ->]|[[_ ->]|(_ & _ & _ & ->)]]; [exact Z| |].
    + destruct (notification_keeps j c) as (_ & _ & X & _ & _ & _ & _ & Y & _). rewrite X, Y. exact Z.
    + unfold receive_request. cbn [fst snd]. destruct (get_version_valid j); exact Z.
Qed.
Definition is_submit (k : N) (m : method) : bool := match m with mining_submit => true | _ => false end.
Lemma step_shares e c : (N.to_nat (shares_accepted (snd (fst (client_step mem o e c)))) <= handed is_submit (snd (step (as_event mem e) (cl_remote c))))%nat.
Proof.
  destruct e; try (cbn; lia). cbn [client_step as_event step snd]. destruct (receive_cases j c) as [(m & R & E)|(_ & R & D)].
  - rewrite E. cbn zeta. cbn [fst snd]. rewrite shares_cons. set (c' := with_remote _ _). destruct (response_keeps o m j c') as (_ & _ & _ & X). rewrite X, R. cbn [handed]. destruct (answers_dec j) as [[k A]|N].
    + apply answers_exact in A. destruct A as [_ A]. rewrite A. destruct m; cbn [shares_accepted is_submit]; try lia. destruct (msg_error j); [lia|]. destruct (msg_result j) as [|[]| | | | | |]; lia.
    + exfalso. destruct (receive_other j (cl_remote c) N) as [_ Y]. exact (Y m j R).
  - destruct D as [[_ ->]|[[_ ->]|(_ & _ & _ & ->)]]; [cbn; lia| |].
    + destruct (notification_keeps j c) as (_ & _ & _ & _ & _ & _ & _ & Y & _). rewrite Y. lia.
    + unfold receive_request. cbn [fst snd]. destruct (get_version_valid j); cbn [app shares_accepted]; lia.
Qed.
Lemma begun_submits : forall h n, begun is_submit n (map (as_event mem) h) = N.to_nat (submits h).
Proof. induction h as [|[] h IH]; intros n; cbn [map as_event begun submits is_submit]; rewrite ?IH; try reflexivity. lia. Qed.

Lemma client_run_facts : forall h c, cl_accepted c < 2 ^ 32 ->
  let y := client_run mem o h c in
  cl_remote (fst y) = fst (run (map (as_event mem) h) (cl_remote c)) /\
  (cl_submitted c < 2 ^ 32 -> cl_submitted (fst y) = (cl_submitted c + submits h) mod 2 ^ 32) /\
  cl_accepted (fst y) = (cl_accepted c + shares_accepted (snd y)) mod 2 ^ 32 /\
  (N.to_nat (shares_accepted (snd y)) <= handed is_submit (snd (run (map (as_event mem) h) (cl_remote c))))%nat.
Proof.
  induction h as [|e h IH]; intros c B; cbn zeta.
  - cbn [client_run map run fst snd shares_accepted handed submits]. split; [reflexivity|]. split; [intros L; rewrite N.add_0_r; symmetry; apply N.mod_small; exact L|]. split; [rewrite N.add_0_r; symmetry; apply N.mod_small; exact B|]. cbn. lia.
  - cbn [client_run map run fst snd]. pose proof (step_remote e c) as R. pose proof (step_submitted e c) as U. pose proof (step_accepted e c B) as A. pose proof (step_shares e c) as H.
    set (x := client_step mem o e c) in *. set (c1 := fst (fst x)) in *. assert (B1 : cl_accepted c1 < 2 ^ 32) by (rewrite A; apply N.mod_lt; discriminate). specialize (IH c1 B1). cbn zeta in IH. destruct IH as (I1 & I2 & I3 & I4). rewrite R in I1, I4.
    split; [exact I1|]. split; [|split].
    + intros L. rewrite I2; [|rewrite U; destruct e; try exact L; apply N.mod_lt; discriminate]. rewrite U. destruct e; cbn [submits]; try reflexivity. rewrite N.add_mod_idemp_l by discriminate. f_equal. lia.
    + rewrite I3, A, shares_app, N.add_mod_idemp_l by discriminate. f_equal. lia.
    + rewrite shares_app, handed_app. lia.
Qed.
Lemma share_counts h : possible 0 (map (as_event mem) h) ->
  let y := client_run mem o h client_new in
  cl_submitted (fst y) = submits h mod 2 ^ 32 /\ cl_accepted (fst y) = shares_accepted (snd y) mod 2 ^ 32 /\ shares_accepted (snd y) <= submits h.
Proof.
  intros P. cbn zeta. destruct (client_run_facts h client_new eq_refl) as (_ & U & A & H). split; [apply U; reflexivity|]. split; [exact A|].
  pose proof (handed_all is_submit (map (as_event mem) h) P) as X. rewrite begun_submits in X. cbn [client_new cl_remote] in H. lia.
Qed.

(* ---------------------------------------------------------------- what the client knows *)
Lemma client_run_app : forall h1 h2 c, client_run mem o (h1 ++ h2) c = (fst (client_run mem o h2 (fst (client_run mem o h1 c))), snd (client_run mem o h1 c) ++ snd (client_run mem o h2 (fst (client_run mem o h1 c)))).
Proof.
  induction h1 as [|e h1 IH]; intros h2 c; cbn [app client_run fst snd]; [destruct (client_run mem o h2 c); reflexivity|]. rewrite IH. cbn [fst snd]. rewrite app_assoc. reflexivity.
Qed.
Lemma client_run_snoc h e c : fst (client_run mem o (h ++ [e]) c) = fst (fst (client_step mem o e (fst (client_run mem o h c)))).
Proof. rewrite client_run_app. cbn [client_run fst snd]. reflexivity. Qed.

Lemma latest_snoc {A} (says : json -> A -> Prop) h e x : latest says (h ++ [e]) x <-> (exists j, e = CReceive j /\ says j x) \/ ((forall j y, e = CReceive j -> ~ says j y) /\ latest says h x).
Proof.
  split.
  - intros (a & j & b & E & S & N). destruct b as [|z b] using rev_ind; [apply app_inj_tail in E; destruct E as [-> ->]; left; eauto|]. clear IHb. rewrite app_comm_cons, app_assoc in E. apply app_inj_tail in E. destruct E as [-> ->]. right.
    split; [intros i y ->; apply (N i y); apply in_or_app; right; left; reflexivity|]. exists a, j, b. split; [reflexivity|]. split; [exact S|]. intros i y I. apply (N i y). apply in_or_app. auto.
  - intros [(j & -> & S)|[D (a & j & b & -> & S & N)]].
    + exists h, j, []. split; [reflexivity|]. split; [exact S|]. intros i y [].
    + exists a, j, (b ++ [e]). split; [rewrite <- app_assoc; reflexivity|]. split; [exact S|]. intros i y I. apply in_app_or in I. destruct I as [I|[I|[]]]; [exact (N i y I)|exact (D i y I)].
Qed.
Lemma latest_run {A} (says : json -> A -> Prop) (get : client -> option A) :
  (forall j c x, says j x -> get (fst (fst (client_receive o j c))) = Some x) -> (forall j c, (forall x, ~ says j x) -> get (fst (fst (client_receive o j c))) = get c) ->
  (forall j, (exists x, says j x) \/ forall x, ~ says j x) ->
  (forall e c, (forall j, e <> CReceive j) -> get (fst (fst (client_step mem o e c))) = get c) -> get client_new = None ->
  forall h x, get (fst (client_run mem o h client_new)) = Some x <-> latest says h x.
Proof.
  intros Hs Hn Hd He H0. induction h as [|e h IH] using rev_ind; intros x.
  - cbn [client_run fst]. rewrite H0. split; [discriminate|]. intros (a & j & b & E & _). destruct a; discriminate E.
  - rewrite client_run_snoc, latest_snoc. set (c := fst (client_run mem o h client_new)) in *.
    assert (D : (forall j, e <> CReceive j) \/ exists j, e = CReceive j) by (destruct e; try (left; discriminate); right; eauto). destruct D as [D|[j ->]].
    + rewrite (He e c D), IH. split; [intros L; right; split; [intros j y X; exfalso; exact (D j X)|exact L]|]. intros [(j & X & _)|[_ L]]; [exfalso; exact (D j X)|exact L].
    + cbn [client_step]. destruct (Hd j) as [[y Y]|N].
      * rewrite (Hs j c y Y). split; [intros X; left; exists j; split; [reflexivity|congruence]|]. intros [(j' & X & S)|[F _]]; [|exfalso; exact (F j y eq_refl Y)]. assert (j' = j) as -> by congruence. pose proof (Hs j c x S). pose proof (Hs j c y Y). congruence.
      * rewrite (Hn j c N), IH. split; [intros L; right; split; [intros j' y X; assert (j' = j) as -> by congruence; apply N|exact L]|]. intros [(j' & X & S)|[_ L]]; [|exact L]. assert (j' = j) as -> by congruence. exfalso. exact (N x S).
Qed.

Lemma received_notification j c : notification_valid j = true -> client_receive o j c = receive_notification j c.
Proof. intros V. unfold client_receive, receive. rewrite V. cbn [fst snd]. rewrite with_same. reflexivity. Qed.
Lemma other_keeps j c : notification_valid j = false -> same_mining (fst (fst (client_receive o j c))) c.
Proof.
  intros V. destruct (receive_cases j c) as [(m & _ & E)|(_ & _ & D)].
  - rewrite E. cbn zeta. cbn [fst]. set (c' := with_remote _ c). destruct (response_keeps o m j c') as (_ & _ & X & _). exact X.
  - destruct D as [[_ ->]|[[W _]|(_ & _ & _ & ->)]]; [repeat split|congruence|repeat split].
Qed.
Lemma is_notification_valid j m p : is_notification j m p <-> notification_valid j = true /\ msg_method j = m /\ msg_params j = p.
Proof. symmetry. apply notification_exact. Qed.

Lemma session_bytes_exact s v : session_of_text s = Some v <-> session_bytes s v.
Proof.
  unfold session_of_text, session_bytes, hex_of. assert (P : forall b k, be_val (b ++ repeat x00 k) = be_val b * 256 ^ N.of_nat k).
  { intros b k. unfold be_val. rewrite rev_app_distr, le_val_app, rev_length, repeat_length. assert (Z : le_val (rev (repeat x00 k)) = 0) by (induction k as [|k IH]; [reflexivity|]; cbn [repeat rev]; rewrite le_val_app, IH; cbn; lia). rewrite Z. unfold pow256. lia. }
  destruct (hex_read s) as [b|] eqn:H.
  - destruct (4 <? length b)%nat eqn:L.
    + split; [discriminate|]. intros [(b' & E & M & _)|[N _]]; [assert (b' = b) by congruence; subst; lia|exfalso; exact (N b eq_refl)].
    + rewrite P. split; [intros E; left; exists b; split; [reflexivity|]; split; [lia|congruence]|]. intros [(b' & E & M & ->)|[N _]]; [assert (b' = b) by congruence; subst; reflexivity|exfalso; exact (N b eq_refl)].
  - split; [intros E; right; split; [discriminate|congruence]|]. intros [(b' & E & _)|[_ ->]]; [discriminate E|reflexivity].
Qed.
(* difficulties *)
Lemma difficulty_cases j : notification_valid j = true -> forall c,
  (exists d, says_difficulty j d /\ cl_difficulty (fst (fst (receive_notification j c))) = Some d) \/ ((forall d, ~ says_difficulty j d) /\ cl_difficulty (fst (fst (receive_notification j c))) = cl_difficulty c).
Proof.
  intros V c. assert (N : msg_method j <> mining_set_difficulty -> forall d, ~ says_difficulty j d) by (intros M d (n & X & _); apply is_notification_valid in X; tauto).
  unfold receive_notification. destruct (notify_valid j) eqn:W.
  - right. split; [|reflexivity]. apply N. unfold notify_valid in W. intros M. rewrite M, andb_false_r in W. discriminate W.
  - destruct (msg_method j) eqn:M; try (right; split; [apply N; discriminate|reflexivity]).
    + destruct (whole_difficulty_valid (set_difficulty_read (msg_params j))) eqn:X.
      * left. unfold set_difficulty_read in *. destruct (msg_params j) as [|[| | |n| | | |] [|]] eqn:P; try discriminate X. exists (JUint n). split; [|reflexivity]. exists n. split; [apply is_notification_valid; auto|]. split; [reflexivity|]. cbn in X. lia.
      * right. split; [|reflexivity]. intros d (n & Y & -> & L). apply is_notification_valid in Y. destruct Y as (_ & _ & Y). rewrite Y in X. cbn in X. lia.
    + right. split; [apply N; discriminate|]. destruct (set_mask_read (msg_params j)) as [[z|]|[]|]; reflexivity.
    + right. split; [apply N; discriminate|]. destruct (set_extranonce_read (msg_params j)) as [[z|]|[]|]; reflexivity.
    + right. split; [apply N; discriminate|]. destruct (msg_params j) as [|[| | | | |s| |] [|]]; reflexivity.
Qed.
Lemma extranonce_cases j : notification_valid j = true -> forall c,
  (exists d, says_extranonce j d /\ cl_extranonce (fst (fst (receive_notification j c))) = Some d) \/ ((forall d, ~ says_extranonce j d) /\ cl_extranonce (fst (fst (receive_notification j c))) = cl_extranonce c).
Proof.
  intros V c. assert (N : msg_method j <> mining_set_extranonce -> forall d, ~ says_extranonce j d) by (intros M d (s & n & X & _); apply is_notification_valid in X; tauto).
  unfold receive_notification. destruct (notify_valid j) eqn:W.
  - right. split; [|reflexivity]. apply N. unfold notify_valid in W. intros M. rewrite M, andb_false_r in W. discriminate W.
  - destruct (msg_method j) eqn:M; try (right; split; [apply N; discriminate|reflexivity]).
    + right. split; [apply N; discriminate|]. destruct (whole_difficulty_valid _); reflexivity.
    + right. split; [apply N; discriminate|]. destruct (set_mask_read (msg_params j)) as [[z|]|[]|]; reflexivity.
    + assert (R : forall d, says_extranonce j d <-> set_extranonce_read (msg_params j) = Ret (Some d)).
      { intros d. unfold says_extranonce. split.
        - intros (s & n & Y & E & F). apply is_notification_valid in Y. destruct Y as (_ & _ & ->). cbn [set_extranonce_read]. apply session_bytes_exact in E. rewrite E, <- F. destruct d; reflexivity.
        - unfold set_extranonce_read. intros E. destruct (msg_params j) as [|[| | | | |s| |] [|[| | |n| | | |] [|]]] eqn:P; try discriminate E. destruct (session_of_text s) as [v|] eqn:F; [|discriminate E]. assert (d = mkextra v n) as -> by congruence.
          exists s, n. split; [apply is_notification_valid; auto|]. split; [apply session_bytes_exact; exact F|reflexivity]. }
      destruct (set_extranonce_read (msg_params j)) as [[z|]|[]|] eqn:E.
      * left. exists z. split; [apply R; reflexivity|reflexivity].
      * right. split; [intros d Y; apply R in Y; discriminate Y|reflexivity].
      * right. split; [intros d Y; apply R in Y; discriminate Y|reflexivity].
      * right. split; [intros d Y; apply R in Y; discriminate Y|reflexivity].
    + right. split; [apply N; discriminate|]. destruct (msg_params j) as [|[| | | | |s| |] [|]]; reflexivity.
Qed.
Lemma job_cases j : notification_valid j = true -> forall c,
  (exists d, says_job j d /\ cl_notify (fst (fst (receive_notification j c))) = Some d) \/ ((forall d, ~ says_job j d) /\ cl_notify (fst (fst (receive_notification j c))) = cl_notify c).
Proof.
  intros V c. unfold receive_notification. destruct (notify_valid j) eqn:W.
  - left. exists (notify_read (msg_params j)). split; [|reflexivity]. unfold notify_valid in W. rewrite !andb_true_iff in W. destruct W as [[_ M] P]. exists (msg_params j). split; [apply is_notification_valid; split; [exact V|]; split; [destruct (msg_method j); try discriminate M; reflexivity|reflexivity]|].
    split; [|exact P]. destruct (notify_or_none (msg_params j)) as [X|X]; [|exact X]. rewrite X in P. discriminate P.
  - right. split.
    + intros d (n & X & S & P). apply is_notification_valid in X. destruct X as (_ & M & L). unfold notify_valid in W. rewrite V, M, L, (notify_says _ _ S), P in W. discriminate W.
    + destruct (msg_method j); try reflexivity.
      * destruct (whole_difficulty_valid _); reflexivity.
      * destruct (set_mask_read (msg_params j)) as [[z|]|[]|]; reflexivity.
      * destruct (set_extranonce_read (msg_params j)) as [[z|]|[]|]; reflexivity.
      * destruct (msg_params j) as [|[| | | | |s| |] [|]]; reflexivity.
Qed.

Lemma knows_difficulty h d : cl_difficulty (fst (client_run mem o h client_new)) = Some d <-> latest says_difficulty h d.
Proof.
  apply (latest_run says_difficulty cl_difficulty).
  - intros j c x S. assert (V : notification_valid j = true) by (destruct S as (n & X & _); apply is_notification_valid in X; tauto). rewrite (received_notification j c V). destruct (difficulty_cases j V c) as [(d' & (n' & D & _) & E)|[N _]]; [|exfalso; exact (N x S)].
    destruct S as (n & S & _). apply is_notification_valid in S, D. rewrite E. destruct S as (_ & _ & S), D as (_ & _ & D). congruence.
  - intros j c N. destruct (notification_valid j) eqn:V; [|apply (other_keeps j c V)]. rewrite (received_notification j c V). destruct (difficulty_cases j V c) as [(d' & D & _)|[_ E]]; [exfalso; exact (N d' D)|exact E].
  - intros j. destruct (notification_valid j) eqn:V; [|right; intros x (n & X & _); apply is_notification_valid in X; destruct X; congruence]. destruct (difficulty_cases j V client_new) as [(x & X & _)|[N _]]; eauto.
  - intros e c N. destruct e; try reflexivity. exfalso. exact (N j eq_refl).
  - reflexivity.
Qed.
Lemma knows_extranonce h d : cl_extranonce (fst (client_run mem o h client_new)) = Some d <-> latest says_extranonce h d.
Proof.
  apply (latest_run says_extranonce cl_extranonce).
  - intros j c x S. assert (V : notification_valid j = true) by (destruct S as (s & n & X & _); apply is_notification_valid in X; tauto). rewrite (received_notification j c V). destruct (extranonce_cases j V c) as [(d' & D & E)|[N _]]; [|exfalso; exact (N x S)].
    rewrite E. destruct S as (s & n & S & A & B), D as (s' & n' & D & A' & B'). apply is_notification_valid in S, D. destruct S as (_ & _ & S), D as (_ & _ & D). rewrite S in D. destruct x as [x1 x2], d' as [d1 d2]. cbn [en_1 en_2_size] in *. apply session_bytes_exact in A, A'. congruence.
  - intros j c N. destruct (notification_valid j) eqn:V; [|apply (other_keeps j c V)]. rewrite (received_notification j c V). destruct (extranonce_cases j V c) as [(d' & D & _)|[_ E]]; [exfalso; exact (N d' D)|exact E].
  - intros j. destruct (notification_valid j) eqn:V; [|right; intros x (s & n & X & _); apply is_notification_valid in X; destruct X; congruence]. destruct (extranonce_cases j V client_new) as [(x & X & _)|[N _]]; eauto.
  - intros e c N. destruct e; try reflexivity. exfalso. exact (N j eq_refl).
  - reflexivity.
Qed.
Lemma knows_job h d : cl_notify (fst (client_run mem o h client_new)) = Some d <-> latest says_job h d.
Proof.
  apply (latest_run says_job cl_notify).
  - intros j c x S. assert (V : notification_valid j = true) by (destruct S as (n & X & _); apply is_notification_valid in X; tauto). rewrite (received_notification j c V). destruct (job_cases j V c) as [(d' & D & E)|[N _]]; [|exfalso; exact (N x S)].
    rewrite E. destruct S as (n & S & A & _), D as (n' & D & A' & _). apply is_notification_valid in S, D. destruct S as (_ & _ & S), D as (_ & _ & D). apply notify_says in A, A'. congruence.
  - intros j c N. destruct (notification_valid j) eqn:V; [|apply (other_keeps j c V)]. rewrite (received_notification j c V). destruct (job_cases j V c) as [(d' & D & _)|[_ E]]; [exfalso; exact (N d' D)|exact E].
  - intros j. destruct (notification_valid j) eqn:V; [|right; intros x (n & X & _); apply is_notification_valid in X; destruct X; congruence]. destruct (job_cases j V client_new) as [(x & X & _)|[N _]]; eauto.
  - intros e c N. destruct e; try reflexivity. exfalso. exact (N j eq_refl).
  - reflexivity.
Qed.

(* what the client never learns *)
Lemma never_learns : forall h c, cl_mask (fst (client_run mem o h c)) = cl_mask c /\ cl_minimum (fst (client_run mem o h c)) = cl_minimum c.
Proof.
  induction h as [|e h IH]; intros c; [split; reflexivity|]. cbn [client_run fst]. destruct (IH (fst (fst (client_step mem o e c)))) as [-> ->]. destruct e; try (split; reflexivity). cbn [client_step].
  destruct (notification_valid j) eqn:V; [rewrite (received_notification j c V); destruct (notification_keeps j c) as (_ & _ & _ & _ & _ & -> & -> & _); split; reflexivity|]. destruct (other_keeps j c V) as (-> & _ & _ & -> & _). split; reflexivity.
Qed.
Lemma results_only : forall h c, cl_results (fst (client_run mem o h c)) = cl_results c \/ co_configure o = Some [].
Proof.
  induction h as [|e h IH]; intros c; [auto|]. cbn [client_run fst]. destruct (IH (fst (fst (client_step mem o e c)))) as [->|X]; [|auto]. destruct e; try (left; reflexivity). cbn [client_step].
  destruct (receive_cases j c) as [(m & _ & E)|(_ & _ & D)].
  - rewrite E. cbn zeta. cbn [fst]. unfold receive_response. destruct m; try (left; reflexivity); destruct (msg_error j); try (left; reflexivity).
    + destruct (negb (boolean_valid j)); [left; reflexivity|]. destruct (boolean_result j) as [[]|[]|]; left; reflexivity.
    + destruct (msg_result j); try (left; reflexivity). destruct (results_of o0) as [x|[]|]; try (left; reflexivity). rewrite receive_configure_exact. destruct (co_configure o) as [[|]|]; try (left; reflexivity). right. reflexivity.
    + destruct (msg_result j); try (left; reflexivity). destruct (subscribed_read l) as [x|[]|]; left; reflexivity.
    + destruct (msg_result j) as [|[]| | | | | |]; left; reflexivity.
  - destruct D as [[_ ->]|[[_ ->]|(_ & _ & _ & ->)]]; [left; reflexivity| |left; reflexivity]. left. apply notification_keeps.
Qed.

(* authorization *)
Lemma in_effects m j : forall o' m' j' c, In (Handled m j) (snd (fst (receive_response o' m' j' c))) -> False.
Proof.
  intros o' m' j' c. assert (T : forall (e : list effect) (c' : client) (d : ending), (forall x, In x e -> x <> Handled m j) -> In (Handled m j) (snd (fst ((c', e, d) : reply))) -> False) by (cbn [fst snd]; intros e c' d F I; exact (F _ I eq_refl)).
  intros I. unfold receive_response in I. destruct m'; try (cbn [fst snd In] in I; contradiction); destruct (msg_error j') as [e|]; try (cbn [fst snd In] in I; contradiction); try (cbn [fst snd In] in I; destruct I as [I|[]]; discriminate I).
  - destruct (negb (boolean_valid j')); [exact I|]. destruct (boolean_result j') as [[]|[]|]; exact I.
  - destruct (msg_result j'); try exact I. destruct (results_of o0) as [x|[]|]; try exact I. rewrite receive_configure_exact in I. destruct (co_configure o') as [[|]|]; try exact I. destruct (answer_of x); exact I.
  - destruct (msg_result j'); try exact I. destruct (subscribed_read l) as [x|[]|]; cbn [fst snd In] in I; intuition discriminate.
  - destruct (msg_result j') as [|[]| | | | | |]; exact I.
Qed.
Lemma step_authorized e c : cl_authorized (fst (fst (client_step mem o e c))) = true <-> cl_authorized c = true \/ exists j, In (Handled mining_authorize j) (snd (fst (client_step mem o e c))) /\ grants j.
Proof.
  assert (K : forall b, b = true <-> b = true \/ exists j, In (Handled mining_authorize j) [] /\ grants j) by (intros b; split; [auto|intros [X|(j & [] & _)]; exact X]).
  assert (KS : forall b s, b = true <-> b = true \/ exists j, In (Handled mining_authorize j) [Sent s] /\ grants j) by (intros b s; split; [auto|intros [X|(j & [X|[]] & _)]; [exact X|discriminate X]]).
  destruct e; try (cbn [client_step client_send fst snd]; first [apply K|apply KS]). cbn [client_step]. destruct (receive_cases j c) as [(m & R & E)|(_ & _ & D)].
  - rewrite E. cbn zeta. cbn [fst snd]. set (c' := with_remote _ c). change (cl_authorized c) with (cl_authorized c').
    assert (X : forall i, In (Handled mining_authorize i) (Handled m j :: snd (fst (receive_response o m j c'))) <-> m = mining_authorize /\ i = j) by (intros i; cbn [In]; split; [intros [Y|Y]; [split; congruence|exfalso; exact (in_effects _ _ _ _ _ _ Y)]|intros [-> ->]; auto]).
    assert (G : (exists i, In (Handled mining_authorize i) (Handled m j :: snd (fst (receive_response o m j c'))) /\ grants i) <-> m = mining_authorize /\ grants j).
    { split; [intros (i & I & G); apply X in I; destruct I as [-> ->]; auto|]. intros [M G]. exists j. split; [apply X; auto|exact G]. }
    rewrite G. clear G X. assert (RV : response_valid j = true). { destruct (answers_dec j) as [[k A]|N]; [apply answers_exact in A; tauto|]. exfalso. destruct (receive_other j (cl_remote c) N) as [_ Y]. exact (Y m j R). }
    unfold receive_response, grants. destruct m; try (split; [auto|intros [X|[X _]]; [exact X|discriminate X]]); cbn [fst snd].
    + destruct (msg_error j) as [e|] eqn:Er; [split; [auto|intros [X|(_ & _ & X)]; [exact X|discriminate X]]|]. destruct (boolean_total j) as (b & B & Bx). rewrite B. rewrite RV, Er in Bx.
      destruct (negb (boolean_valid j)) eqn:V.
      * split; [auto|]. intros [X|(_ & X & _)]; [exact X|]. exfalso. unfold boolean_valid, is_error in V. rewrite RV, X in V. discriminate V.
      * destruct b; [split; [intros _; right|reflexivity]|split; [auto|intros [X|(_ & X & _)]; [exact X|]]].
        -- split; [reflexivity|]. split; [apply Bx; reflexivity|reflexivity].
        -- exfalso. assert (Y : false = true) by (apply Bx; auto). discriminate Y.
    + assert (Z : cl_authorized (fst (fst (receive_response o mining_configure j c'))) = cl_authorized c').
      { unfold receive_response. destruct (msg_error j); [reflexivity|]. destruct (msg_result j); try reflexivity. destruct (results_of o0) as [x|[]|]; try reflexivity. rewrite receive_configure_exact. destruct (co_configure o) as [[|]|]; try reflexivity. destruct (answer_of x); reflexivity. }
      unfold receive_response in Z. rewrite Z. split; [auto|intros [X|[X _]]; [exact X|discriminate X]].
    + assert (Z : cl_authorized (fst (fst (receive_response o mining_subscribe j c'))) = cl_authorized c').
      { unfold receive_response. destruct (msg_error j); [reflexivity|]. destruct (msg_result j); try reflexivity. destruct (subscribed_read l) as [x|[]|]; reflexivity. }
      unfold receive_response in Z. rewrite Z. split; [auto|intros [X|[X _]]; [exact X|discriminate X]].
    + assert (Z : cl_authorized (fst (fst (receive_response o mining_submit j c'))) = cl_authorized c').
      { unfold receive_response. destruct (msg_error j); [reflexivity|]. destruct (msg_result j) as [|[]| | | | | |]; reflexivity. }
      unfold receive_response in Z. rewrite Z. split; [auto|intros [X|[X _]]; [exact X|discriminate X]].
  - destruct D as [[_ ->]|[[_ ->]|(_ & _ & _ & ->)]]; [apply K| |].
    + destruct (notification_keeps j c) as (_ & _ & _ & -> & _ & _ & _ & _ & N). split; [auto|]. intros [X|(i & I & _)]; [exact X|exfalso; exact (N _ _ I)].
    + unfold receive_request. cbn [fst snd]. split; [auto|]. intros [X|(i & I & _)]; [exact X|]. exfalso. destruct (get_version_valid j); cbn [app In] in I; intuition discriminate.
Qed.
Lemma authorized_exact : forall h c, cl_authorized (fst (client_run mem o h c)) = true <-> cl_authorized c = true \/ exists j, In (Handled mining_authorize j) (snd (client_run mem o h c)) /\ grants j.
Proof.
  induction h as [|e h IH]; intros c; cbn [client_run fst snd]; [split; [auto|intros [X|(j & [] & _)]; exact X]|]. rewrite IH, step_authorized. split.
  - intros [[X|(j & I & G)]|(j & I & G)]; [auto|right; exists j; split; [apply in_or_app; auto|exact G]|right; exists j; split; [apply in_or_app; auto|exact G]].
  - intros [X|(j & I & G)]; [auto|]. apply in_app_or in I. destruct I as [I|I]; [left; right; eauto|right; eauto].
Qed.

(* requests *)
Lemma client_requests j id m p c : is_request j id m p -> response_valid j = false ->
  client_receive o j c = (c, (if match m, p with client_get_version, [] => true | _, _ => false end then [Sent (response id (JString (co_version o)))] else []) ++ [Sent (response_error id JNull (error_of 26))], Thrown).
Proof.
  intros R V. apply request_exact in R. destruct R as (RV & I & M & P). destruct (receive_cases j c) as [(m' & X & _)|(_ & _ & D)].
  - exfalso. destruct (answers_dec j) as [[k A]|N]; [apply answers_exact in A; destruct A; congruence|]. destruct (receive_other j (cl_remote c) N) as [_ Y]. exact (Y m' j X).
  - assert (NV : notification_valid j = false) by (destruct (notification_valid j) eqn:W; [apply kinds_apart in W; destruct W; congruence|reflexivity]). destruct D as [[X _]|[[W _]|(_ & _ & _ & ->)]].
    + exfalso. unfold receive in X. rewrite NV, V, RV in X. discriminate X.
    + congruence.
    + unfold receive_request, get_version_valid. rewrite RV, I, M, P. destruct m, p; reflexivity.
Qed.
Lemma own_notifications m p c : client_receive o (notification m p) c = (c, [], Thrown).
Proof. unfold client_receive. destruct (notification_lost m p) as (A & B & C & _). unfold receive. rewrite A, B, C. cbn [fst snd]. rewrite with_same. reflexivity. Qed.
Lemma shown j s c : says_hello j s -> client_receive o j c = (c, [Shown s], Done).
Proof.
  intros H. apply is_notification_valid in H. destruct H as (V & M & P). rewrite (received_notification j c V). unfold receive_notification, notify_valid. rewrite M, P, andb_false_r. reflexivity.
Qed.
Lemma mask_refused j p c : is_notification j mining_set_version_mask p ->
  client_receive o j c = (c, [], Thrown) \/ (client_receive o j c = (c, [], Undefined) /\ exists s, p = [JString s] /\ length s = 8%nat /\ hex_read s = None).
Proof.
  intros H. apply is_notification_valid in H. destruct H as (V & M & P). rewrite (received_notification j c V). unfold receive_notification, notify_valid. rewrite M, P, andb_false_r. cbn [andb].
  destruct (set_mask_read p) as [[z|]|[]|] eqn:E; [exfalso|left; reflexivity|left; reflexivity|right; split; [reflexivity|]].
  - unfold set_mask_read in E. destruct p as [|[| | | | |s| |] [|]]; try discriminate E. exact (proj1 (mask_never s) z E).
  - unfold set_mask_read in E. destruct p as [|[| | | | |s| |] [|]]; try discriminate E. exists s. split; [reflexivity|]. apply (proj2 (mask_never s)). exact E.
Qed.
Lemma sub_read_defined j : sub_read j <> Undef.
Proof. unfold sub_read. destruct j as [| | | | | |l|]; try discriminate. destruct l as [|a [|b [|]]]; try discriminate; destruct a; try discriminate; cbn; destruct b; discriminate. Qed.
Lemma subscribed_defined l : subscribed_read l <> Undef.
Proof.
  assert (X : forall l, subs_read l <> Undef).
  { induction l0 as [|a l0 IH]; cbn [subs_read]; [discriminate|]. pose proof (sub_read_defined a). destruct (sub_read a) as [s|[]|]; cbn [bind]; try congruence. destruct (sub_valid s); [|discriminate]. destruct (subs_read l0) as [t|[]|]; cbn [bind]; congruence. }
  unfold subscribed_read. destruct l as [|a l]; [discriminate|]. destruct a as [| | | | | |subs|]; try discriminate. destruct l as [|i [|n [|z l]]]; try discriminate; destruct n; try discriminate. destruct (session_read i); [|discriminate]. pose proof (X subs). destruct (subs_read subs); cbn [bind]; congruence.
Qed.
Lemma client_undefined j c : snd (client_receive o j c) = Undefined <->
  (exists s n b, is_notification j mining_set_extranonce [JString s; JUint n] /\ hex_of b s /\ (4 < length b)%nat) \/
  (exists s, is_notification j mining_set_version_mask [JString s] /\ length s = 8%nat /\ forall b, ~ hex_of b s).
Proof.
  assert (NN : notification_valid j = false -> ~ ((exists s n b, is_notification j mining_set_extranonce [JString s; JUint n] /\ hex_of b s /\ (4 < length b)%nat) \/ (exists s, is_notification j mining_set_version_mask [JString s] /\ length s = 8%nat /\ forall b, ~ hex_of b s))).
  { intros V [(s & n & b & H & _)|(s & H & _)]; apply is_notification_valid in H; destruct H; congruence. }
  destruct (notification_valid j) eqn:V.
  - rewrite (received_notification j c V). assert (M : forall m p, is_notification j m p <-> msg_method j = m /\ msg_params j = p) by (intros m p; rewrite is_notification_valid; tauto).
    assert (E : snd (receive_notification j c) = Undefined <-> (msg_method j = mining_set_extranonce /\ set_extranonce_read (msg_params j) = Undef) \/ (msg_method j = mining_set_version_mask /\ set_mask_read (msg_params j) = Undef)).
    { unfold receive_notification. destruct (notify_valid j) eqn:W.
      - unfold notify_valid in W. rewrite !andb_true_iff in W. destruct W as [[_ W] _]. split; [discriminate|]. intros [[X _]|[X _]]; rewrite X in W; discriminate W.
      - destruct (msg_method j); try (split; [discriminate|intros [[X _]|[X _]]; discriminate X]).
        + destruct (whole_difficulty_valid _); (split; [discriminate|intros [[X _]|[X _]]; discriminate X]).
        + destruct (set_mask_read (msg_params j)) as [[z|]|[]|]; cbn [snd]; split; try discriminate; try (intros [[X _]|[_ X]]; discriminate X); auto.
        + destruct (set_extranonce_read (msg_params j)) as [[z|]|[]|]; cbn [snd]; split; try discriminate; try (intros [[_ X]|[X _]]; discriminate X); auto.
        + destruct (msg_params j) as [|[| | | | |s| |] [|]]; (split; [discriminate|intros [[X _]|[X _]]; discriminate X]). }
    rewrite E. split.
    + intros [[A B]|[A B]].
      * left. apply extranonce_undefined in B. destruct B as (s & n & b & P & Q). exists s, n, b. rewrite M. auto.
      * right. unfold set_mask_read in B. destruct (msg_params j) as [|[| | | | |s| |] [|]] eqn:P; try discriminate B. apply (proj1 (proj2 (mask_never s))) in B. exists s. rewrite M. split; [auto|]. split; [tauto|]. unfold hex_of. intros b. destruct B as [_ B]. rewrite B. discriminate.
    + intros [(s & n & b & H & Q)|(s & H & L & N)]; apply M in H; destruct H as [A P].
      * left. split; [exact A|]. apply extranonce_undefined. exists s, n, b. auto.
      * right. split; [exact A|]. rewrite P. cbn [set_mask_read]. apply (proj2 (proj2 (mask_never s))). split; [exact L|]. unfold hex_of in N. destruct (hex_read s) as [b|]; [exfalso; exact (N b eq_refl)|reflexivity].
  - specialize (NN eq_refl). split; [|tauto]. intros E. exfalso. revert E. destruct (receive_cases j c) as [(m & _ & ->)|(_ & _ & D)].
    + cbn zeta. cbn [snd]. set (c' := with_remote _ c). unfold receive_response. destruct m; try discriminate; destruct (msg_error j); try discriminate.
      * destruct (negb (boolean_valid j)); [discriminate|]. destruct (boolean_total j) as (b & -> & _). destruct b; discriminate.
      * destruct (msg_result j); try discriminate. pose proof (results_defined o0). destruct (results_of o0) as [x|[]|]; try discriminate; [|congruence]. rewrite receive_configure_exact. destruct (co_configure o) as [[|]|]; try discriminate. destruct (answer_of x); discriminate.
      * destruct (msg_result j); try discriminate. pose proof (subscribed_defined l). destruct (subscribed_read l) as [x|[]|]; try discriminate. congruence.
      * destruct (msg_result j) as [|[]| | | | | |]; discriminate.
    + destruct D as [[_ ->]|[[W _]|(_ & _ & _ & ->)]]; [discriminate|congruence|]. unfold receive_request. discriminate.
Qed.
End Client.

(* ---------------------------------------------------------------- the server *)
Section Server.
Variables (mem : bool) (less same : json -> json -> bool) (check : authorize_params -> option error).
Lemma server_keeps s x : sv_subscriptions s = [] -> sv_subscriptions (server_step mem less same check s x) = [].
Proof.
  intros E. destruct x; cbn [server_step]; try exact E.
  - unfold server_receive. destruct (snd (receive j (sv_remote s))); try exact E. unfold server_receive_response. destruct m; try exact E. destruct (negb (response_valid j0)); [exact E|]. destruct (msg_result j0); exact E.
  - unfold send_set_version_mask. destruct (match masks_get (sv_masks s) with Some z => (z =? x)%Z | None => false end); [exact E|]. destruct (masks_get _); exact E.
  - unfold send_set_difficulty. rewrite E. exact E.
  - unfold send_set_extranonce. rewrite E. exact E.
  - unfold server_authorize. destruct (negb (authorize_valid j)); [exact E|]. destruct (sv_name s); [exact E|]. destruct (authorize_read (msg_params j)) as [p|[]|]; cbn [bind]; try exact E. destruct (check p); exact E.
Qed.
Lemma never_subscribed l : sv_subscriptions (server_run mem less same check l) = [].
Proof.
  unfold server_run. assert (X : forall s, sv_subscriptions s = [] -> sv_subscriptions (fold_left (server_step mem less same check) l s) = []); [|apply X; reflexivity].
  induction l as [|x l IH]; intros s E; cbn [fold_left]; [exact E|]. apply IH. apply server_keeps. exact E.
Qed.
Lemma never_sets l : let s := server_run mem less same check l in
  (forall d, send_set_difficulty less same d s = (s, [], Thrown)) /\ (forall x, send_set_extranonce x s = (s, [], Thrown)).
Proof. cbn zeta. unfold send_set_difficulty, send_set_extranonce. rewrite never_subscribed. split; reflexivity. Qed.
End Server.

Lemma set_version_mask_exact mem x s :
  send_set_version_mask mem x s =
  if match masks_get (sv_masks s) with Some z => (z =? x)%Z | None => false end then (s, [], Done)
  else let s' := sv_set_masks (mkmasks x (mk_requested (sv_masks s))) s in
       match mask_make x (mk_requested (sv_masks s)) with
       | Some z => (s', [notification mining_set_extranonce [JString (mask_text mem z)]], Done)
       | None => (s', [], Undefined)
       end.
Proof. reflexivity. Qed.

Lemma authorize_inverted check j s p : authorize_valid j = true -> sv_name s = None -> authorize_read (msg_params j) = Ret p ->
  match check p with
  | Some _ => exists s', server_authorize check j s = Ret (s', boolean_response (msg_id j) true) /\ sv_name s' = Some (au_user p)
  | None => server_authorize check j s = Undef
  end.
Proof.
  intros V N R. unfold server_authorize. rewrite V, N, R. cbn [negb bind]. destruct (check p); [|reflexivity]. eexists. split; reflexivity.
Qed.
Lemma authorize_refuses check j s :
  (authorize_valid j = false -> server_authorize check j s = Ret (s, boolean_error (msg_id j) (error_of 27))) /\
  (authorize_valid j = true -> sv_name s <> None -> server_authorize check j s = Ret (s, boolean_error (msg_id j) (error_of 26))).
Proof.
  unfold server_authorize. split; [intros ->; reflexivity|]. intros -> N. cbn [negb]. destruct (sv_name s); [reflexivity|contradiction].
Qed.
Lemma server_response_exact j s :
  (exists k r e v, is_response j (JUint k) r e /\ r = JString v /\ tab_find k (rm_table (sv_remote s)) = Some client_get_version /\
     server_receive j s = (sv_set_version v (sv_with (fst (receive j (sv_remote s))) s), [], Done)) \/
  (snd (server_receive j s) = Thrown /\ sv_version (fst (fst (server_receive j s))) = sv_version s).
Proof.
  unfold server_receive. destruct (answers_dec j) as [[k A]|N].
  - pose proof (receive_answer k j (sv_remote s) A) as R. destruct (tab_find k (rm_table (sv_remote s))) as [m|] eqn:F; [|right; rewrite R; cbn [snd]; split; reflexivity]. rewrite R. cbn [fst snd].
    apply answers_exact in A. destruct A as [V I]. unfold server_receive_response. rewrite V. cbn [negb]. destruct m; try (right; split; reflexivity). destruct (msg_result j) eqn:Q; try (right; split; reflexivity).
    left. exists k, (JString s0), (msg_error j), s0. split; [apply response_exact; auto|]. split; [reflexivity|]. split; [exact F|reflexivity].
  - destruct (receive_other j (sv_remote s) N) as [E X]. right. destruct (snd (receive j (sv_remote s))) eqn:Z; try (split; reflexivity). exfalso. exact (X m j0 eq_refl).
Qed.

(* asking a client for its version *)
Lemma version_exchange o c s : rm_sending (sv_remote s) = [] ->
  let k := rm_requests (sv_remote s) in
  let q := snd (send_begin client_get_version [] (sv_remote s)) in
  let s1 := sv_with (send_finish 0 (fst (send_begin client_get_version [] (sv_remote s)))) s in
  let a := response (JUint k) (JString (co_version o)) in
  let b := response_error (JUint k) JNull (error_of 26) in
  client_receive o q c = (c, [Sent a; Sent b], Thrown) /\
  (exists s2, server_receive a s1 = (s2, [], Done) /\ sv_version s2 = Some (co_version o) /\ server_receive b s2 = (s2, [], Thrown)).
Proof.
  intros E. cbn zeta. set (k := rm_requests (sv_remote s)). assert (Ik : identifier (JUint k)) by (left; eauto). split.
  - unfold send_begin. cbn [snd]. fold k. rewrite (client_requests o _ (JUint k) client_get_version []); [reflexivity| |reflexivity].
    apply request_exact. destruct (request_back (JUint k) client_get_version [] Ik) as (A & B & C & D). assert (H : has_name client_get_version) by (unfold has_name; vm_compute; tauto). split; [apply D; exact H|]. split; [exact A|]. split; [apply C; auto|exact B].
  - unfold send_begin. cbn [fst]. rewrite E. cbn [app]. unfold send_finish. cbn [rm_sending nth_error rm_requests rm_table remove_nth]. fold k.
    set (s1 := sv_with _ s). set (a := response (JUint k) (JString (co_version o))). set (b := response_error (JUint k) JNull (error_of 26)).
    destruct (response_back (JUint k) (JString (co_version o)) Ik) as (Va & Ia & Ra & _). fold a in Va, Ia, Ra. assert (U : u32 (er_code (error_of 26))) by (unfold u32; vm_compute; reflexivity). destruct (response_error_back (JUint k) JNull (error_of 26) Ik U) as (Vb & Ib & _ & _). fold b in Vb, Ib.
    assert (Aa : answers k a) by (apply answers_exact; auto). assert (Ab : answers k b) by (apply answers_exact; auto).
    assert (F : tab_find k (rm_table (sv_remote s1)) = Some client_get_version) by (unfold s1; cbn [sv_with sv_remote rm_table]; rewrite tab_find_set, N.eqb_refl; reflexivity).
    pose proof (receive_answer k a (sv_remote s1) Aa) as R. rewrite F in R. unfold server_receive at 1. rewrite R. cbn [fst snd]. unfold server_receive_response. rewrite Va, Ra. cbn [negb]. eexists. split; [reflexivity|]. split; [reflexivity|].
    unfold server_receive. set (s2 := sv_set_version _ _). pose proof (receive_answer k b (sv_remote s2) Ab) as R2. assert (F2 : tab_find k (rm_table (sv_remote s2)) = None) by (unfold s2; cbn [sv_set_version sv_with sv_remote rm_table]; rewrite tab_find_del, N.eqb_refl; reflexivity).
    rewrite F2 in R2. rewrite R2. cbn [fst snd]. unfold s2. reflexivity.
Qed.
Lemma shares_exact mem o h : possible 0 (map (as_event mem) h) ->
  let y := client_run mem o h client_new in
  cl_submitted (fst y) = submits h mod 2 ^ 32 /\ cl_accepted (fst y) = shares_accepted (snd y) mod 2 ^ 32 /\ shares_accepted (snd y) <= submits h /\
  (submits h < 2 ^ 32 -> cl_accepted (fst y) <= cl_submitted (fst y)).
Proof.
  intros P. cbn zeta. destruct (share_counts mem o h P) as (A & B & C). split; [exact A|]. split; [exact B|]. split; [exact C|]. intros L. rewrite A, B, !N.mod_small by lia. exact C.
Qed.
Lemma authorized_new mem o h : cl_authorized (fst (client_run mem o h client_new)) = true <-> exists j, In (Handled mining_authorize j) (snd (client_run mem o h client_new)) /\ grants j.
Proof. rewrite authorized_exact. split; [intros [X|X]; [discriminate X|exact X]|auto]. Qed.
Lemma extensions_never mem o h :
  cl_mask (fst (client_run mem o h client_new)) = None /\ cl_minimum (fst (client_run mem o h client_new)) = None /\
  (cl_results (fst (client_run mem o h client_new)) <> None -> co_configure o = Some []).
Proof.
  destruct (never_learns mem o h client_new) as [-> ->]. split; [reflexivity|]. split; [reflexivity|]. intros N. destruct (results_only mem o h client_new) as [E|E]; [exfalso; apply N; exact E|exact E].
Qed.
Lemma server_never mem less same check l : let s := server_run mem less same check l in
  sv_subscriptions s = [] /\ (forall d, send_set_difficulty less same d s = (s, [], Thrown)) /\ (forall x, send_set_extranonce x s = (s, [], Thrown)).
Proof. exact (conj (never_subscribed mem less same check l) (never_sets mem less same check l)). Qed.
