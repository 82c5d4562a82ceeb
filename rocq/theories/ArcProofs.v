(* Proofs about the responses of ARC. *)
From Coq Require Import String Lia ZifyBool ZifyNat ZifyN.
From Verif Require Import Base BaseProofs WireModel MerkleModel TextModel TextSpec JsonModel ScriptModel MachineModel SighashModel ExtModel ExtSpec TscModel ArcModel ArcSpec.
Local Open Scope list_scope.
Local Open Scope N_scope.

Lemma get_holds k j v : j_get (text k) j = Some v <-> holds k j v.
Proof.
  unfold holds, j_get. split.
  - destruct j; try discriminate. intros E. exists o. split; [reflexivity|exact E].
  - intros (o & -> & E). exact E.
Qed.
Lemma at_holds k j v : at_key (text k) j = Ret v <-> holds k j v.
Proof.
  unfold holds, at_key. split.
  - destruct j; try discriminate. destruct (obj_find (text k) o) as [w|] eqn:E; [|discriminate]. intros X. exists o. split; [reflexivity|congruence].
  - intros (o & -> & E). rewrite E. reflexivity.
Qed.
Lemma at_undef k j : at_key (text k) j = Undef <-> (exists o, j = JObject o) /\ ~ exists v, holds k j v.
Proof.
  unfold holds, at_key. split.
  - destruct j; try discriminate. destruct (obj_find (text k) o) as [w|] eqn:E; [discriminate|]. intros _. split; [exists o; reflexivity|].
    intros (v & p & A & B). assert (p = o) as -> by congruence. congruence.
  - intros ((o & ->) & N). destruct (obj_find (text k) o) as [w|] eqn:E; [|reflexivity]. exfalso. apply N. exists w, o. split; [reflexivity|exact E].
Qed.
Lemma holds_one k j v w : holds k j v -> holds k j w -> v = w.
Proof. intros A B. apply get_holds in A. apply get_holds in B. congruence. Qed.
Lemma holds_object k j v : holds k j v -> is_object j = true.
Proof. intros (o & -> & _). reflexivity. Qed.
Lemma kind_exact test k j : has_kind test (text k) j = true <-> exists v, holds k j v /\ test v = true.
Proof.
  unfold has_kind. split.
  - destruct (j_get (text k) j) as [v|] eqn:E; [|discriminate]. intros T. exists v. split; [apply get_holds; exact E|exact T].
  - intros (v & A & T). apply get_holds in A. rewrite A. exact T.
Qed.
Lemma string_exact j : is_string j = true <-> exists s, j = JString s.
Proof. destruct j; split; try discriminate; try (intros (x & X); discriminate X); eauto. Qed.
Lemma boolean_exact j : is_boolean j = true <-> exists s, j = JBool s.
Proof. destruct j; split; try discriminate; try (intros (x & X); discriminate X); eauto. Qed.
Lemma unsigned_exact j : is_unsigned j = true <-> exists s, j = JUint s.
Proof. destruct j; split; try discriminate; try (intros (x & X); discriminate X); eauto. Qed.
Lemma object_exact j : is_object j = true <-> exists s, j = JObject s.
Proof. destruct j; split; try discriminate; try (intros (x & X); discriminate X); eauto. Qed.
Lemma number_exact j : is_number j = true <-> numeric j.
Proof.
  unfold numeric. destruct j; split; try discriminate; try (intros [(x & X)|[(x & X)|(x & X)]]; discriminate X);
    intros _; reflexivity || (left; eexists; reflexivity) || (right; left; eexists; reflexivity) || (right; right; eexists; reflexivity).
Qed.

(* ---------------------------------------------------------------- bodies *)
Lemma health_exact j : health_valid j = true <-> exists h v r, health_says j h v r.
Proof.
  unfold health_valid. change k_healthy with (text "healthy"). change k_version with (text "version"). change k_reason with (text "reason").
  rewrite !andb_true_iff, !kind_exact. split.
  - intros (((_ & (a & A & A')) & (b & B & B')) & (c & C & C')). apply boolean_exact in A'. destruct A' as (h & ->). apply string_exact in B'. destruct B' as (v & ->).
    apply orb_true_iff in C'. destruct C' as [X|X].
    + apply string_exact in X. destruct X as (r & ->). exists h, v, r. split; [exact A|]. split; [exact B|]. left. exact C.
    + destruct c; try discriminate X. exists h, v, []. split; [exact A|]. split; [exact B|]. right. split; [exact C|reflexivity].
  - intros (h & v & r & A & B & C). split; [split; [split|]|].
    + exact (holds_object _ _ _ A).
    + exists (JBool h). split; [exact A|reflexivity].
    + exists (JString v). split; [exact B|reflexivity].
    + destruct C as [C|[C _]]; [exists (JString r)|exists JNull]; (split; [exact C|reflexivity]).
Qed.
Lemma health_read j h v r : health_says j h v r -> health_healthy j = Ret h /\ health_version j = Ret v /\ health_reason j = Ret r.
Proof.
  intros (A & B & C). unfold health_healthy, health_version, health_reason. change k_healthy with (text "healthy"). change k_version with (text "version"). change k_reason with (text "reason").
  apply at_holds in A. apply at_holds in B. rewrite A, B. split; [reflexivity|]. split; [reflexivity|].
  destruct C as [C|[C ->]]; apply at_holds in C; rewrite C; reflexivity.
Qed.
Lemma policy_exact j : policy_valid j = true <-> exists a b c m, policy_says j a b c m.
Proof.
  unfold policy_valid. change k_script_size with (text "maxscriptsizepolicy"). change k_sigops with (text "maxtxsigopscountspolicy"). change k_tx_size with (text "maxtxsizepolicy"). change k_mining_fee with (text "miningFee").
  rewrite !andb_true_iff, !kind_exact. split.
  - intros ((((_ & (a & A & A')) & (b & B & B')) & (c & C & C')) & (m & M & M')). exists a, b, c, m. apply number_exact in A'. apply number_exact in B'. apply number_exact in C'. apply object_exact in M'.
    unfold policy_says. tauto.
  - intros (a & b & c & m & A & A' & B & B' & C & C' & M & M'). split; [split; [split; [split|]|]|].
    + exact (holds_object _ _ _ A).
    + exists a. split; [exact A|]. apply number_exact. exact A'.
    + exists b. split; [exact B|]. apply number_exact. exact B'.
    + exists c. split; [exact C|]. apply number_exact. exact C'.
    + exists m. split; [exact M|]. apply object_exact. exact M'.
Qed.
Lemma status_exact j : status_valid j = true <-> a_status j.
Proof.
  unfold status_valid, a_status, status_says. change k_block_hash with (text "blockHash"). change k_block_height with (text "blockHeight"). change k_txid with (text "txid"). change k_merkle_path with (text "merklePath"). change k_tx_status with (text "txStatus").
  rewrite !andb_true_iff, !kind_exact. split.
  - intros ((((( h & A & A') & (n & B & B')) & (t & C & C')) & (p & D & D')) & (s & E & E')).
    apply string_exact in A'. destruct A' as (h' & ->). apply unsigned_exact in B'. destruct B' as (n' & ->). apply string_exact in C'. destruct C' as (t' & ->).
    apply string_exact in D'. destruct D' as (p' & ->). apply string_exact in E'. destruct E' as (s' & ->). exists h', n', t', p', s'. tauto.
  - intros (h & n & t & p & s & A & B & C & D & E). split; [split; [split; [split|]|]|]; eexists; (split; [eassumption|reflexivity]).
Qed.
Lemma success_exact j : success_valid j = true <-> stamped j.
Proof.
  unfold success_valid, stamped. change k_timestamp with (text "timestamp"). rewrite andb_true_iff. split.
  - intros (_ & X). destruct (j_get (text "timestamp") j) as [v|] eqn:E; [|discriminate X]. exists v. apply get_holds. exact E.
  - intros (v & A). split; [exact (holds_object _ _ _ A)|]. apply get_holds in A. rewrite A. reflexivity.
Qed.

Section Proofs.
Variable parse : bytes -> option json.
Variable error_ok : json -> bool.

(* ---------------------------------------------------------------- responses *)
Lemma valid_exact r : arc_valid parse r = true <->
  (ht_status r = 401 /\ ht_body r = []) \/ ht_type r = Some (text "application/json") \/ exists j, parse (ht_body r) = Some j.
Proof.
  unfold arc_valid, arc_body. rewrite !orb_true_iff, andb_true_iff, N.eqb_eq, bytes_eqb_eq.
  assert (A : match ht_type r with Some t => bytes_eqb t t_json | None => false end = true <-> ht_type r = Some (text "application/json")).
  { change t_json with (text "application/json"). destruct (ht_type r) as [t|]; [rewrite bytes_eqb_eq|]; split; intros X; congruence. }
  rewrite A. assert (B : some (parse (ht_body r)) = true <-> exists j, parse (ht_body r) = Some j).
  { destruct (parse (ht_body r)) as [j|]; split; try discriminate; [intros _; exists j; reflexivity|reflexivity|intros (j & X); discriminate X]. }
  rewrite B. reflexivity.
Qed.
Lemma error_never r n : arc_error parse error_ok n r = None.
Proof. induction n as [|n IH]; [reflexivity|]. cbn [arc_error]. rewrite IH. reflexivity. Qed.

Lemma kind_of (v : json -> bool) (P : json -> Prop) r : (forall j, v j = true <-> P j) ->
  (if arc_valid parse r then match arc_body parse r with Some b => v b | None => true end else false) = true <->
  arc_valid parse r = true /\ forall j, parse (ht_body r) = Some j -> P j.
Proof.
  intros E. unfold arc_body. destruct (arc_valid parse r); [|split; [discriminate|intros [X _]; discriminate X]]. destruct (parse (ht_body r)) as [b|]; split.
  - intros X. split; [reflexivity|]. intros j J. assert (j = b) as -> by congruence. apply E. exact X.
  - intros (_ & X). apply E. apply X. reflexivity.
  - intros _. split; [reflexivity|]. intros j J. discriminate J.
  - reflexivity.
Qed.
Lemma health_response_exact r : health_response_valid parse r = true <->
  arc_valid parse r = true /\ forall j, parse (ht_body r) = Some j -> exists h v s, health_says j h v s.
Proof. unfold health_response_valid. apply kind_of. intros j. apply health_exact. Qed.
Lemma policy_response_exact r : policy_response_valid parse r = true <->
  arc_valid parse r = true /\ forall j, parse (ht_body r) = Some j -> stamped j /\ exists p a b c m, holds "policy" j p /\ policy_says p a b c m.
Proof.
  unfold policy_response_valid.
  apply (kind_of (fun b => success_valid b && match j_get k_policy b with Some p => policy_valid p | None => false end)
    (fun j => stamped j /\ exists p a b c m, holds "policy" j p /\ policy_says p a b c m)).
  intros j. rewrite andb_true_iff, success_exact. change k_policy with (text "policy"). split.
  - intros (A & B). split; [exact A|]. destruct (j_get (text "policy") j) as [p|] eqn:E; [|discriminate B]. apply policy_exact in B. destruct B as (a & b & c & m & B).
    exists p, a, b, c, m. split; [apply get_holds; exact E|exact B].
  - intros (A & p & a & b & c & m & B & C). split; [exact A|]. apply get_holds in B. rewrite B. apply policy_exact. exists a, b, c, m. exact C.
Qed.
Lemma ok_cases r : arc_is_error r = false <-> ht_status r = 200.
Proof. unfold arc_is_error. lia. Qed.
Lemma status_response_exact r : status_response_valid parse error_ok r = true <->
  arc_valid parse r = true /\ forall j, parse (ht_body r) = Some j ->
    (ht_status r = 200 /\ stamped j /\ a_status j) \/ (ht_status r = 404 /\ error_ok j = true) \/ ht_status r = 409.
Proof.
  unfold status_response_valid.
  apply (kind_of (fun b => if arc_is_error r then (error_ok b && (ht_status r =? 404)) || (ht_status r =? 409) else success_valid b && status_valid b)).
  intros j. destruct (arc_is_error r) eqn:E.
  - assert (N : ht_status r <> 200) by (intros X; apply ok_cases in X; congruence). rewrite orb_true_iff, andb_true_iff, !N.eqb_eq. tauto.
  - apply ok_cases in E. rewrite andb_true_iff, success_exact, status_exact. rewrite E. split; [tauto|]. intros [X|[(X & _)|X]]; [tauto|discriminate X|discriminate X].
Qed.
Lemma statuses_in s : In s error_statuses <-> s = 409 \/ s = 422 \/ 460 <= s <= 469 \/ s = 473.
Proof. unfold error_statuses. cbn [In]. lia. Qed.
Lemma submit_response_exact r : submit_response_valid parse error_ok r = true <->
  arc_valid parse r = true /\ forall j, parse (ht_body r) = Some j ->
    (ht_status r = 200 /\ stamped j /\ a_status j) \/ (ht_status r = 400 /\ error_ok j = true) \/ In (ht_status r) error_statuses.
Proof.
  unfold submit_response_valid. cbn zeta.
  apply (kind_of (fun b => if arc_is_error r then (error_ok b && (ht_status r =? 400)) || (ht_status r =? 409) || (ht_status r =? 422) || (ht_status r =? 409) || ((460 <=? ht_status r) && (ht_status r <=? 469)) || (ht_status r =? 473)
    else success_valid b && status_valid b)).
  intros j. rewrite statuses_in. destruct (arc_is_error r) eqn:E.
  - assert (N : ht_status r <> 200) by (intros X; apply ok_cases in X; congruence). rewrite !orb_true_iff, !andb_true_iff, !N.eqb_eq, !N.leb_le. tauto.
  - apply ok_cases in E. rewrite andb_true_iff, success_exact, status_exact. rewrite E. split; [tauto|]. intros [X|[(X & _)|X]]; [tauto|discriminate X|lia].
Qed.
Lemma submit_txs_response_exact r : submit_txs_response_valid parse error_ok r = true <->
  arc_valid parse r = true /\ forall j, parse (ht_body r) = Some j ->
    (ht_status r = 200 /\ exists l, j = JArray l /\ forall s, In s l -> a_status s) \/ (ht_status r = 400 /\ error_ok j = true) \/ (In (ht_status r) error_statuses /\ ht_status r <> 422).
Proof.
  unfold submit_txs_response_valid. cbn zeta.
  apply (kind_of (fun b => if arc_is_error r then (error_ok b && (ht_status r =? 400)) || (ht_status r =? 409) || (ht_status r =? 409) || ((460 <=? ht_status r) && (ht_status r <=? 469)) || (ht_status r =? 473)
    else match b with JArray l => forallb status_valid l | _ => false end)).
  intros j. rewrite statuses_in. destruct (arc_is_error r) eqn:E.
  - assert (N : ht_status r <> 200) by (intros X; apply ok_cases in X; congruence). rewrite !orb_true_iff, !andb_true_iff, !N.eqb_eq, !N.leb_le. split.
    + intros [[[[(X & Y)|X]|X]|X]|X]; try (right; right; lia). right. left. split; [exact Y|exact X].
    + intros [(X & _)|[(X & Y)|(X & Y)]]; [contradiction|tauto|]. destruct X as [X|[X|[X|X]]]; [tauto|contradiction|tauto|tauto].
  - apply ok_cases in E. rewrite E. split.
    + intros X. destruct j as [| | | | | |l|]; try discriminate X. left. split; [reflexivity|]. exists l. split; [reflexivity|]. intros s I. apply status_exact. rewrite forallb_forall in X. exact (X s I).
    + intros [(_ & l & -> & X)|[(X & _)|X]]; [|discriminate X|lia]. apply forallb_forall. intros s I. apply status_exact. exact (X s I).
Qed.

(* ---------------------------------------------------------------- what is read from a response *)
Lemma read_undefined r :
  (health_of parse r = Undef <-> ht_status r = 200 /\ parse (ht_body r) = None) /\
  (status_of parse r = Undef <-> parse (ht_body r) = None) /\
  (statuses_of parse r = Undef <-> parse (ht_body r) = None) /\
  (policy_of parse r = Undef <-> parse (ht_body r) = None \/ exists o, parse (ht_body r) = Some (JObject o) /\ obj_find (text "policy") o = None) /\
  (timestamp_of parse r = Undef <-> parse (ht_body r) = None \/ exists o, parse (ht_body r) = Some (JObject o) /\ obj_find (text "timestamp") o = None).
Proof.
  unfold health_of, status_of, statuses_of, policy_of, timestamp_of, arc_timestamp, arc_deref, arc_body. split; [|split; [|split; [|split]]].
  - destruct (arc_is_error r) eqn:E.
    + split; [discriminate|]. intros (X & _). apply ok_cases in X. congruence.
    + apply ok_cases in E. destruct (parse (ht_body r)); split; try discriminate; try tauto. intros (_ & X). discriminate X.
  - destruct (parse (ht_body r)); split; (discriminate || reflexivity).
  - destruct (parse (ht_body r)); split; (discriminate || reflexivity).
  - destruct (parse (ht_body r)) as [j|]; [|split; [intros _; left; reflexivity|reflexivity]]. unfold and_then. change k_policy with (text "policy"). rewrite at_undef. split.
    + intros ((o & ->) & N). right. exists o. split; [reflexivity|]. destruct (obj_find (text "policy") o) as [v|] eqn:E; [|reflexivity]. exfalso. apply N. exists v, o. split; [reflexivity|exact E].
    + intros [X|(o & X & Y)]; [discriminate X|]. assert (j = JObject o) as -> by congruence. split; [exists o; reflexivity|]. intros (v & p & A & B). assert (p = o) as -> by congruence. congruence.
  - destruct (parse (ht_body r)) as [j|]; [|split; [intros _; left; reflexivity|reflexivity]]. unfold and_then. change k_timestamp with (text "timestamp").
    destruct (at_key (text "timestamp") j) as [v|u|] eqn:E.
    + apply at_holds in E. split; [destruct v; discriminate|]. intros [X|(o & X & Y)]; [discriminate X|]. assert (j = JObject o) as -> by congruence. destruct E as (p & A & B). assert (p = o) as -> by congruence. congruence.
    + split; [discriminate|]. intros [X|(o & X & Y)]; [discriminate X|]. assert (j = JObject o) as -> by congruence. unfold at_key in E. rewrite Y in E. discriminate E.
    + apply at_undef in E. destruct E as ((o & ->) & N). split; [|reflexivity]. intros _. right. exists o. split; [reflexivity|].
      destruct (obj_find (text "timestamp") o) as [v|] eqn:E; [|reflexivity]. exfalso. apply N. exists v, o. split; [reflexivity|exact E].
Qed.
Lemma unread b : parse b = None ->
  let r := mkhttp 200 (Some (text "application/json")) b in
  health_response_valid parse r = true /\ policy_response_valid parse r = true /\ status_response_valid parse error_ok r = true /\
  submit_response_valid parse error_ok r = true /\ submit_txs_response_valid parse error_ok r = true /\
  health_of parse r = Undef /\ policy_of parse r = Undef /\ timestamp_of parse r = Undef /\ status_of parse r = Undef /\ statuses_of parse r = Undef.
Proof.
  intros E r. assert (V : arc_valid parse r = true) by (apply valid_exact; right; left; reflexivity).
  assert (P : parse (ht_body r) = None) by exact E. destruct (read_undefined r) as (A & B & C & D & F).
  split; [apply health_response_exact; split; [exact V|intros j J; congruence]|].
  split; [apply policy_response_exact; split; [exact V|intros j J; congruence]|].
  split; [apply status_response_exact; split; [exact V|intros j J; congruence]|].
  split; [apply submit_response_exact; split; [exact V|intros j J; congruence]|].
  split; [apply submit_txs_response_exact; split; [exact V|intros j J; congruence]|].
  split; [apply A; split; [reflexivity|exact P]|]. split; [apply D; left; exact P|]. split; [apply F; left; exact P|]. split; [apply B; exact P|apply C; exact P].
Qed.
(* a valid response of status 200 with a body *)
Lemma health_answer r j : ht_status r = 200 -> parse (ht_body r) = Some j -> health_response_valid parse r = true ->
  health_of parse r = Ret j /\ exists h v s, health_says j h v s /\ health_healthy j = Ret h /\ health_version j = Ret v /\ health_reason j = Ret s.
Proof.
  intros S P V. apply health_response_exact in V. destruct V as (_ & V). destruct (V j P) as (h & v & s & W). split.
  - unfold health_of, arc_deref, arc_body. apply ok_cases in S. rewrite S, P. reflexivity.
  - exists h, v, s. split; [exact W|]. exact (health_read _ _ _ _ W).
Qed.
Lemma health_failed r : ht_status r <> 200 -> health_of parse r = Ret JNull /\ health_healthy JNull = Throw tt /\ health_version JNull = Throw tt /\ health_reason JNull = Throw tt.
Proof.
  intros N. unfold health_of. destruct (arc_is_error r) eqn:E; [|apply ok_cases in E; contradiction]. split; [reflexivity|]. split; [reflexivity|]. split; reflexivity.
Qed.
Lemma statuses_answer r j : ht_status r = 200 -> parse (ht_body r) = Some j -> submit_txs_response_valid parse error_ok r = true ->
  exists l, j = JArray l /\ statuses_of parse r = Ret l /\ forall s, In s l -> a_status s.
Proof.
  intros S P V. apply submit_txs_response_exact in V. destruct V as (_ & V). destruct (V j P) as [(_ & l & -> & W)|[(X & _)|(X & _)]].
  - exists l. split; [reflexivity|]. split; [|exact W]. unfold statuses_of, arc_deref, arc_body. rewrite P. reflexivity.
  - rewrite S in X. discriminate X.
  - apply statuses_in in X. lia.
Qed.
Lemma policy_answer r j : parse (ht_body r) = Some j -> policy_response_valid parse r = true ->
  exists p a b c m, policy_of parse r = Ret p /\ policy_says p a b c m /\ holds "policy" j p.
Proof.
  intros P V. apply policy_response_exact in V. destruct V as (_ & V). destruct (V j P) as (_ & p & a & b & c & m & A & B).
  exists p, a, b, c, m. split; [|split; [exact B|exact A]]. unfold policy_of, arc_deref, arc_body. rewrite P. cbn [and_then]. apply at_holds in A. exact A.
Qed.
End Proofs.
