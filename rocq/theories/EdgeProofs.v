(* Edges that other properties leave open. *)
From Coq Require Import String Lia ZifyBool ZifyNat ZifyN.
From Verif Require Import Base BaseProofs TextModel.
From Verif Require WireModel WireSpec ExtModel ArcModel ArcRequests TscModel WorkModel WorkProofs MerkleModel ScriptModel BoostModel BoostSpec BoostProofs BoostTotal MapiRequestModel StratumModel StratumSessionModel.
Local Open Scope N_scope.

(* ---- ARC ---- *)
Theorem bytes_undefined t : ExtModel.xtx_bytes t = None <-> ExtModel.xtx_size t < len (ExtModel.xtx_write t).
Proof. unfold ExtModel.xtx_bytes, buffer_write. destruct (N.ltb_spec (ExtModel.xtx_size t) (len (ExtModel.xtx_write t))); split; try discriminate; try lia; reflexivity. Qed.
Theorem body_undefined dump u1 c t : ArcModel.tx_body dump u1 c t = Undef <-> c <> ArcModel.COther /\ ExtModel.xtx_size t < len (ExtModel.xtx_write t).
Proof.
  rewrite <- bytes_undefined. unfold ArcModel.tx_body, ArcModel.tx_json, ArcModel.tx_octets.
  destruct c, (ExtModel.xtx_bytes t); cbn; split; intros X; try discriminate X; try (split; [discriminate|reflexivity]); try (destruct X as (X & Y); (discriminate Y || congruence)); reflexivity.
Qed.
Theorem submit_undefined dump u1 base t s : ArcModel.submit_tx dump u1 base t s = Undef <->
  (exists l, ArcModel.headers s = Ret l) /\ ExtModel.xtx_size t < len (ExtModel.xtx_write t).
Proof.
  unfold ArcModel.submit_tx. pose proof (body_undefined dump u1 (ArcModel.sm_content s) t) as B.
  pose proof (ArcRequests.headers_defined s) as D. pose proof (ArcRequests.headers_thrown s) as T.
  destruct (ArcModel.headers s) as [l|e|] eqn:E; cbn.
  - destruct (proj1 D (ex_intro _ l eq_refl)) as (C & _). destruct (ArcModel.tx_body dump u1 (ArcModel.sm_content s) t) as [b|e|]; cbn.
    + split; [discriminate|]. intros (_ & X). assert (Y := proj2 B (conj C X)). discriminate Y.
    + split; [discriminate|]. intros (_ & X). assert (Y := proj2 B (conj C X)). discriminate Y.
    + split; [intros _; split; [eauto|apply B; reflexivity]|reflexivity].
  - split; [discriminate|]. intros ((l & X) & _). discriminate X.
  - exfalso.
    assert (K : ArcModel.sm_content s = ArcModel.COther \/ ArcModel.sm_content s <> ArcModel.COther) by (destruct (ArcModel.sm_content s); (left; reflexivity) || (right; discriminate)).
    destruct K as [K|K]; [assert (X := proj2 T (or_introl K)); discriminate X|].
    assert (W : (exists n, ArcModel.sm_wait s = Some n /\ ~ 2 <= n <= 8) \/ (forall n, ArcModel.sm_wait s = Some n -> 2 <= n <= 8)).
    { destruct (ArcModel.sm_wait s) as [n|]; [|right; discriminate]. destruct (N.leb_spec 2 n); [destruct (N.leb_spec n 8)|].
      - right. intros k Q. assert (k = n) by congruence. lia.
      - left. exists n. split; [reflexivity|lia].
      - left. exists n. split; [reflexivity|lia]. }
    destruct W as [W|W]; [assert (X := proj2 T (or_intror W)); discriminate X|]. destruct (proj2 D (conj K W)) as (l & X). discriminate X.
Qed.
Theorem paths_exact u2 base : ArcModel.policy_path base = base ++ text "/v1/policy" /\ ArcModel.health_path base = base ++ text "/v1/health" /\
  forall d, ArcModel.status_path u2 base d = base ++ text "/v1/tx/" ++ TscModel.hex_of u2 (rev d).
Proof. split; [reflexivity|]. split; reflexivity. Qed.
Theorem waits_exact : map ArcModel.wait_text [2; 3; 4; 5; 6; 7; 8] =
  map Ret [text "RECEIVED"; text "STORED"; text "ANNOUNCED_TO_NETWORK"; text "REQUESTED_BY_NETWORK"; text "SENT_TO_NETWORK"; text "ACCEPTED_BY_NETWORK"; text "SEEN_ON_NETWORK"].
Proof. reflexivity. Qed.

(* ---- MAPI ---- *)
Theorem mapi_paths get : MapiRequestModel.policy_request get = MapiRequestModel.mkrequest false (get (text "/mapi/policyQuote")) None MapiRequestModel.BNone /\
  MapiRequestModel.fee_request get = MapiRequestModel.mkrequest false (get (text "/mapi/feeQuote")) None MapiRequestModel.BNone.
Proof. split; reflexivity. Qed.

(* ---- proofs of work ---- *)
Theorem rebuilt_fields H w mp h n1 n2 b : WireModel.h_merkle_root w = H (h ++ be 4 n1 ++ n2 ++ b) ->
  WorkModel.wproof_of_string H w mp h n1 n2 b =
  {| WorkModel.wp_puzzle := {| WorkModel.pz_candidate := {| WorkModel.ca_category := WireModel.h_version w; WorkModel.ca_digest := WireModel.h_previous w;
                                                            WorkModel.ca_target := WireModel.h_target w; WorkModel.ca_path := MerkleModel.mkpath 0 [] |};
                               WorkModel.pz_header := h; WorkModel.pz_body := b; WorkModel.pz_mask := -1 |};
     WorkModel.wp_solution := {| WorkModel.so_share := {| WorkModel.sh_timestamp := WireModel.h_timestamp w; WorkModel.sh_nonce := WireModel.h_nonce w;
                                                          WorkModel.sh_extra2 := n2; WorkModel.sh_bits := None |};
                                 WorkModel.so_extra1 := n1 |} |}.
Proof.
  intros E. unfold WorkModel.wproof_of_string. cbv zeta.
  match goal with |- (if bytes_eqb _ ?r then _ else _) = _ => replace r with (H (h ++ be 4 n1 ++ n2 ++ b)) by reflexivity end.
  rewrite E. rewrite (proj2 (bytes_eqb_eq _ _) eq_refl). reflexivity.
Qed.

(* ---- the version of a boost output ---- *)
Theorem version_exact neg1 s : len neg1 < 4 ->
  (BoostModel.output_version neg1 s = Ret 1%Z <-> exists o, BoostSpec.sound_output o /\ BoostSpec.output_form neg1 o s /\ BoostModel.bo_type o = BoostModel.Bounty) /\
  (BoostModel.output_version neg1 s = Ret 2%Z <-> exists o, BoostSpec.sound_output o /\ BoostSpec.output_form neg1 o s /\ BoostModel.bo_type o = BoostModel.Contract) /\
  (BoostModel.output_version neg1 s = Ret 0%Z <-> (exists o, BoostModel.output_read neg1 s = Ret o) /\ ~ exists o, BoostSpec.sound_output o /\ BoostSpec.output_form neg1 o s).
Proof.
  intros Ng. pose proof (fun o => BoostProofs.output_exact neg1 s o Ng) as X. unfold BoostModel.output_version.
  destruct (BoostModel.output_read neg1 s) as [o|e|] eqn:R.
  2, 3: (split; [|split]; split; try discriminate; [intros (o & A & B & _)|intros (o & A & B & _)|intros ((o & A) & _); discriminate A];
      destruct (proj2 (X o) (conj A B)) as (Y & _); discriminate Y).
  assert (Only : forall o', BoostSpec.sound_output o' -> BoostSpec.output_form neg1 o' s -> o' = o) by (intros o' A B; destruct (proj2 (X o') (conj A B)) as (Y & _); congruence).
  assert (V : BoostModel.bo_type o <> BoostModel.Invalid -> BoostSpec.sound_output o /\ BoostSpec.output_form neg1 o s).
  { intros Z. apply X. split; [reflexivity|]. unfold BoostModel.output_valid. destruct (BoostModel.bo_type o); [congruence|reflexivity|reflexivity]. }
  assert (V' : BoostSpec.sound_output o -> BoostSpec.output_form neg1 o s -> BoostModel.bo_type o <> BoostModel.Invalid).
  { intros A B Z. destruct (proj2 (X o) (conj A B)) as (_ & Y). unfold BoostModel.output_valid in Y. rewrite Z in Y. discriminate Y. }
  destruct (BoostModel.bo_type o) eqn:T; cbn [BoostModel.btype_number].
  - split; [|split]; split; try discriminate.
    + intros (o' & A & B & C). assert (o' = o) by auto. subst o'. congruence.
    + intros (o' & A & B & C). assert (o' = o) by auto. subst o'. congruence.
    + intros _. split; [eauto|]. intros (o' & A & B). assert (o' = o) by auto. subst o'. exact (V' A B eq_refl).
    + reflexivity.
  - destruct V as (A & B); [discriminate|]. split; [|split]; split; try discriminate; try reflexivity.
    + intros _. exists o. auto.
    + intros (o' & A' & B' & C). assert (o' = o) by auto. subst o'. congruence.
    + intros (_ & N). exfalso. apply N. eauto.
  - destruct V as (A & B); [discriminate|]. split; [|split]; split; try discriminate; try reflexivity.
    + intros (o' & A' & B' & C). assert (o' = o) by auto. subst o'. congruence.
    + intros _. exists o. auto.
    + intros (_ & N). exfalso. apply N. eauto.
Qed.

(* ---- what a server announces ---- *)
Lemma extra_eqb_eq a b : StratumSessionModel.extra_eqb a b = true <-> a = b.
Proof.
  destruct a as [a1 a2], b as [b1 b2]. unfold StratumSessionModel.extra_eqb. cbn [StratumModel.en_1 StratumModel.en_2_size]. rewrite Bool.andb_true_iff, !N.eqb_eq.
  split; [intros (-> & ->); reflexivity|]. intros X. split; congruence.
Qed.
Theorem extranonce_announced x s : StratumSessionModel.sv_subscriptions s <> [] ->
  (StratumSessionModel.sv_next_extranonce s = x \/ StratumSessionModel.sv_next_extranonce s = StratumModel.mkextra 0 0 /\ StratumSessionModel.sv_extranonce s = x ->
     StratumSessionModel.send_set_extranonce x s = (s, [], StratumSessionModel.Done)) /\
  (StratumSessionModel.sv_next_extranonce s <> x -> StratumSessionModel.sv_next_extranonce s <> StratumModel.mkextra 0 0 \/ StratumSessionModel.sv_extranonce s <> x ->
     StratumSessionModel.send_set_extranonce x s =
     (StratumSessionModel.sv_set_next_extranonce x s, [StratumModel.notification StratumModel.mining_set_extranonce (StratumModel.set_extranonce_write x)], StratumSessionModel.Done)).
Proof.
  intros N. unfold StratumSessionModel.send_set_extranonce. destruct (StratumSessionModel.sv_subscriptions s); [congruence|].
  change StratumModel.extra_none with (StratumModel.mkextra 0 0). 
  set (n := StratumSessionModel.sv_next_extranonce s). set (e := StratumSessionModel.sv_extranonce s).
  split.
  - intros [A|(A & B)].
    + rewrite (proj2 (extra_eqb_eq n x) A). reflexivity.
    + rewrite (proj2 (extra_eqb_eq n _) A), (proj2 (extra_eqb_eq e x) B). cbn [andb]. rewrite Bool.orb_true_r. reflexivity.
  - intros A B. destruct (StratumSessionModel.extra_eqb n x) eqn:E1; [apply extra_eqb_eq in E1; congruence|]. cbn [orb].
    destruct (StratumSessionModel.extra_eqb n (StratumModel.mkextra 0 0)) eqn:E2; [|reflexivity]. cbn [andb].
    destruct (StratumSessionModel.extra_eqb e x) eqn:E3; [|reflexivity]. apply extra_eqb_eq in E2, E3. exfalso. destruct B; congruence.
Qed.
Theorem difficulty_announced less same d s : StratumSessionModel.sv_subscriptions s <> [] ->
  StratumSessionModel.send_set_difficulty less same d s =
  if match StratumSessionModel.sv_minimum s with Some m => less d m | None => false end || same d (StratumSessionModel.sv_next_difficulty s)
  then (s, [], StratumSessionModel.Done)
  else (StratumSessionModel.sv_set_next d s, [StratumModel.notification StratumModel.mining_set_difficulty (StratumModel.set_difficulty_write d)], StratumSessionModel.Done).
Proof.
  intros N. unfold StratumSessionModel.send_set_difficulty. destruct (StratumSessionModel.sv_subscriptions s); [congruence|].
  destruct (match StratumSessionModel.sv_minimum s with Some m => less d m | None => false end); [reflexivity|]. destruct (same d _); reflexivity.
Qed.
