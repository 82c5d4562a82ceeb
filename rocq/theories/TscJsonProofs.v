(* Proofs about the JSON form of TSC proofs. *)
From Coq Require Import String Lia ZifyBool ZifyNat ZifyN.
From Verif Require Import Base BaseProofs WireModel WireSpec WireProofs MerkleModel TextModel TextSpec TextProofs TextFormProofs JsonModel EnvelopeProofs StratumFields SpvModel TscModel TscSpec TscBinaryProofs.
Local Open Scope list_scope.
Local Open Scope N_scope.

Lemma is_text_exact j s : is_text j s = true <-> j = JString s.
Proof.
  split.
  - destruct j as [| | | | |t| |]; cbn [is_text]; try discriminate. intros E. apply bytes_eqb_eq in E. congruence.
  - intros ->. cbn [is_text]. apply bytes_eqb_eq. reflexivity.
Qed.
Lemma hex_valid_exact s : hex_valid s = true <-> hex_read s <> None.
Proof. unfold hex_valid, some. destruct (hex_read s); split; congruence. Qed.
Lemma rev_eq (a b : bytes) : rev a = b <-> a = rev b.
Proof. split; intros E; [rewrite <- E, rev_involutive|rewrite E, rev_involutive]; reflexivity. Qed.
Lemma hex_64 s b : hex_read s = Some b -> (length s = 64%nat <-> length b = 32%nat).
Proof. intros E. apply hex_read_length in E. lia. Qed.

Section Tsc.
Variable u1 u2 : bool.
Variable odd : bytes -> option digest.

Lemma hex_of_read b : hex_read (hex_of u1 b) = Some b.
Proof. unfold hex_of. destruct u1; [apply hex_read_upper|apply hex_read_write]. Qed.
Lemma digest_text_read d : hex_read (digest_text u2 d) = Some (rev d).
Proof. unfold digest_text. destruct u2; [apply hex_read_upper|apply hex_read_write]. Qed.
Lemma hex_of_length b : length (hex_of u1 b) = (2 * length b)%nat.
Proof. apply hex_read_length. apply hex_of_read. Qed.
Lemma digest_text_length d : length (digest_text u2 d) = (2 * length d)%nat.
Proof. rewrite <- (rev_length d). apply hex_read_length. apply digest_text_read. Qed.

(* ---------------------------------------------------------------- parts *)
Lemma read_digest_exact s d : read_digest odd s = Ret d <-> digest_says odd s d.
Proof.
  unfold read_digest, digest_says. destruct (length s =? 64)%nat eqn:L.
  - apply Nat.eqb_eq in L. destruct (hex_read s) as [b|] eqn:E.
    + split.
      * intros X. left. split; [exact L|]. assert (rev b = d) as <- by congruence. rewrite rev_involutive. reflexivity.
      * intros [[_ X]|[[X|X] _]]; try congruence. assert (b = rev d) as -> by congruence. rewrite rev_involutive. reflexivity.
    + destruct (odd s) as [x|]; split; try congruence; intros X.
      * right. split; [right; reflexivity|congruence].
      * destruct X as [[_ X]|[_ X]]; congruence.
      * destruct X as [[_ X]|[_ X]]; congruence.
  - apply Nat.eqb_neq in L. destruct (odd s) as [x|]; split; try congruence; intros X.
    + right. split; [left; exact L|congruence].
    + destruct X as [[X _]|[_ X]]; congruence.
    + destruct X as [[X _]|[_ X]]; congruence.
Qed.
Lemma read_digest_total s : (exists d, read_digest odd s = Ret d) \/ read_digest odd s = Throw tt.
Proof. unfold read_digest. destruct (if (length s =? 64)%nat then hex_read s else None); [left; eauto|]. destruct (odd s); [left; eauto|right; reflexivity]. Qed.

Lemma node_ok_exact j : node_ok j = true <-> exists d, node_says j d.
Proof.
  split.
  - destruct j as [| | | | |s| |]; cbn [node_ok]; try discriminate. intros E. destruct (bytes_eqb s s_star) eqn:S.
    + apply bytes_eqb_eq in S. exists None. cbn [node_says]. rewrite S. reflexivity.
    + cbn [orb] in E. apply andb_true_iff in E. destruct E as [V L]. apply Nat.eqb_eq in L. unfold hex_valid, some in V. destruct (hex_read s) as [b|] eqn:R; [|discriminate].
      exists (Some (rev b)). cbn [node_says]. exists s. rewrite rev_involutive. auto.
  - intros [[d|] N]; cbn [node_says] in N.
    + destruct N as (s & -> & L & R). cbn [node_ok]. unfold hex_valid. rewrite R. cbn [some]. apply Nat.eqb_eq in L. rewrite L. apply orb_true_r.
    + rewrite N. reflexivity.
Qed.
Lemma star_not_64 s : length s = 64%nat -> is_text (JString s) s_star = false.
Proof. intros L. destruct (is_text (JString s) s_star) eqn:E; [|reflexivity]. apply is_text_exact in E. assert (s = s_star) as -> by congruence. discriminate L. Qed.
Lemma read_node_says j d : node_says j d -> read_node odd j = Ret d.
Proof.
  destruct d as [d|]; cbn [node_says].
  - intros (s & -> & L & R). unfold read_node. rewrite star_not_64 by exact L. cbn [as_text and_then].
    rewrite (proj2 (read_digest_exact s d)); [reflexivity|]. left. auto.
  - intros ->. reflexivity.
Qed.
Lemma node_says_inj j d e : node_says j d -> node_says j e -> d = e.
Proof. intros A B. apply read_node_says in A. apply read_node_says in B. congruence. Qed.
Lemma read_nodes_says l ds : Forall2 node_says l ds -> read_nodes odd l = Ret ds.
Proof. induction 1 as [|j d l ds A F IH]; [reflexivity|]. cbn [read_nodes]. rewrite (read_node_says j d A). cbn [and_then]. rewrite IH. reflexivity. Qed.
Lemma nodes_ok_says l : forallb node_ok l = true <-> exists ds, Forall2 node_says l ds.
Proof.
  split.
  - induction l as [|j l IH]; [exists []; constructor|]. cbn [forallb]. intros E. apply andb_true_iff in E. destruct E as [A B]. apply node_ok_exact in A. destruct A as [d A].
    destruct (IH B) as [ds F]. exists (d :: ds). constructor; assumption.
  - intros [ds F]. induction F as [|j d l ds A F IH]; [reflexivity|]. cbn [forallb]. rewrite IH, (proj2 (node_ok_exact j)) by eauto. reflexivity.
Qed.
Lemma nodes_ok_forall l : forallb node_ok l = true <-> Forall (fun n => exists d, node_says n d) l.
Proof. rewrite forallb_forall, Forall_forall. split; intros X x I; apply node_ok_exact, X, I. Qed.

Lemma read_header_exact s h : read_header s = h <-> header_says s h.
Proof.
  unfold read_header, header_says. destruct (hex_read s) as [b|].
  - destruct (length b =? 80)%nat eqn:L.
    + apply Nat.eqb_eq in L. split.
      * intros <-. left. exists b. split; [reflexivity|]. apply header_form_slice. exact L.
      * intros [(c & E & F)|[X _]]; [|destruct (X b eq_refl L)]. assert (c = b) as -> by congruence. apply (header_form_inj _ _ b); [|exact F]. apply header_form_slice. exact L.
    + apply Nat.eqb_neq in L. split.
      * intros <-. right. split; [intros c E; congruence|reflexivity].
      * intros [(c & E & F)|[_ X]]; [|congruence]. assert (c = b) as -> by congruence. apply header_form_length in F. congruence.
  - split.
    + intros <-. right. split; [discriminate|reflexivity].
    + intros [(c & E & _)|[_ X]]; congruence.
Qed.

(* ---------------------------------------------------------------- validity *)
Lemma json_ok_exact j : json_ok j = true <-> json_acceptable j.
Proof.
  unfold json_ok, json_acceptable. rewrite !andb_true_iff. split.
  - intros ((((((A & B) & C) & D) & E) & F) & G). destruct j as [| | | | | | |o]; try discriminate A. cbn [j_get] in *. exists o. split; [reflexivity|].
    split; [split|split; [|split; [|split]]].
    + change (text "composite") with k_composite. destruct (obj_find k_composite o) as [[|[|]| | | | | |]|]; cbn [negb] in B; try discriminate B; auto.
    + change (text "proofType") with k_proof_type. destruct (obj_find k_proof_type o) as [v|]; [|auto]. apply is_text_exact in C. right. rewrite C. reflexivity.
    + change (text "index") with k_index. destruct (obj_find k_index o) as [[| | |i| | | |]|]; try discriminate D. eauto.
    + change (text "txOrId") with k_tx_or_id. destruct (obj_find k_tx_or_id o) as [[| | | | |s| |]|]; try discriminate E. apply andb_true_iff in E. destruct E as [L V]. exists s.
      split; [reflexivity|]. split; [apply Nat.leb_le; exact L|apply hex_valid_exact; exact V].
    + change (text "nodes") with k_nodes. destruct (obj_find k_nodes o) as [[| | | | | |l|]|]; try discriminate G. exists l. split; [reflexivity|]. apply nodes_ok_forall. exact G.
    + change (text "targetType") with k_target_type. change (text "target") with k_target. destruct (obj_find k_target_type o) as [v|].
      * left. rewrite !orb_true_iff, !is_text_exact in F. destruct F as [[F|F]|F]; rewrite F; eexists; (split; [reflexivity|]); cbn [In]; auto.
      * right. split; [reflexivity|]. destruct (obj_find k_target o) as [[| | | | |s| |]|]; try discriminate F. exists s. split; [reflexivity|]. apply hex_valid_exact. exact F.
  - intros (o & -> & (B & C) & (i & D) & (s & E & L & V) & (l & G & N) & F). cbn [j_get is_object].
    change (text "composite") with k_composite in B. change (text "proofType") with k_proof_type in C. change (text "index") with k_index in D.
    change (text "txOrId") with k_tx_or_id in E. change (text "nodes") with k_nodes in G. change (text "targetType") with k_target_type in F. change (text "target") with k_target in F.
    rewrite D, E, G. split; [split; [split; [split; [split; [split; [reflexivity|]|]|reflexivity]|]|]|].
    + destruct B as [-> | ->]; reflexivity.
    + destruct C as [-> | ->]; [reflexivity|]. apply is_text_exact. reflexivity.
    + apply andb_true_iff. split; [apply Nat.leb_le; exact L|apply hex_valid_exact; exact V].
    + destruct F as [(t & -> & I)|(-> & x & -> & V')].
      * cbn [In] in I. rewrite !orb_true_iff, !is_text_exact. destruct I as [<-|[<-|[<-|[]]]]; [left; left|left; right|right]; reflexivity.
      * apply hex_valid_exact. exact V'.
    + apply nodes_ok_forall. exact N.
Qed.

(* ---------------------------------------------------------------- reading *)
(* the target when the rest is known *)
Definition with_target (j : json) (t : option bytes) (d : option digest) (q : path) : outcome unit tsc :=
  match j_get k_target_type j with
  | None => and_then (target_digest odd j) (fun x => Ret (mktsc t d q (Some x) None None))
  | Some v =>
    if is_text v s_hash then and_then (target_digest odd j) (fun x => Ret (mktsc t d q (Some x) None None))
    else if is_text v s_header then and_then (target_header j) (fun x => Ret (mktsc t d q None None (Some x)))
    else if is_text v s_root then and_then (target_digest odd j) (fun x => Ret (mktsc t d q None (Some x) None))
    else Ret tsc_none
  end.
Lemma read_json_form o i s t d l ds : json_ok (JObject o) = true ->
  obj_find k_index o = Some (JUint i) -> obj_find k_tx_or_id o = Some (JString s) -> subject_says s t d ->
  obj_find k_nodes o = Some (JArray l) -> Forall2 node_says l ds ->
  read_json odd (JObject o) = with_target (JObject o) t d (mkpath i ds).
Proof.
  intros O I S Sd N Nd. unfold read_json. rewrite O. cbn [negb at_key]. rewrite S. cbn [and_then as_text].
  assert (X : (if (length s =? 64)%nat then and_then (read_digest odd s) (fun d => Ret (None, Some d)) else match hex_read s with Some b => Ret (Some b, None) | None => Undef end) = Ret (t, d)).
  { destruct Sd as [(L & -> & x & -> & R)|(L & -> & x & -> & R)].
    - apply Nat.eqb_eq in L. rewrite L. rewrite (proj2 (read_digest_exact s x)); [reflexivity|]. left. apply Nat.eqb_eq in L. auto.
    - destruct (length s =? 64)%nat eqn:E; [apply Nat.eqb_eq in E; lia|]. rewrite R. reflexivity. }
  rewrite X. cbn [and_then]. rewrite I. cbn [and_then]. rewrite N. cbn [and_then]. rewrite (read_nodes_says l ds Nd). reflexivity.
Qed.
Lemma subject_total s : (64 <= length s)%nat -> hex_read s <> None -> exists t d, subject_says s t d.
Proof.
  intros L V. destruct (hex_read s) as [b|] eqn:R; [|congruence]. destruct (Nat.eq_dec (length s) 64) as [E|E].
  - exists None, (Some (rev b)). left. split; [exact E|]. split; [reflexivity|]. exists (rev b). rewrite rev_involutive. auto.
  - exists (Some b), None. right. split; [lia|]. split; [reflexivity|]. eauto.
Qed.
(* the parts of an acceptable value *)
Lemma acceptable_parts j : json_ok j = true -> exists o i s t d l ds, j = JObject o /\ body_ok o /\
  obj_find k_index o = Some (JUint i) /\ obj_find k_tx_or_id o = Some (JString s) /\ subject_says s t d /\
  obj_find k_nodes o = Some (JArray l) /\ Forall2 node_says l ds /\
  ((exists t, obj_find k_target_type o = Some (JString t) /\ In t [s_hash; s_header; s_root]) \/
   (obj_find k_target_type o = None /\ exists s, obj_find k_target o = Some (JString s) /\ hex_read s <> None)) /\
  read_json odd j = with_target j t d (mkpath i ds).
Proof.
  intros O. pose proof O as A. apply json_ok_exact in A. destruct A as (o & -> & B & (i & D) & (s & E & L & V) & (l & G & N) & F).
  apply nodes_ok_forall in N. apply nodes_ok_says in N. destruct N as [ds N]. destruct (subject_total s L V) as (t & d & S).
  exists o, i, s, t, d, l, ds. split; [reflexivity|]. split; [exact B|]. split; [exact D|]. split; [exact E|]. split; [exact S|]. split; [exact G|]. split; [exact N|]. split; [exact F|].
  apply (read_json_form o i s t d l ds); assumption.
Qed.
Lemma target_text_find o v : obj_find k_target o = Some v -> target_text (JObject o) = as_text v.
Proof. intros E. unfold target_text. cbn [at_key]. rewrite E. reflexivity. Qed.
Lemma target_digest_find o s : obj_find k_target o = Some (JString s) -> target_digest odd (JObject o) = read_digest odd s.
Proof. intros E. unfold target_digest. rewrite (target_text_find _ _ E). reflexivity. Qed.
Lemma target_header_find o s : obj_find k_target o = Some (JString s) -> target_header (JObject o) = Ret (read_header s).
Proof. intros E. unfold target_header. rewrite (target_text_find _ _ E). reflexivity. Qed.

Lemma with_target_says o t d q p : 
  ((exists t, obj_find k_target_type o = Some (JString t) /\ In t [s_hash; s_header; s_root]) \/
   (obj_find k_target_type o = None /\ exists s, obj_find k_target o = Some (JString s) /\ hex_read s <> None)) ->
  with_target (JObject o) t d q = Ret p <-> ts_tx p = t /\ ts_id p = d /\ ts_path p = q /\ target_says odd o p.
Proof.
  intros T. unfold with_target, target_says. cbn [j_get]. change (text "targetType") with k_target_type. change (text "target") with k_target.
  change (text "hash") with s_hash. change (text "merkleRoot") with s_root. change (text "header") with s_header.
  destruct p as [t' d' q' h r b]. cbn [ts_tx ts_id ts_path ts_hash ts_root ts_header].
  assert (HR : is_text (JString s_header) s_hash = false) by reflexivity. assert (RH : is_text (JString s_root) s_hash = false) by reflexivity. assert (RR : is_text (JString s_root) s_header = false) by reflexivity.
  assert (D1 : JString s_hash <> JString s_root) by discriminate. assert (D2 : JString s_hash <> JString s_header) by discriminate. assert (D3 : JString s_header <> JString s_root) by discriminate.
  destruct T as [(k & -> & I)|(-> & s & S & V)].
  - cbn [In] in I. destruct I as [<-|[<-|[<-|[]]]].
    + rewrite (proj2 (is_text_exact _ _) eq_refl). split.
      * unfold target_digest. destruct (target_text (JObject o)) as [s| |] eqn:X; cbn [and_then]; try discriminate. destruct (read_digest odd s) as [x| |] eqn:R; cbn [and_then]; try discriminate.
        intros E. apply read_digest_exact in R. assert (t' = t) as -> by congruence. assert (d' = d) as -> by congruence. assert (q' = q) as -> by congruence.
        split; [reflexivity|]. split; [reflexivity|]. split; [reflexivity|]. exists s. split.
        { unfold target_text in X. cbn [at_key] in X. destruct (obj_find k_target o) as [v|]; [|discriminate]. cbn [and_then] in X. destruct v; cbn [as_text] in X; try discriminate. congruence. }
        right. left. split; [reflexivity|]. exists x. split; [exact R|]. split; [congruence|]. split; congruence.
      * intros (-> & -> & -> & s & S & X). rewrite (target_digest_find _ _ S). destruct X as [(X & _)|[(X & x & R & E1 & E2 & E3)|[(X & _)|(X & _)]]]; try congruence.
        apply read_digest_exact in R. rewrite R. cbn [and_then]. congruence.
    + rewrite HR, (proj2 (is_text_exact (JString s_header) s_header) eq_refl). split.
      * unfold target_header. destruct (target_text (JObject o)) as [s| |] eqn:X; cbn [and_then]; try discriminate.
        intros E. assert (t' = t) as -> by congruence. assert (d' = d) as -> by congruence. assert (q' = q) as -> by congruence.
        split; [reflexivity|]. split; [reflexivity|]. split; [reflexivity|]. exists s. split.
        { unfold target_text in X. cbn [at_key] in X. destruct (obj_find k_target o) as [v|]; [|discriminate]. cbn [and_then] in X. destruct v; cbn [as_text] in X; try discriminate. congruence. }
        right. right. right. split; [reflexivity|]. exists (read_header s). split; [apply read_header_exact; reflexivity|]. split; [congruence|]. split; congruence.
      * intros (-> & -> & -> & s & S & X). rewrite (target_header_find _ _ S). destruct X as [(X & _)|[(X & _)|[(X & _)|(X & x & R & E1 & E2 & E3)]]]; try congruence.
        apply read_header_exact in R. cbn [and_then]. congruence.
    + rewrite RH, RR, (proj2 (is_text_exact (JString s_root) s_root) eq_refl). split.
      * unfold target_digest. destruct (target_text (JObject o)) as [s| |] eqn:X; cbn [and_then]; try discriminate. destruct (read_digest odd s) as [x| |] eqn:R; cbn [and_then]; try discriminate.
        intros E. apply read_digest_exact in R. assert (t' = t) as -> by congruence. assert (d' = d) as -> by congruence. assert (q' = q) as -> by congruence.
        split; [reflexivity|]. split; [reflexivity|]. split; [reflexivity|]. exists s. split.
        { unfold target_text in X. cbn [at_key] in X. destruct (obj_find k_target o) as [v|]; [|discriminate]. cbn [and_then] in X. destruct v; cbn [as_text] in X; try discriminate. congruence. }
        right. right. left. split; [reflexivity|]. exists x. split; [exact R|]. split; [congruence|]. split; congruence.
      * intros (-> & -> & -> & s & S & X). rewrite (target_digest_find _ _ S). destruct X as [(X & _)|[(X & _)|[(X & x & R & E1 & E2 & E3)|(X & _)]]]; try congruence.
        apply read_digest_exact in R. rewrite R. cbn [and_then]. congruence.
  - rewrite (target_digest_find _ _ S). split.
    + destruct (read_digest odd s) as [x| |] eqn:R; cbn [and_then]; try discriminate.
      intros E. apply read_digest_exact in R. assert (t' = t) as -> by congruence. assert (d' = d) as -> by congruence. assert (q' = q) as -> by congruence.
      split; [reflexivity|]. split; [reflexivity|]. split; [reflexivity|]. exists s. split; [exact S|]. left. split; [reflexivity|]. split; [exact V|]. exists x.
      split; [exact R|]. split; [congruence|]. split; congruence.
    + intros (-> & -> & -> & s' & S' & X). assert (s' = s) as -> by congruence. destruct X as [(X & _ & x & R & E1 & E2 & E3)|[(X & _)|[(X & _)|(X & _)]]]; try congruence.
      apply read_digest_exact in R. rewrite R. cbn [and_then]. congruence.
Qed.
Lemma subject_says_inj s t d t' d' : subject_says s t d -> subject_says s t' d' -> t = t' /\ d = d'.
Proof.
  intros [(L & -> & x & -> & R)|(L & -> & x & -> & R)] [(L' & -> & x' & -> & R')|(L' & -> & x' & -> & R')]; try lia.
  - split; [reflexivity|]. f_equal. assert (E : rev x = rev x') by congruence. apply (f_equal (@rev byte)) in E. rewrite !rev_involutive in E. exact E.
  - split; congruence.
Qed.
Lemma nodes_says_inj l ds ds' : Forall2 node_says l ds -> Forall2 node_says l ds' -> ds = ds'.
Proof. intros A B. apply read_nodes_says in A. apply read_nodes_says in B. congruence. Qed.
Lemma subject_identified s p : subject_says s (ts_tx p) (ts_id p) -> identified p.
Proof. unfold identified. intros [(L & -> & x & -> & R)|(L & -> & x & -> & R)]; [right|left]; eauto. Qed.
Lemma says_acceptable j p : json_says odd j p -> json_acceptable j.
Proof.
  intros (o & -> & B & I & (s & S & Sd) & (l & N & Nd) & (x & X & T)). exists o. split; [reflexivity|]. split; [exact B|]. split; [eauto|]. split; [|split].
  - exists s. split; [exact S|]. destruct Sd as [(L & _ & y & _ & R)|(L & _ & y & _ & R)]; (split; [lia|congruence]).
  - exists l. split; [exact N|]. apply nodes_ok_forall. apply nodes_ok_says. eauto.
  - destruct T as [(T & V & _)|[(T & _)|[(T & _)|(T & _)]]]; [right; eauto|left..]; eexists; (split; [exact T|]); cbn [In]; auto.
Qed.
Lemma says_valid j p : json_says odd j p -> tsc_valid p = true.
Proof.
  intros (o & -> & B & I & (s & S & Sd) & (l & N & Nd) & (x & X & T)). apply valid_exact. split; [apply (subject_identified s); exact Sd|]. unfold targeted.
  destruct T as [(_ & _ & d & _ & T)|[(_ & d & _ & T)|[(_ & d & _ & T)|(_ & d & _ & T)]]]; [left|left|right; left|right; right]; eauto.
Qed.
Lemma read_json_exact j p : read_json odd j = Ret p /\ tsc_valid p = true <-> json_says odd j p.
Proof.
  split.
  - intros [E V]. destruct (json_ok j) eqn:O; [|unfold read_json in E; rewrite O in E; cbn [negb] in E; assert (p = tsc_none) as -> by congruence; discriminate V].
    destruct (acceptable_parts j O) as (o & i & s & t & d & l & ds & -> & B & I & S & Sd & N & Nd & T & R). rewrite R in E. apply with_target_says in E; [|exact T].
    destruct E as (E1 & E2 & E3 & E4). exists o. split; [reflexivity|]. split; [exact B|]. rewrite E1, E2, E3. cbn [p_index p_digests]. split; [exact I|]. split; [eauto|]. split; [eauto|exact E4].
  - intros J. split; [|apply (says_valid j); exact J]. assert (O : json_ok j = true) by (apply json_ok_exact, (says_acceptable j p), J).
    destruct (acceptable_parts j O) as (o & i & s & t & d & l & ds & -> & B & I & S & Sd & N & Nd & T & R). rewrite R. apply with_target_says; [exact T|].
    destruct J as (o' & Eo & B' & I' & (s' & S' & Sd') & (l' & N' & Nd') & T'). assert (o' = o) as -> by congruence.
    change (text "index") with k_index in I'. change (text "txOrId") with k_tx_or_id in S'. change (text "nodes") with k_nodes in N'.
    assert (s' = s) as -> by congruence. assert (l' = l) as -> by congruence. destruct (subject_says_inj s t d _ _ Sd Sd') as [E1 E2]. pose proof (nodes_says_inj l ds _ Nd Nd') as E3.
    split; [congruence|]. split; [congruence|]. split; [|exact T']. destruct p as [a1 a2 [i' ds'] a3 a4 a5]. cbn [ts_path p_index p_digests] in *. congruence.
Qed.
(* the record is empty exactly where the value is not acceptable *)
Lemma read_json_none j : read_json odd j = Ret tsc_none <-> ~ json_acceptable j.
Proof.
  split.
  - intros E A. apply json_ok_exact in A. destruct (acceptable_parts j A) as (o & i & s & t & d & l & ds & -> & B & I & S & Sd & N & Nd & T & R). rewrite R in E. apply with_target_says in E; [|exact T].
    destruct E as (E1 & E2 & _). cbn [ts_tx ts_id tsc_none] in *. subst t d. destruct Sd as [(_ & _ & x & X & _)|(_ & _ & x & X & _)]; discriminate.
  - intros A. unfold read_json. destruct (json_ok j) eqn:O; [destruct A; apply json_ok_exact; exact O|reflexivity].
Qed.
Lemma read_json_undef j : read_json odd j = Undef <-> json_acceptable j /\ j_get (text "target") j = None.
Proof.
  change (text "target") with k_target. split.
  - intros E. destruct (json_ok j) eqn:O; [|unfold read_json in E; rewrite O in E; discriminate E]. split; [apply json_ok_exact; exact O|].
    destruct (acceptable_parts j O) as (o & i & s & t & d & l & ds & -> & B & I & S & Sd & N & Nd & T & R). rewrite R in E. cbn [j_get]. destruct (obj_find k_target o) as [v|] eqn:X; [|reflexivity]. exfalso.
    assert (A : target_digest odd (JObject o) <> Undef /\ target_header (JObject o) <> Undef).
    { unfold target_digest, target_header. rewrite (target_text_find _ _ X). destruct v as [| | | | |x| |]; cbn [as_text and_then]; try (split; discriminate).
      split; [|discriminate]. destruct (read_digest_total x) as [[y ->]| ->]; discriminate. }
    destruct A as [A1 A2]. revert E. unfold with_target. destruct (j_get k_target_type (JObject o)) as [w|].
    + destruct (is_text w s_hash); [destruct (target_digest odd (JObject o)); cbn [and_then]; congruence|]. destruct (is_text w s_header); [destruct (target_header (JObject o)); cbn [and_then]; congruence|].
      destruct (is_text w s_root); [destruct (target_digest odd (JObject o)); cbn [and_then]; congruence|discriminate].
    + destruct (target_digest odd (JObject o)); cbn [and_then]; congruence.
  - intros [A X]. apply json_ok_exact in A. destruct (acceptable_parts j A) as (o & i & s & t & d & l & ds & -> & B & I & S & Sd & N & Nd & T & R). rewrite R. cbn [j_get] in X.
    assert (Y : target_text (JObject o) = Undef) by (unfold target_text; cbn [at_key]; rewrite X; reflexivity).
    unfold with_target, target_digest, target_header. rewrite Y. cbn [j_get and_then]. destruct T as [(k & -> & I')|(_ & x & X' & _)]; [|congruence].
    cbn [In] in I'. destruct I' as [<-|[<-|[<-|[]]]]; reflexivity.
Qed.
Lemma read_json_throw j : read_json odd j = Throw tt <->
  json_acceptable j /\ exists v, j_get (text "target") j = Some v /\
  ((forall s, v <> JString s) \/ (exists s, v = JString s /\ (forall d, ~ digest_says odd s d) /\ j_get (text "targetType") j <> Some (JString (text "header")))).
Proof.
  change (text "targetType") with k_target_type. change (text "target") with k_target. change (text "header") with s_header. split.
  - intros E. destruct (json_ok j) eqn:O; [|unfold read_json in E; rewrite O in E; discriminate E]. split; [apply json_ok_exact; exact O|].
    destruct (acceptable_parts j O) as (o & i & s & t & d & l & ds & -> & B & I & S & Sd & N & Nd & T & R). rewrite R in E. cbn [j_get].
    destruct (obj_find k_target o) as [v|] eqn:X.
    + exists v. split; [reflexivity|]. destruct v as [| | | | |x| |]; try (left; discriminate). right. exists x. split; [reflexivity|].
      unfold with_target in E. rewrite (target_digest_find _ _ X), (target_header_find _ _ X) in E. cbn [j_get] in E.
      assert (K : forall f : digest -> tsc, and_then (read_digest odd x) (fun y => Ret (f y)) = Throw tt -> forall d, ~ digest_says odd x d).
      { intros f Y e D. apply read_digest_exact in D. rewrite D in Y. discriminate. }
      destruct T as [(k & Tk & I')|(Tk & _)]; rewrite Tk in *.
      * cbn [In] in I'. destruct I' as [<-|[<-|[<-|[]]]].
        { rewrite (proj2 (is_text_exact _ _) eq_refl) in E. split; [apply (K _ E)|discriminate]. }
        { discriminate E. }
        { change (is_text (JString s_root) s_hash) with false in E. change (is_text (JString s_root) s_header) with false in E. change (is_text (JString s_root) s_root) with true in E. cbv iota in E. split; [apply (K _ E)|discriminate]. }
      * split; [apply (K _ E)|discriminate].
    + exfalso. assert (Y : target_text (JObject o) = Undef) by (unfold target_text; cbn [at_key]; rewrite X; reflexivity).
      revert E. unfold with_target, target_digest, target_header. rewrite Y. cbn [j_get and_then]. destruct T as [(k & -> & I')|(_ & x & X' & _)]; [|congruence].
      cbn [In] in I'. destruct I' as [<-|[<-|[<-|[]]]]; discriminate.
  - intros (A & v & X & V). apply json_ok_exact in A. destruct (acceptable_parts j A) as (o & i & s & t & d & l & ds & -> & B & I & S & Sd & N & Nd & T & R). rewrite R. cbn [j_get] in *.
    destruct V as [V|(x & -> & D & K)].
    + assert (Y : target_text (JObject o) = Throw tt) by (rewrite (target_text_find _ _ X); destruct v as [| | | | |x| |]; try reflexivity; destruct (V x eq_refl)).
      unfold with_target, target_digest, target_header. rewrite Y. cbn [j_get and_then]. destruct T as [(k & -> & I')|(_ & x & X' & _)].
      * cbn [In] in I'. destruct I' as [<-|[<-|[<-|[]]]]; reflexivity.
      * rewrite X in X'. exfalso. apply (V x). congruence.
    + assert (Y : read_digest odd x = Throw tt) by (destruct (read_digest_total x) as [[y Y]|Y]; [apply read_digest_exact in Y; destruct (D y Y)|exact Y]).
      unfold with_target. rewrite (target_digest_find _ _ X), Y. cbn [j_get and_then]. destruct T as [(k & Tk & I')|(Tk & _)]; rewrite Tk in *; [|reflexivity].
      cbn [In] in I'. destruct I' as [<-|[<-|[<-|[]]]]; [reflexivity|destruct (K eq_refl)|reflexivity].
Qed.

(* ---------------------------------------------------------------- writing *)
Lemma write_json_exact p : tsc_valid p = true -> write_json u1 u2 p = JObject (
  [(k_index, JUint (p_index (ts_path p))); (k_nodes, JArray (map (write_node u2) (p_digests (ts_path p))))] ++
  match ts_hash p, ts_root p, ts_header p with
  | Some d, _, _ => [(k_target, JString (digest_text u2 d))]
  | None, Some d, _ => [(k_target, JString (digest_text u2 d)); (k_target_type, JString s_root)]
  | None, None, Some h => [(k_target, JString (hex_of u1 (header_write h))); (k_target_type, JString s_header)]
  | None, None, None => []
  end ++
  match ts_tx p, ts_id p with
  | Some t, _ => [(k_tx_or_id, JString (hex_of u1 t))]
  | None, Some d => [(k_tx_or_id, JString (digest_text u2 d))]
  | None, None => []
  end).
Proof.
  intros V. unfold write_json. rewrite V. cbn [negb]. apply valid_exact in V. destruct V as [A B].
  destruct A as [(x & A1 & A2)|(x & A1 & A2)]; destruct B as [(y & B1 & B2 & B3)|[(y & B1 & B2 & B3)|(y & B1 & B2 & B3)]]; rewrite ?A1, ?A2, ?B1, ?B2, ?B3; reflexivity.
Qed.
Lemma write_json_invalid p : tsc_valid p = false -> write_json u1 u2 p = JNull.
Proof. intros V. unfold write_json. rewrite V. reflexivity. Qed.
Lemma write_nodes_says l : Forall (opt_wf (fun d => length d = 32%nat)) l -> Forall2 node_says (map (write_node u2) l) l.
Proof.
  induction 1 as [|d l W F IH]; cbn [map]; constructor; [|exact IH]. destruct d as [d|]; cbn [node_says write_node]; [|reflexivity]. cbn [opt_wf] in W.
  eexists. split; [reflexivity|]. rewrite digest_text_length. split; [lia|apply digest_text_read].
Qed.
Lemma text_says d : length d = 32%nat -> digest_says odd (digest_text u2 d) d.
Proof. intros L. left. rewrite digest_text_length. split; [lia|apply digest_text_read]. Qed.
Lemma hex_of_says h : header_wf h -> header_says (hex_of u1 (header_write h)) h.
Proof. intros W. left. exists (header_write h). split; [apply hex_of_read|]. apply header_layout; [exact []|exact W]. Qed.
(* the value written says the record, if its subject does *)
Lemma written_says p s t d : tsc_wf p -> tsc_valid p = true ->
  match ts_tx p, ts_id p with Some t, _ => s = hex_of u1 t | None, Some d => s = digest_text u2 d | None, None => False end ->
  subject_says s t d -> json_says odd (write_json u1 u2 p) (mktsc t d (ts_path p) (ts_hash p) (ts_root p) (ts_header p)).
Proof.
  intros (_ & _ & W3 & W4 & W5 & _ & _ & Wd) V S Sd. rewrite write_json_exact by exact V. apply valid_exact in V. destruct V as [A B]. eexists. split; [reflexivity|].
  destruct A as [(x & A1 & A2)|(x & A1 & A2)]; destruct B as [(y & B1 & B2 & B3)|[(y & B1 & B2 & B3)|(y & B1 & B2 & B3)]]; rewrite ?A1, ?A2, B1, B2, B3 in *; subst s;
  (split; [split; left; reflexivity|]); cbn [ts_tx ts_id ts_path ts_hash ts_root ts_header]; (split; [reflexivity|]);
  (split; [eexists; split; [reflexivity|exact Sd]|]); (split; [eexists; split; [reflexivity|apply write_nodes_says; exact Wd]|]);
  eexists; (split; [reflexivity|]); cbn [ts_hash ts_root ts_header opt_wf] in *;
  ((left; split; [reflexivity|]; split; [rewrite digest_text_read; discriminate|]; exists y; split; [apply text_says; assumption|auto]) ||
   (right; right; left; split; [reflexivity|]; exists y; split; [apply text_says; assumption|auto]) ||
   (right; right; right; split; [reflexivity|]; exists y; split; [apply hex_of_says; assumption|auto])).
Qed.
Lemma json_read_back p : tsc_wf p -> tsc_valid p = true -> read_json odd (write_json u1 u2 p) = Ret (json_back p).
Proof.
  intros W V. pose proof V as V'. apply valid_exact in V'. destruct V' as [A _]. unfold json_back. destruct A as [(t & A1 & A2)|(d & A1 & A2)]; rewrite A1.
  - destruct (length t <? 32)%nat eqn:L1; [|destruct (length t =? 32)%nat eqn:L2].
    + apply Nat.ltb_lt in L1. apply read_json_none. rewrite write_json_exact by exact V. rewrite A1. intros (o & Eo & _ & _ & (s & S & L & _) & _).
      assert (s = hex_of u1 t) as ->.
      { injection Eo as <-. revert S. destruct (ts_hash p), (ts_root p), (ts_header p); cbn; congruence. }
      rewrite hex_of_length in L. lia.
    + apply Nat.eqb_eq in L2. apply read_json_exact. apply (written_says p (hex_of u1 t)); [exact W|exact V|rewrite A1; reflexivity|].
      left. rewrite hex_of_length. split; [lia|]. split; [reflexivity|]. exists (rev t). split; [reflexivity|]. rewrite rev_involutive. apply hex_of_read.
    + apply Nat.ltb_ge in L1. apply Nat.eqb_neq in L2. apply read_json_exact. pose proof (written_says p (hex_of u1 t) (Some t) None W V) as X. rewrite A1 in X.
      destruct p as [t' i' pa h r b]. cbn [ts_tx ts_id ts_path ts_hash ts_root ts_header] in *. subst t' i'. apply X; [reflexivity|].
      right. rewrite hex_of_length. split; [lia|]. split; [reflexivity|]. exists t. split; [reflexivity|]. apply hex_of_read.
  - apply read_json_exact. pose proof (written_says p (digest_text u2 d) None (Some d) W V) as X. rewrite A1, A2 in X.
    assert (Ld : length d = 32%nat) by (destruct W as (_ & W2 & _); rewrite A2 in W2; exact W2).
    destruct p as [t' i' pa h r b]. cbn [ts_tx ts_id ts_path ts_hash ts_root ts_header] in *. subst t' i'. apply X; [reflexivity|].
    left. rewrite digest_text_length. split; [lia|]. split; [reflexivity|]. exists d. split; [reflexivity|]. apply digest_text_read.
Qed.
Lemma json_round_trip p : tsc_wf p -> tsc_valid p = true ->
  (read_json odd (write_json u1 u2 p) = Ret p <-> forall t, ts_tx p = Some t -> (32 < length t)%nat).
Proof.
  intros W V. rewrite (json_read_back p W V). unfold json_back. split.
  - intros E t T. rewrite T in E. destruct (length t <? 32)%nat eqn:L1; [|destruct (length t =? 32)%nat eqn:L2].
    + exfalso. assert (p = tsc_none) as X by congruence. rewrite X in T. discriminate.
    + exfalso. assert (X : ts_tx p = None) by (apply (f_equal (fun r => match r with Ret q => ts_tx q | _ => None end)) in E; symmetry; exact E). congruence.
    + apply Nat.ltb_ge in L1. apply Nat.eqb_neq in L2. lia.
  - intros X. destruct (ts_tx p) as [t|]; [|reflexivity]. specialize (X t eq_refl). destruct (length t <? 32)%nat eqn:L1; [apply Nat.ltb_lt in L1; lia|]. destruct (length t =? 32)%nat eqn:L2; [apply Nat.eqb_eq in L2; lia|reflexivity].
Qed.

(* ---------------------------------------------------------------- functions of the value *)
Lemma json_functions (H : bytes -> bytes) j s : json_acceptable j -> j_get (text "txOrId") j = Some (JString s) ->
  json_tx_included j = Ret false /\ exists b, hex_read s = Some b /\ json_txid H odd j = Ret (H b).
Proof.
  intros A E. pose proof A as O. apply json_ok_exact in O. destruct A as (o & -> & _ & _ & (s' & S & L & V) & _). change (text "txOrId") with k_tx_or_id in *. cbn [j_get] in E.
  assert (s' = s) as -> by congruence. unfold json_tx_included, json_txid. rewrite O. cbn [at_key negb]. rewrite S. cbn [and_then as_text j_size]. split; [reflexivity|].
  change (1 =? 64) with false. cbv iota. destruct (hex_read s) as [b|]; [|congruence]. eauto.
Qed.
Lemma json_functions_target j p : json_says odd j p ->
  json_block_hash odd j = Ret (match j_get (text "targetType") j with Some _ => ts_hash p | None => None end) /\
  json_block_header j = Ret (ts_header p) /\ json_root odd j = Ret (match ts_root p, ts_header p with Some d, _ => Some d | None, Some h => Some (h_merkle_root h) | None, None => None end) /\
  json_target_type j = target_type p.
Proof.
  intros (o & -> & _ & _ & _ & _ & (s & S & T)). change (text "targetType") with k_target_type in *. change (text "target") with k_target in S.
  unfold json_block_hash, json_root, json_block_header, json_target_type, target_type. cbn [j_get]. rewrite (target_digest_find _ _ S), (target_header_find _ _ S).
  destruct T as [(T & _ & d & D & E1 & E2 & E3)|[(T & d & D & E1 & E2 & E3)|[(T & d & D & E1 & E2 & E3)|(T & h & D & E1 & E2 & E3)]]]; rewrite T, E1, E2, E3.
  - split; [reflexivity|]. split; [reflexivity|]. split; reflexivity.
  - apply read_digest_exact in D. rewrite D. split; [reflexivity|]. split; [reflexivity|]. split; reflexivity.
  - apply read_digest_exact in D. rewrite D. split; [reflexivity|]. split; [reflexivity|]. split; reflexivity.
  - apply read_header_exact in D. rewrite D. split; [reflexivity|]. split; [reflexivity|]. split; reflexivity.
Qed.
End Tsc.
