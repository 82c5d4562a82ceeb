(* Proofs about the validity of envelopes and their conversion from and to SPV proofs. *)
From Coq Require Import String Lia ZifyBool ZifyNat ZifyN.
From Verif Require Import Base BaseProofs WireModel WireSpec WireProofs MerkleModel TextModel JsonModel StratumConfigSpec DictProofs SpvModel AncModel TscModel TscSpec TscBinaryProofs EnvelopeSpec MapiModel MapiSpec MapiProofs SpvEnvModel SpvEnvSpec.
Local Open Scope list_scope.
Local Open Scope N_scope.

(* ---------------------------------------------------------------- maps *)
Lemma survives_exact {A} keep (es : list (bytes * A)) k v : survives keep es k v <-> obj_find k (if keep then es else rev es) = Some v.
Proof.
  unfold survives. destruct keep; rewrite find_first; [reflexivity|]. split.
  - intros (a & b & -> & N). exists (rev b), (rev a). rewrite rev_app_distr. cbn [rev]. rewrite <- app_assoc. split; [reflexivity|]. intros X. apply N. rewrite map_rev in X. apply in_rev in X. exact X.
  - intros (a & b & E & N). exists (rev b), (rev a). split.
    + rewrite <- (rev_involutive es), E, rev_app_distr. cbn [rev]. rewrite <- app_assoc. reflexivity.
    + intros X. apply N. rewrite map_rev in X. apply in_rev in X. exact X.
Qed.
Lemma gathered_fold {A} keep (es : list (bytes * A)) : sorted (fold_left (ins_id keep) es []) /\ forall k, obj_find k (fold_left (ins_id keep) es []) = obj_find k (if keep then es else rev es).
Proof.
  induction es as [|[i w] es [S F]] using rev_ind; [cbn; split; [constructor|destruct keep; reflexivity]|]. rewrite fold_left_app. cbn [fold_left]. unfold ins_id at 1 3. rewrite rev_app_distr. cbn [rev app fst snd].
  destruct keep.
  - unfold obj_add. cbn [fst snd]. split; [destruct (obj_find i _); [exact S|apply sorted_set; exact S]|]. intros k. rewrite find_app. cbn [obj_find]. rewrite <- F.
    destruct (obj_find i (fold_left (ins_id true) es [])) as [x|] eqn:E.
    + destruct (bytes_eqb k i) eqn:K; [apply bytes_eqb_eq in K; subst k; rewrite E; reflexivity|]. destruct (obj_find k (fold_left (ins_id true) es [])); reflexivity.
    + rewrite find_set. destruct (bytes_eqb k i) eqn:K; [apply bytes_eqb_eq in K; subst k; rewrite E; reflexivity|]. destruct (obj_find k (fold_left (ins_id true) es [])); reflexivity.
  - split; [apply sorted_set; exact S|]. intros k. rewrite find_set. cbn [obj_find]. rewrite <- F. reflexivity.
Qed.
Lemma gathered_exact {A} keep (es f : list (bytes * A)) : gathered keep es f <-> f = fold_left (ins_id keep) es [].
Proof.
  destruct (gathered_fold keep es) as [S F]. unfold gathered. split.
  - intros [Sf M]. apply sorted_ext; [exact Sf|exact S|]. intros k v. rewrite M, survives_exact. unfold maps. rewrite F. reflexivity.
  - intros ->. split; [exact S|]. intros k v. rewrite survives_exact. unfold maps. rewrite F. reflexivity.
Qed.
Lemma find_unique {A} (f : list (bytes * A)) k v : NoDup (map fst f) -> (obj_find k f = Some v <-> In (k, v) f).
Proof.
  induction f as [|[i w] f IH]; intros N; cbn [obj_find]; [split; [discriminate|intros []]|]. cbn [map fst] in N. apply NoDup_cons_iff in N. destruct N as [Ni N]. specialize (IH N). destruct (bytes_eqb k i) eqn:K.
  - apply bytes_eqb_eq in K. subst i. split; [intros E; left; congruence|]. intros [E|E]; [congruence|]. exfalso. apply Ni. apply (in_map fst) in E. exact E.
  - rewrite IH. split; [intros E; right; exact E|]. intros [E|E]; [|exact E]. exfalso. assert (i = k) as -> by congruence. rewrite text_eqb_refl in K. discriminate K.
Qed.
(* with each key once, what is gathered is what is given *)
Lemma gathered_unique {A} keep (es f : list (bytes * A)) : NoDup (map fst es) -> gathered keep es f -> forall k v, In (k, v) f <-> In (k, v) es.
Proof.
  intros N [S M] k v. split.
  - intros I. apply in_maps in I; [|exact S]. apply M in I. destruct I as (a & b & -> & _). apply in_or_app. right. left. reflexivity.
  - intros I. apply maps_in. apply M. apply survives_exact. destruct keep; [apply find_unique; assumption|]. apply find_unique; [rewrite map_rev; apply NoDup_rev; exact N|apply -> in_rev; exact I].
Qed.
Lemma sorted_nodup {A} (f : list (bytes * A)) : sorted f -> NoDup (map fst f).
Proof.
  induction f as [|[k v] f IH]; intros S; cbn [map fst]; constructor.
  - intros I. apply in_map_iff in I. destruct I as ([i w] & E & I). cbn [fst] in E. subst i. apply (sorted_absent _ _ _ S w). apply in_maps; [exact (sorted_tail _ _ S)|exact I].
  - apply IH. exact (sorted_tail _ _ S).
Qed.
Lemma gathered_self {A} keep (f : list (bytes * A)) : sorted f -> gathered keep f f.
Proof.
  intros S. split; [exact S|]. intros k v. rewrite survives_exact. unfold maps. destruct keep; [reflexivity|]. rewrite find_unique by (apply sorted_nodup; exact S). rewrite find_unique by (rewrite map_rev; apply NoDup_rev; apply sorted_nodup; exact S). apply in_rev.
Qed.
(* the order in which they come does not matter *)
Lemma gathered_set {A} keep (es f : list (bytes * A)) : NoDup (map fst es) -> sorted f -> (forall k v, In (k, v) f <-> In (k, v) es) -> gathered keep es f.
Proof.
  intros N S E. split; [exact S|]. intros k v. rewrite survives_exact. assert (M : maps f k v <-> In (k, v) f) by (split; [apply maps_in|apply in_maps; exact S]). rewrite M, E. destruct keep; [symmetry; apply find_unique; exact N|].
  rewrite find_unique by (rewrite map_rev; apply NoDup_rev; exact N). apply in_rev.
Qed.
Lemma gathered_in {A} keep (es f : list (bytes * A)) k v : gathered keep es f -> In (k, v) f -> In (k, v) es.
Proof. intros [S M] I. apply in_maps in I; [|exact S]. apply M in I. destruct I as (a & b & -> & _). apply in_or_app. right. left. reflexivity. Qed.
Lemma gathered_empty {A} keep (es f : list (bytes * A)) : gathered keep es f -> (f = [] <-> es = []).
Proof.
  intros G. split.
  - intros ->. destruct es as [|[k v] es]; [reflexivity|]. exfalso. destruct G as [_ M]. assert (X : exists w, survives keep ((k, v) :: es) k w).
    { destruct (obj_find k (if keep then (k, v) :: es else rev ((k, v) :: es))) as [w|] eqn:E; [exists w; apply survives_exact; exact E|]. exfalso. destruct keep; [cbn [obj_find] in E; rewrite text_eqb_refl in E; discriminate E|].
      cbn [rev] in E. rewrite find_app in E. destruct (obj_find k (rev es)); [discriminate E|]. cbn [obj_find] in E. rewrite text_eqb_refl in E. discriminate E. }
    destruct X as [w X]. apply M in X. discriminate X.
  - intros ->. apply gathered_exact in G. exact G.
Qed.

(* ---------------------------------------------------------------- induction *)
Lemma enode_all (P : enode -> Prop) : (forall raw mapi p ins, (forall k c, In (k, Some c) ins -> P c) -> P (mkenode raw mapi p ins)) -> forall n, P n.
Proof.
  intros F. fix go 1. intros [raw mapi p ins]. apply F. induction ins as [|[i x] r IH].
  - intros k c [].
  - intros k c [E|E]; [|exact (IH k c E)]. destruct x as [x|]; [|discriminate E]. pose proof (go x) as G. congruence.
Qed.
Lemma anode_all (P : anode -> Prop) : (forall t c, P (mkanode t (Confirmed c))) ->
  (forall t m, (forall k a, In (k, Some a) m -> P a) -> P (mkanode t (Antecedents m))) -> forall a, P a.
Proof.
  intros F1 F2. fix go 1. intros [t [c|m]]; [apply F1|]. apply F2. induction m as [|[i x] r IH].
  - intros k a [].
  - intros k a [E|E]; [|exact (IH k a E)]. destruct x as [x|]; [|discriminate E]. pose proof (go x) as G. congruence.
Qed.

(* ---------------------------------------------------------------- validity *)
Lemma answers_valid_exact l : answers_valid l = true <-> Forall answer_sound l.
Proof.
  unfold answers_valid. rewrite forallb_forall, Forall_forall. assert (X : forall s : bytes, negb (bytes_eqb s []) = true <-> s <> []).
  { intros s. rewrite negb_true_iff. destruct s; [split; [discriminate|congruence]|]. split; [discriminate|reflexivity]. }
  unfold tx_status_valid, answer_sound. split; intros A r I; specialize (A r I); rewrite !andb_true_iff, !X in *; tauto.
Qed.
Lemma has_exact {A} (l : list A) : has l = true <-> l <> [].
Proof. destruct l; cbn [has]; split; congruence. Qed.

Section Validity.
Variable H : bytes -> bytes.
Definition validate_list (h : option db) := fix go (l : list (bytes * option enode)) (s : middle) : option middle :=
  match l with
  | [] => Some s
  | (k, Some c) :: r => match validate_node H h k c s with Some s => go r s | None => None end
  | (_, None) :: _ => None
  end.
Lemma validate_node_eq h k raw mapi proof ins s : validate_node H h k (mkenode raw mapi proof ins) s =
  if Bool.eqb (some proof) (has ins) then None
  else if negb (bytes_eqb (rev (H raw)) k) then None
  else match middle_step (has mapi) s with
       | None => None
       | Some s => if negb (answers_valid mapi) then None
                   else match proof with
                        | Some p => if match h with Some m => tsc_validate H m p | None => tsc_valid p end then Some s else None
                        | None => validate_list h ins s
                        end
       end.
Proof. reflexivity. Qed.
Definition proof_ok (h : option db) (p : tsc) : Prop := match h with Some m => tsc_validate H m p = true | None => identified p /\ targeted p end.
Lemma proof_ok_exact h p : match h with Some m => tsc_validate H m p | None => tsc_valid p end = true <-> proof_ok h p.
Proof. destruct h; [reflexivity|apply valid_exact]. Qed.
Definition agrees (s : middle) (b : bool) : Prop := s = Unknown \/ s = Known b.
Lemma middle_step_exact x s s' : middle_step x s = Some s' <-> s' = Known x /\ agrees s x.
Proof.
  unfold agrees. destruct s as [|c]; cbn [middle_step].
  - split; [intros E; split; [congruence|auto]|]. intros [-> _]. reflexivity.
  - destruct (Bool.eqb x c) eqn:E.
    + apply Bool.eqb_prop in E. subst c. split; [intros Y; split; [congruence|auto]|]. intros [-> _]. reflexivity.
    + split; [discriminate|]. intros [_ [Y|Y]]; [discriminate Y|]. assert (c = x) as -> by congruence. rewrite Bool.eqb_reflx in E. discriminate E.
Qed.
Lemma validate_list_exact h l : (forall k c, In (k, Some c) l -> forall k s s', validate_node H h k c s = Some s' <-> exists b, s' = Known b /\ agrees s b /\ node_sound H (proof_ok h) b k c) ->
  forall b s', validate_list h l (Known b) = Some s' <-> s' = Known b /\ Forall (fun e => exists c, snd e = Some c /\ node_sound H (proof_ok h) b (fst e) c) l.
Proof.
  induction l as [|[k [c|]] l IH]; intros F b s'; cbn [validate_list].
  - split; [intros E; split; [congruence|constructor]|]. intros [-> _]. reflexivity.
  - assert (Fl : forall k c, In (k, Some c) l -> forall k s s', validate_node H h k c s = Some s' <-> exists b, s' = Known b /\ agrees s b /\ node_sound H (proof_ok h) b k c) by (intros k' c' Ic; apply (F k' c'); right; exact Ic).
    specialize (F k c (or_introl eq_refl) k (Known b)). specialize (IH Fl b). split.
    + destruct (validate_node H h k c (Known b)) as [s1|]; [|discriminate]. destruct (proj1 (F s1) eq_refl) as (b1 & -> & [A|A] & Sd); [discriminate A|]. assert (b1 = b) as -> by congruence. intros X. apply IH in X. destruct X as [-> X]. split; [reflexivity|]. constructor; [exists c; split; [reflexivity|exact Sd]|exact X].
    + intros [-> X]. apply Forall_cons_iff in X. destruct X as [(c' & E & Sd) X]. cbn [fst snd] in E, Sd. assert (c' = c) as -> by congruence. rewrite (proj2 (F (Known b))); [apply IH; split; [reflexivity|exact X]|]. exists b. split; [reflexivity|]. split; [right; reflexivity|exact Sd].
  - split; [discriminate|]. intros [_ X]. apply Forall_cons_iff in X. destruct X as [(c & E & _) _]. discriminate E.
Qed.
Lemma validate_node_exact h n : forall k s s', validate_node H h k n s = Some s' <-> exists b, s' = Known b /\ agrees s b /\ node_sound H (proof_ok h) b k n.
Proof.
  induction n as [raw mapi proof ins IH] using enode_all. intros k s s'. rewrite validate_node_eq. pose proof (validate_list_exact h ins IH) as L. split.
  - destruct (Bool.eqb (some proof) (has ins)) eqn:X; [discriminate|]. destruct (bytes_eqb (rev (H raw)) k) eqn:K; [|discriminate]. apply bytes_eqb_eq in K. subst k. cbn [negb]. destruct (middle_step (has mapi) s) as [s1|] eqn:M; [|discriminate].
    apply middle_step_exact in M. destruct M as [-> A]. destruct (answers_valid mapi) eqn:V; [|discriminate]. cbn [negb]. apply answers_valid_exact in V. assert (B : mapi <> [] <-> has mapi = true) by (symmetry; apply has_exact). destruct proof as [p|].
    + destruct (match h with Some m => tsc_validate H m p | None => tsc_valid p end) eqn:P; [|discriminate]. apply proof_ok_exact in P. intros E. assert (s' = Known (has mapi)) as -> by congruence. exists (has mapi). split; [reflexivity|]. split; [exact A|].
      destruct ins as [|i ins]; [|discriminate X]. constructor; assumption.
    + intros E. apply L in E. destruct E as [-> F]. exists (has mapi). split; [reflexivity|]. split; [exact A|]. destruct ins as [|i ins]; [discriminate X|]. constructor; [exact B|exact V|discriminate|exact F].
  - intros (b & -> & A & Sd). remember (mkenode raw mapi proof ins) as n eqn:En. destruct Sd as [raw' mapi' p B V P|raw' mapi' ins' B V N F].
    + assert (raw' = raw) as -> by congruence. assert (mapi' = mapi) as -> by congruence. assert (proof = Some p) as -> by congruence. assert (ins = []) as -> by congruence. cbn [some has Bool.eqb]. rewrite text_eqb_refl. cbn [negb].
      assert (Hb : has mapi = b) by (apply Bool.eq_true_iff_eq; rewrite <- B; apply has_exact). rewrite (proj2 (middle_step_exact (has mapi) s (Known b))) by (rewrite Hb; auto). apply answers_valid_exact in V. rewrite V. cbn [negb]. apply proof_ok_exact in P. rewrite P. reflexivity.
    + assert (raw' = raw) as -> by congruence. assert (mapi' = mapi) as -> by congruence. assert (proof = None) as -> by congruence. assert (ins = ins') as -> by congruence. destruct ins' as [|i ins']; [congruence|]. cbn [some has Bool.eqb]. rewrite text_eqb_refl. cbn [negb].
      assert (Hb : has mapi = b) by (apply Bool.eq_true_iff_eq; rewrite <- B; apply has_exact). rewrite (proj2 (middle_step_exact (has mapi) s (Known b))) by (rewrite Hb; auto). apply answers_valid_exact in V. rewrite V. cbn [negb]. apply L. split; [reflexivity|exact F].
Qed.
Lemma validate_nodes_exact h l : forall s, (exists s', validate_nodes H h l s = Some s') <-> exists b, agrees s b /\ Forall (fun x => node_sound H (proof_ok h) b (fst x) (snd x)) l.
Proof.
  induction l as [|[k n] l IH]; intros s; cbn [validate_nodes].
  - split; [|intros _; eauto]. intros _. destruct s as [|b]; [exists true; split; [left; reflexivity|constructor]|]. exists b. split; [right; reflexivity|constructor].
  - split.
    + destruct (validate_node H h k n s) as [s1|] eqn:E; [|intros [s' X]; discriminate X]. intros X. apply IH in X. destruct X as (b & A & F). apply validate_node_exact in E. destruct E as (b1 & -> & A1 & Sd). destruct A as [A|A]; [discriminate A|]. assert (b1 = b) as -> by congruence.
      exists b. split; [exact A1|]. constructor; assumption.
    + intros (b & A & F). apply Forall_cons_iff in F. destruct F as [Sd F]. cbn [fst snd] in Sd. assert (E : validate_node H h k n s = Some (Known b)) by (apply validate_node_exact; eauto). rewrite E. apply IH. exists b. split; [right; reflexivity|exact F].
Qed.
Theorem envel_valid_exact e : envel_valid H e = true <-> envel_sound H e.
Proof.
  unfold envel_valid, validate_top, envel_sound. pose proof (validate_nodes_exact None (sv_inputs e) Unknown) as N. pose proof (answers_valid_exact (sv_mapi e)) as V.
  assert (T : match sv_txid e with Some d => negb (bytes_eqb (H (sv_raw e)) d) | None => false end = false <-> forall d, sv_txid e = Some d -> d = H (sv_raw e)).
  { destruct (sv_txid e) as [d|]; [|split; [discriminate|reflexivity]]. rewrite negb_false_iff, bytes_eqb_eq. split; [intros <- d' E; congruence|]. intros X. symmetry. apply X. reflexivity. }
  assert (M : some (validate_nodes H None (sv_inputs e) Unknown) = true <-> exists b, Forall (fun x => node_sound H (fun p => identified p /\ targeted p) b (fst x) (snd x)) (sv_inputs e)).
  { transitivity (exists s', validate_nodes H None (sv_inputs e) Unknown = Some s'); [|rewrite N].
    - destruct (validate_nodes H None (sv_inputs e) Unknown) as [s'|]; cbn [some]; split; try discriminate; eauto. intros [s' X]. discriminate X.
    - split; [intros (b & _ & F); eauto|intros (b & F); exists b; split; [left; reflexivity|exact F]]. }
  rewrite <- T, <- V, <- M. destruct (match sv_txid e with Some d => negb (bytes_eqb (H (sv_raw e)) d) | None => false end); [split; [discriminate|intros [X _]; discriminate X]|].
  destruct (answers_valid (sv_mapi e)); cbn [negb]; [tauto|]. split; [discriminate|intros (_ & X & _); discriminate X].
Qed.
Theorem validate_ignores m e : envel_validate H m e = envel_valid H e.
Proof. reflexivity. Qed.
Theorem node_validate_exact m k n : (exists s, validate_node H (Some m) k n Unknown = Some s) <-> exists b, node_sound H (fun p => tsc_validate H m p = true) b k n.
Proof.
  split.
  - intros [s E]. apply validate_node_exact in E. destruct E as (b & _ & _ & Sd). exists b. exact Sd.
  - intros [b Sd]. exists (Known b). apply validate_node_exact. exists b. split; [reflexivity|]. split; [left; reflexivity|exact Sd].
Qed.
(* any transaction with any proof *)
Theorem forged_valid m root raw p : identified p -> targeted p -> envel_validate H m (mkspv None root [] [(rev (H raw), mkenode raw [] (Some p) [])]) = true.
Proof.
  intros I T. rewrite validate_ignores. apply envel_valid_exact. split; [discriminate|]. split; [constructor|]. exists false. constructor; [|constructor]. cbn [fst snd]. constructor; [split; [congruence|discriminate]|constructor|auto].
Qed.
Theorem root_unrelated m r1 r2 mapi ins : envel_validate H m (mkspv None r1 mapi ins) = envel_validate H m (mkspv None r2 mapi ins).
Proof. reflexivity. Qed.
End Validity.

(* ---------------------------------------------------------------- from SPV proofs *)
Section Convert.
Variable keep : bool.
Definition node_go := fix go (l : list (bytes * option anode)) (acc : emap) : option emap :=
  match l with
  | [] => Some acc
  | (k, Some n) :: r => match envel_of_node keep k n with Some e => go r (ins_id keep acc (rev k, Some e)) | None => None end
  | (_, None) :: _ => None
  end.
Lemma envel_of_node_eq d t m : envel_of_node keep d (mkanode t (Antecedents m)) = match node_go m [] with Some ins => Some (mkenode (tx_write t) [] None ins) | None => None end.
Proof. reflexivity. Qed.
Lemma node_go_exact m : (forall k a, In (k, Some a) m -> forall d n, envel_of_node keep d a = Some n <-> converted keep d a n) ->
  forall acc r, node_go m acc = Some r <-> exists es, Forall2 (fun e f => exists a n, snd e = Some a /\ f = (rev (fst e), Some n) /\ converted keep (fst e) a n) m es /\ r = fold_left (ins_id keep) es acc.
Proof.
  induction m as [|[k [a|]] m IH]; intros F acc r; cbn [node_go].
  - split; [intros E; exists []; split; [constructor|cbn; congruence]|]. intros (es & X & ->). inversion X. reflexivity.
  - assert (Fm : forall k a, In (k, Some a) m -> forall d n, envel_of_node keep d a = Some n <-> converted keep d a n) by (intros k' a' Ia; apply (F k' a'); right; exact Ia). specialize (F k a (or_introl eq_refl) k). specialize (IH Fm). split.
    + destruct (envel_of_node keep k a) as [n|] eqn:E; [|discriminate]. intros X. apply IH in X. destruct X as (es & X & ->). exists ((rev k, Some n) :: es). split; [|reflexivity]. constructor; [|exact X]. exists a, n. split; [reflexivity|]. split; [reflexivity|]. apply F. reflexivity.
    + intros (es & X & ->). destruct es as [|f es]; [inversion X|]. assert (Y : Forall2 (fun e f => exists a n, snd e = Some a /\ f = (rev (fst e), Some n) /\ converted keep (fst e) a n) m es) by (inversion X; assumption).
      assert (Z : exists a' n, Some a = Some a' /\ f = (rev k, Some n) /\ converted keep k a' n) by (inversion X; assumption). destruct Z as (a' & n & Ea & -> & C). assert (a' = a) as -> by congruence. apply F in C. rewrite C. apply IH. exists es. auto.
  - split; [discriminate|]. intros (es & X & _). inversion X as [|e f ? ? (a & n & E & _) _]. discriminate E.
Qed.
Lemma envel_of_node_exact a : forall d n, envel_of_node keep d a = Some n <-> converted keep d a n.
Proof.
  induction a as [t c|t m IH] using anode_all; intros d n.
  - cbn [envel_of_node]. unfold tsc_of_branch_header. cbn [b_leaf b_digests l_digest l_index]. replace (mkpath (p_index (c_path c)) (p_digests (c_path c))) with (c_path c) by (destruct (c_path c); reflexivity). split.
    + intros E. assert (n = mkenode (tx_write t) [] (Some (mktsc None (Some d) (c_path c) None None (Some (c_header c)))) []) as -> by congruence. constructor.
    + intros C. inversion C. reflexivity.
  - rewrite envel_of_node_eq. pose proof (node_go_exact m IH []) as G. split.
    + destruct (node_go m []) as [ins|]; [|discriminate]. intros E. assert (n = mkenode (tx_write t) [] None ins) as -> by congruence. destruct (proj1 (G ins) eq_refl) as (es & F & ->). apply conv_antecedents with (es := es); [exact F|]. apply gathered_exact. reflexivity.
    + intros C. remember (mkanode t (Antecedents m)) as a eqn:Ea. destruct C as [d t' c|d t' m' es ins F Ga]; [discriminate Ea|]. assert (t' = t) as -> by congruence. assert (m' = m) as -> by congruence. apply gathered_exact in Ga. rewrite (proj2 (G ins)); [reflexivity|]. exists es. auto.
Qed.
Lemma envel_of_map_exact m : forall acc r, envel_of_map keep m acc = Some r <->
  exists es, Forall2 (fun e f => exists a n, snd e = Some a /\ f = (rev (fst e), n) /\ converted keep (fst e) a n) m es /\ r = fold_left (ins_id keep) es acc.
Proof.
  induction m as [|[k [a|]] m IH]; intros acc r; cbn [envel_of_map].
  - split; [intros E; exists []; split; [constructor|cbn; congruence]|]. intros (es & X & ->). inversion X. reflexivity.
  - split.
    + destruct (envel_of_node keep k a) as [n|] eqn:E; [|discriminate]. intros X. apply IH in X. destruct X as (es & X & ->). exists ((rev k, n) :: es). split; [|reflexivity]. constructor; [|exact X]. exists a, n. split; [reflexivity|]. split; [reflexivity|]. apply envel_of_node_exact. exact E.
    + intros (es & X & ->). destruct es as [|f es]; [inversion X|]. assert (Y : Forall2 (fun e f => exists a n, snd e = Some a /\ f = (rev (fst e), n) /\ converted keep (fst e) a n) m es) by (inversion X; assumption).
      assert (Z : exists a' n, Some a = Some a' /\ f = (rev k, n) /\ converted keep k a' n) by (inversion X; assumption). destruct Z as (a' & n & Ea & -> & C). assert (a' = a) as -> by congruence. apply envel_of_node_exact in C. rewrite C. apply IH. exists es. auto.
  - split; [discriminate|]. intros (es & X & _). inversion X as [|e f ? ? (a & n & E & _) _]. discriminate E.
Qed.
Theorem envel_of_proof_exact p e : envel_of_proof keep p = Ret e <-> proof_converted keep p e.
Proof.
  unfold envel_of_proof, proof_converted. destruct (ap_payment p) as [|t [|t' l]].
  - split; [discriminate|]. intros (t & es & X & _). discriminate X.
  - split.
    + destruct (envel_of_map keep (ap_map p) []) as [ins|] eqn:E; [|discriminate]. intros X. assert (e = mkspv None (tx_write t) [] ins) as -> by congruence. apply envel_of_map_exact in E. destruct E as (es & F & ->). exists t, es. cbn [sv_txid sv_raw sv_mapi sv_inputs]. repeat (split; [reflexivity|]). split; [exact F|]. apply gathered_exact. reflexivity.
    + intros (t1 & es & X & A & B & C & F & G). assert (t1 = t) as -> by congruence. apply gathered_exact in G. rewrite (proj2 (envel_of_map_exact (ap_map p) [] (sv_inputs e))) by eauto. destruct e as [e1 e2 e3 e4]. cbn [sv_txid sv_raw sv_mapi sv_inputs] in *. congruence.
  - split; [discriminate|]. intros (t1 & es & X & _). discriminate X.
Qed.
Lemma converted_solid a : forall d, solid a <-> exists n, converted keep d a n.
Proof.
  induction a as [t c|t m IH] using anode_all; intros d.
  - split; [intros _; eexists; constructor|intros _; constructor].
  - split.
    + intros Sa. assert (F : Forall (fun e => exists a, snd e = Some a /\ solid a) m) by (inversion Sa; assumption). assert (X : exists es, Forall2 (fun e f => exists a n, snd e = Some a /\ f = (rev (fst e), Some n) /\ converted keep (fst e) a n) m es).
      { clear Sa. induction F as [|[k x] m (a & E & Sa) F IHF]; [exists []; constructor|]. cbn [fst snd] in *. subst x. destruct IHF as [es Y]; [intros k' a' Ia; apply (IH k' a'); right; exact Ia|]. destruct (proj1 (IH k a (or_introl eq_refl) k) Sa) as [n C].
        exists ((rev k, Some n) :: es). constructor; [|exact Y]. exists a, n. auto. }
      destruct X as [es X]. eexists. apply conv_antecedents with (es := es) (ins := fold_left (ins_id keep) es []); [exact X|]. apply gathered_exact. reflexivity.
    + intros [n C]. inversion C as [|? ? ? es ins F G]. subst. constructor. apply Forall_forall. intros [k x] I0.
      clear C G. induction F as [|e f m es (a & n' & E & _ & Ca) F IHF]; [destruct I0|]. destruct I0 as [->|I0]; [|apply IHF; [intros k' a' Ia; apply (IH k' a'); right; exact Ia|exact I0]].
      cbn [snd] in *. exists a. split; [exact E|]. subst x. apply (IH k a (or_introl eq_refl) (fst (k, Some a))). eauto.
Qed.
Theorem envel_of_proof_total p :
  (ap_payment p = [] \/ (exists a b l, ap_payment p = a :: b :: l)) /\ envel_of_proof keep p = Throw tt \/
  (exists t, ap_payment p = [t]) /\ (forall e, envel_of_proof keep p <> Throw e) /\
    ((exists e, envel_of_proof keep p = Ret e) <-> Forall (fun x => exists a, snd x = Some a /\ solid a) (ap_map p)).
Proof.
  unfold envel_of_proof. destruct (ap_payment p) as [|t [|t' l]]; [left; auto| |left; split; [right; eauto|reflexivity]]. right. split; [eauto|]. split; [destruct (envel_of_map keep (ap_map p) []); discriminate|].
  transitivity (exists r, envel_of_map keep (ap_map p) [] = Some r); [destruct (envel_of_map keep (ap_map p) []); split; intros [x X]; try discriminate X; eauto|]. generalize (@nil (bytes * enode)). induction (ap_map p) as [|[k [a|]] m IH]; intros acc; cbn [envel_of_map].
  - split; [constructor|eauto].
  - rewrite Forall_cons_iff. cbn [snd]. rewrite <- (IH match envel_of_node keep k a with Some n => ins_id keep acc (rev k, n) | None => [] end). assert (Sa : (exists a0, Some a = Some a0 /\ solid a0) <-> solid a) by (split; [intros (b & E & Sb); congruence|eauto]). rewrite Sa, (converted_solid a k).
    destruct (envel_of_node keep k a) as [n|] eqn:E.
    + split; [intros X; split; [exists n; apply envel_of_node_exact; exact E|exact X]|tauto].
    + split; [intros [r X]; discriminate X|]. intros [[n C] _]. apply envel_of_node_exact in C. congruence.
  - split; [intros [r X]; discriminate X|]. intros X. apply Forall_cons_iff in X. destruct X as [(a & E & _) _]. discriminate E.
Qed.
End Convert.
