(* Proofs about the JSON form of envelopes. *)
From Coq Require Import String Sorted Lia ZifyBool ZifyNat ZifyN.
From Verif Require Import Base BaseProofs WireModel WireSpec WireProofs MerkleModel TextModel TextSpec JsonModel StratumConfigSpec DictProofs SpvModel AncModel TscModel TscSpec TscBinaryProofs TscJsonProofs EnvelopeSpec MapiModel MapiSpec MapiProofs MapiWrite SpvEnvModel SpvEnvSpec SpvEnvProofs SpvEnvBack.
Local Open Scope list_scope.
Local Open Scope N_scope.

Lemma json_all (P : json -> Prop) : (forall j, (forall o, j = JObject o -> forall k v, In (k, v) o -> P v) -> P j) -> forall j, P j.
Proof.
  intros F. fix go 1. intros j. apply F. intros o E. destruct j as [| | | | | | |o']; try discriminate E. assert (G : forall k v, In (k, v) o' -> P v).
  { clear E. induction o' as [|[i x] r IH]; [intros k v []|]. intros k v [E|E]; [|exact (IH k v E)]. pose proof (go x) as G. congruence. }
  assert (o' = o) as <- by congruence. exact G.
Qed.
Lemma find_map {A B} (f : A -> B) k (o : list (bytes * A)) : obj_find k (map (fun e => match e with (k, v) => (k, f v) end) o) = option_map f (obj_find k o).
Proof. induction o as [|[i v] o IH]; cbn [map obj_find]; [reflexivity|]. destruct (bytes_eqb k i); [reflexivity|exact IH]. Qed.

Lemma proof_says_exact b p : read_binary b = p /\ tsc_valid p = true <-> proof_says b p.
Proof.
  unfold proof_says. split.
  - intros [E V]. apply valid_exact in V. destruct V as [I T]. assert (N : p <> tsc_none) by (intros ->; destruct T as [(d & X & _)|[(d & _ & X & _)|(h & _ & _ & X)]]; discriminate X).
    destruct (proj1 (proj1 (read_binary_exact b p)) (conj E N)) as (c & rest & Eb & F). exists c, rest. split; [exact Eb|]. split; [exact F|]. apply form_not_none in F. destruct F as [_ F]. destruct I as [(t & X & _)|(d & _ & X)]; congruence.
  - intros (c & rest & Eb & F & I). destruct (proj2 (proj1 (read_binary_exact b p)) (ex_intro _ c (ex_intro _ rest (conj Eb F)))) as [E N]. split; [exact E|]. apply valid_exact. apply form_not_none in F. destruct F as [T X]. split; [|exact T]. right. destruct (ts_id p) as [d|]; [eauto|congruence].
Qed.

Section Read.
Variable keep : bool.
Variable odd : bytes -> option digest.
Lemma txid_read_exact s d : txid_read odd (JString s) = Ret (Some d) <-> digest_says odd s d /\ nonzero d.
Proof.
  cbn [txid_read]. rewrite <- read_digest_exact, <- digest_valid_nonzero. split.
  - destruct (read_digest odd s) as [x| |] eqn:E; cbn [and_then]; try discriminate. destruct (digest_valid x) eqn:V; [|discriminate]. intros X. assert (x = d) as -> by congruence. auto.
  - intros [-> V]. cbn [and_then]. rewrite V. reflexivity.
Qed.
Lemma inputs_read_exact {A} (wrap : enode -> A) l : forall acc r, inputs_read keep odd wrap acc l = Ret (Some r) <->
  exists es, Forall2 (fun e f => exists d n, snd e = Ret (Some n) /\ digest_says odd (fst e) d /\ nonzero d /\ f = (rev d, wrap n)) l es /\ r = fold_left (ins_id keep) es acc.
Proof.
  induction l as [|[k x] l IH]; intros acc r; cbn [inputs_read].
  - split; [intros E; exists []; split; [constructor|cbn; congruence]|]. intros (es & X & ->). inversion X. reflexivity.
  - split.
    + destruct x as [[n|]| |]; cbn [and_then]; try discriminate. destruct (txid_read odd (JString k)) as [[d|]| |] eqn:T; cbn [and_then]; try discriminate. intros E. apply IH in E. destruct E as (es & F & ->). apply txid_read_exact in T. destruct T as [T Z].
      exists ((rev d, wrap n) :: es). split; [|reflexivity]. constructor; [|exact F]. exists d, n. auto.
    + intros (es & X & ->). destruct es as [|f es]; [inversion X|]. assert (Y : Forall2 (fun e f => exists d n, snd e = Ret (Some n) /\ digest_says odd (fst e) d /\ nonzero d /\ f = (rev d, wrap n)) l es) by (inversion X; assumption).
      assert (Z : exists d n, x = Ret (Some n) /\ digest_says odd k d /\ nonzero d /\ f = (rev d, wrap n)) by (inversion X; assumption). destruct Z as (d & n & -> & D & Z & ->). cbn [and_then]. rewrite (proj2 (txid_read_exact k d)) by auto. cbn [and_then]. apply IH. exists es. auto.
Qed.
Variable dump : json -> bytes.
Variable parse : bytes -> option json.
Lemma mapi_read_exact j l : mapi_read odd dump parse j = Ret (Some l) <-> l = [] /\ no_answers j.
Proof.
  unfold mapi_read, no_answers, absent, has_list, member. change k_mapi_responses with (text "mapiResponses"). destruct (j_get (text "mapiResponses") j) as [v|].
  - destruct v as [| | | | | |a|]; try (split; [discriminate|intros [_ [X|X]]; discriminate X]). destruct a as [|x a]; cbn [answers_read].
    + split; [intros E; split; [congruence|auto]|intros [-> _]; reflexivity].
    + split; [|intros [_ [X|X]]; discriminate X]. destruct (response_read dump parse tx_status_none (tx_status_read odd) x) as [r| |] eqn:R; cbn [and_then]; try discriminate. apply response_lost in R. subst r. discriminate.
  - split; [intros E; split; [congruence|auto]|intros [-> _]; reflexivity].
Qed.
Definition subs (j : json) : option (list (bytes * outcome unit (option enode))) :=
  match j_get k_inputs j with Some (JObject i) => Some (map (fun e => (fst e, enode_read keep odd dump parse (snd e))) i) | _ => None end.
Lemma enode_read_eq j : enode_read keep odd dump parse j = enode_of keep odd dump parse j (subs j).
Proof.
  destruct j as [| | | | | | |o]; try reflexivity. cbn [enode_read]. f_equal. unfold subs. cbn [j_get].
  rewrite (find_map (fun v => match v with JObject i => Some (map (fun e => match e with (k, w) => (k, enode_read keep odd dump parse w) end) i) | _ => None end) k_inputs o).
  destruct (obj_find k_inputs o) as [v|]; [|reflexivity]. cbn [option_map]. destruct v as [| | | | | | |i]; try reflexivity. f_equal. apply map_ext. intros [k w]. reflexivity.
Qed.
Lemma has_get k j : j_has k j = match j_get k j with Some _ => true | None => false end.
Proof. reflexivity. Qed.
Lemma enode_read_exact j : forall n, enode_read keep odd dump parse j = Ret (Some n) <-> jnode_says keep odd j n.
Proof.
  assert (Q : (forall n, enode_read keep odd dump parse j = Ret (Some n) <-> jnode_says keep odd j n) /\
    forall o, j = JObject o -> forall k v, In (k, v) o -> forall n, enode_read keep odd dump parse v = Ret (Some n) <-> jnode_says keep odd v n); [|apply Q].
  induction j as [j IH] using json_all. split; [|intros o E k v Iv; apply (IH o E k v Iv)]. intros n.
  assert (Y : forall i, j_get (text "inputs") j = Some (JObject i) -> forall k v, In (k, v) i -> forall n, enode_read keep odd dump parse v = Ret (Some n) <-> jnode_says keep odd v n).
  { intros i E. destruct j as [| | | | | | |o]; try discriminate E. cbn [j_get] in E. apply maps_in in E. apply (proj2 (IH o eq_refl _ _ E) i eq_refl). }
  clear IH. rewrite enode_read_eq. unfold enode_of, subs. rewrite !has_get. change k_inputs with (text "inputs"). change k_proof with (text "proof"). change k_raw_tx with (text "rawTx").
  assert (E2 : forall i, j_get (text "inputs") j = Some (JObject i) -> forall ins, inputs_read keep odd (@Some enode) [] (map (fun e => (fst e, enode_read keep odd dump parse (snd e))) i) = Ret (Some ins) <->
    exists es, Forall2 (fun e f => exists d n, digest_says odd (fst e) d /\ nonzero d /\ f = (rev d, Some n) /\ jnode_says keep odd (snd e) n) i es /\ gathered keep es ins).
  { intros i Ei ins. specialize (Y i Ei). rewrite inputs_read_exact. split; intros (es & F & G); exists es.
    - split; [|apply gathered_exact; exact G]. clear G Ei. revert es F. induction i as [|[k v] i IHi]; intros es F; [inversion F; constructor|]. destruct es as [|f es]; [inversion F|]. cbn [map fst snd] in F.
      assert (F1 : exists d n, enode_read keep odd dump parse v = Ret (Some n) /\ digest_says odd k d /\ nonzero d /\ f = (rev d, Some n)) by (inversion F; assumption).
      assert (F2 : Forall2 (fun e f => exists d n, snd e = Ret (Some n) /\ digest_says odd (fst e) d /\ nonzero d /\ f = (rev d, Some n)) (map (fun e => (fst e, enode_read keep odd dump parse (snd e))) i) es) by (inversion F; assumption).
      constructor; [|apply IHi; [intros k' v' Iv; apply (Y k' v'); right; exact Iv|exact F2]]. destruct F1 as (d & n0 & R & D & Z & ->). exists d, n0. cbn [fst snd]. repeat (split; [assumption || reflexivity|]). apply (Y k v (or_introl eq_refl)). exact R.
    - split; [|apply gathered_exact; exact G]. clear G Ei. revert es F. induction i as [|[k v] i IHi]; intros es F; [inversion F; constructor|]. destruct es as [|f es]; [inversion F|]. cbn [map fst snd].
      assert (F1 : exists d n, digest_says odd k d /\ nonzero d /\ f = (rev d, Some n) /\ jnode_says keep odd v n) by (inversion F; assumption).
      assert (F2 : Forall2 (fun e f => exists d n, digest_says odd (fst e) d /\ nonzero d /\ f = (rev d, Some n) /\ jnode_says keep odd (snd e) n) i es) by (inversion F; assumption).
      constructor; [|apply IHi; [intros k' v' Iv; apply (Y k' v'); right; exact Iv|exact F2]]. destruct F1 as (d & n0 & D & Z & -> & R). exists d, n0. cbn [fst snd]. split; [apply (Y k v (or_introl eq_refl)); exact R|auto]. }
  split.
  - destruct (get_text (text "rawTx") j) as [r|] eqn:R; [|discriminate]. apply get_text_exact in R. destruct (Bool.eqb _ _) eqn:X; [discriminate|]. destruct (hex_read r) as [raw|] eqn:Hr; [|discriminate]. destruct (mapi_read odd dump parse j) as [[mapi|]| |] eqn:M; cbn [and_then]; try discriminate.
    apply mapi_read_exact in M. destruct M as [-> M]. destruct (j_get (text "proof") j) as [v|] eqn:P.
    + destruct (j_get (text "inputs") j) as [w|] eqn:Ei; [discriminate X|]. destruct v as [| | | | |s| |]; try discriminate. destruct (hex_read s) as [b|] eqn:Hs; [|discriminate]. destruct (tsc_valid (read_binary b)) eqn:V; [|discriminate]. intros E. assert (n = mkenode raw [] (Some (read_binary b)) []) as -> by congruence.
      apply js_proof with (s := s) (b := b); [exists r; auto|exact M|exact Ei|exact P|exact Hs|apply proof_says_exact; auto].
    + destruct (j_get (text "inputs") j) as [w|] eqn:Ei; [|discriminate X]. destruct w as [| | | | | | |i]; try discriminate. destruct (inputs_read _ _ _ _ _) as [[ins|]| |] eqn:Er; cbn [and_then]; try discriminate. cbn [option_map]. intros E. assert (n = mkenode raw [] None ins) as -> by congruence.
      apply (E2 i eq_refl) in Er. destruct Er as (es & F & G). apply js_inputs with (i := i) (es := es); [exists r; auto|exact M|exact P|exact Ei|exact F|exact G].
  - intros J. destruct J as [j raw s b p (r & R & Hr) M Ei P Hs V|j raw i es ins (r & R & Hr) M P Ei F G].
    + unfold absent in Ei. unfold has_text, member in P. apply get_text_exact in R. rewrite R, Ei, P. cbn [Bool.eqb]. rewrite Hr, (proj2 (mapi_read_exact j [])) by auto. cbn [and_then]. rewrite Hs. apply proof_says_exact in V. destruct V as [-> V]. rewrite V. reflexivity.
    + unfold absent in P. unfold member in Ei. apply get_text_exact in R. rewrite R, P. specialize (E2 i Ei ins). rewrite Ei. cbn [Bool.eqb]. rewrite Hr, (proj2 (mapi_read_exact j [])) by auto. cbn [and_then]. rewrite (proj2 E2) by eauto. reflexivity.
Qed.
Lemma inputs_said {A} (wrap : enode -> A) i ins : inputs_read keep odd wrap [] (map (fun e => (fst e, enode_read keep odd dump parse (snd e))) i) = Ret (Some ins) <->
  exists es, Forall2 (fun e f => exists d n, digest_says odd (fst e) d /\ nonzero d /\ f = (rev d, wrap n) /\ jnode_says keep odd (snd e) n) i es /\ gathered keep es ins.
Proof.
  rewrite inputs_read_exact. split; intros (es & F & G); exists es; (split; [|apply gathered_exact; exact G]); clear G; revert es F; induction i as [|[k v] i IHi]; intros es F.
  - inversion F; constructor.
  - destruct es as [|f es]; [inversion F|]. cbn [map fst snd] in F. assert (F1 : exists d n, enode_read keep odd dump parse v = Ret (Some n) /\ digest_says odd k d /\ nonzero d /\ f = (rev d, wrap n)) by (inversion F; assumption).
    assert (F2 : Forall2 (fun e f => exists d n, snd e = Ret (Some n) /\ digest_says odd (fst e) d /\ nonzero d /\ f = (rev d, wrap n)) (map (fun e => (fst e, enode_read keep odd dump parse (snd e))) i) es) by (inversion F; assumption).
    constructor; [|apply IHi; exact F2]. destruct F1 as (d & n0 & R & D & Z & ->). exists d, n0. cbn [fst snd]. repeat (split; [assumption || reflexivity|]). apply enode_read_exact. exact R.
  - inversion F; constructor.
  - destruct es as [|f es]; [inversion F|]. cbn [map fst snd]. assert (F1 : exists d n, digest_says odd k d /\ nonzero d /\ f = (rev d, wrap n) /\ jnode_says keep odd v n) by (inversion F; assumption).
    assert (F2 : Forall2 (fun e f => exists d n, digest_says odd (fst e) d /\ nonzero d /\ f = (rev d, wrap n) /\ jnode_says keep odd (snd e) n) i es) by (inversion F; assumption).
    constructor; [|apply IHi; exact F2]. destruct F1 as (d & n0 & D & Z & -> & R). exists d, n0. cbn [fst snd]. split; [apply enode_read_exact; exact R|auto].
Qed.
Lemma envel_says_read j e : envel_says keep odd j e -> envel_read keep odd dump parse j = Ret e.
Proof.
  intros ((r & R & Hr) & M & Em & T & (i & es & Ei & F & G)). unfold envel_read. unfold has_text, member in R, Ei. change k_raw_tx with (text "rawTx"). change k_inputs with (text "inputs"). change k_txid with (text "txid"). rewrite R, Ei, Hr, (proj2 (mapi_read_exact j [])) by auto. cbn [and_then].
  rewrite (proj2 (inputs_said (fun n => n) i (sv_inputs e))) by eauto. cbn [and_then]. destruct e as [tx raw mapi ins]. cbn [sv_txid sv_raw sv_mapi sv_inputs] in *. subst mapi. destruct T as [[A ->]|(s & d & A & D & Z & ->)].
  - unfold absent in A. rewrite A. reflexivity.
  - unfold has_text, member in A. rewrite A, (proj2 (txid_read_exact s d)) by auto. reflexivity.
Qed.
Lemma envel_read_says j e : envel_read keep odd dump parse j = Ret e -> envel_says keep odd j e \/ e = envel_none.
Proof.
  unfold envel_read. change k_raw_tx with (text "rawTx"). change k_inputs with (text "inputs"). change k_txid with (text "txid"). destruct (j_get (text "rawTx") j) as [v|] eqn:R; [|right; congruence]. destruct v as [| | | | |r| |]; try (right; congruence).
  destruct (j_get (text "inputs") j) as [w|] eqn:Ei; [|right; congruence]. destruct w as [| | | | | | |i]; try (right; congruence). destruct (hex_read r) as [raw|] eqn:Hr; [|right; congruence]. destruct (mapi_read odd dump parse j) as [[mapi|]| |] eqn:M; cbn [and_then]; try discriminate; [|right; congruence].
  apply mapi_read_exact in M. destruct M as [-> M]. destruct (inputs_read _ _ _ _ _) as [[ins|]| |] eqn:Er; cbn [and_then]; try discriminate; [|right; congruence]. apply inputs_said in Er. destruct Er as (es & F & G).
  destruct (j_get (text "txid") j) as [t|] eqn:T.
  - destruct t as [| | | | |s| |]; try (cbn [txid_read and_then]; right; congruence). destruct (txid_read odd (JString s)) as [[d|]| |] eqn:D; cbn [and_then]; try discriminate; [|right; congruence]. intros E. assert (e = mkspv (Some d) raw [] ins) as -> by congruence. left. apply txid_read_exact in D. destruct D as [D Z].
    split; [exists r; auto|]. split; [exact M|]. split; [reflexivity|]. split; [right; exists s, d; auto|]. exists i, es. auto.
  - intros E. assert (e = mkspv None raw [] ins) as -> by congruence. left. split; [exists r; auto|]. split; [exact M|]. split; [reflexivity|]. split; [left; auto|]. exists i, es. auto.
Qed.
Theorem envel_read_exact j e : e <> envel_none -> (envel_read keep odd dump parse j = Ret e <-> envel_says keep odd j e).
Proof. intros N. split; [|apply envel_says_read]. intros E. destruct (envel_read_says j e E) as [X|X]; [exact X|contradiction]. Qed.
Lemma said_bare n : forall j, jnode_says keep odd j n -> bare n.
Proof.
  induction n as [raw mapi proof ins IH] using enode_all. intros j J. remember (mkenode raw mapi proof ins) as n eqn:En. destruct J as [j raw' s b p _ _ _ _ _ _|j raw' i es ins' _ _ _ _ F G].
  - constructor. constructor.
  - assert (ins' = ins) as -> by congruence. constructor. apply Forall_forall. intros [k x] I0 n' E. cbn [snd] in E. subst x. assert (X : exists w, jnode_says keep odd w n').
    { apply (gathered_in _ _ _ _ _ G) in I0. clear G En IH. induction F as [|e f i es (d & n0 & _ & _ & -> & J) F IHF]; [destruct I0|]. destruct I0 as [E|I0]; [|apply IHF; exact I0]. exists (snd e). congruence. }
    destruct X as [w X]. exact (IH k n' I0 w X).
Qed.
Theorem read_bare j e : envel_read keep odd dump parse j = Ret e -> sv_mapi e = [] /\ Forall (fun x => bare (snd x)) (sv_inputs e).
Proof.
  intros E. destruct (envel_read_says j e E) as [(_ & _ & Em & _ & (i & es & _ & F & G))| ->]; [|split; [reflexivity|constructor]]. split; [exact Em|]. apply Forall_forall. intros [k n] I0. apply (gathered_in _ _ _ _ _ G) in I0. cbn [snd].
  clear G. induction F as [|x f i es (d & n0 & _ & _ & -> & J) F IHF]; [destruct I0|]. destruct I0 as [X|I0]; [|apply IHF; exact I0]. assert (n = n0) as -> by congruence. exact (said_bare n0 _ J).
Qed.
End Read.

(* ---------------------------------------------------------------- writing *)
Section Write.
Variable keep : bool.
Variable u1 u2 : bool.
Variable odd : bytes -> option digest.
Variable dump : json -> bytes.
Variable parse : bytes -> option json.
Variable answer : response tx_status -> json.
Lemma key_text_inj a b : key_text u2 a = key_text u2 b -> a = b.
Proof. unfold key_text. intros E. assert (X : Some (rev (rev a)) = Some (rev (rev b))) by (rewrite <- !(digest_text_read u2), E; reflexivity). rewrite !rev_involutive in X. congruence. Qed.
(* what is written for the entries of a map is gathered again *)
Lemma written_gathered {A} (W : bytes * A -> json -> Prop) (l : list (bytes * A)) js : sorted l ->
  Forall2 (fun e f => fst f = key_text u2 (fst e) /\ W e (snd f)) l js ->
  exists es, Forall2 (fun x f => fst x = key_text u2 (fst f) /\ W f (snd x)) (fold_left (ins_id false) js []) es /\ gathered keep es l.
Proof.
  intros S F. set (i := fold_left (ins_id false) js []). assert (Gi : gathered false js i) by (apply gathered_exact; reflexivity).
  assert (Kj : map fst js = map (key_text u2) (map fst l)) by (clear S Gi i; induction F as [|e f l js [K _] F IH]; [reflexivity|]; cbn [map]; rewrite K, IH; reflexivity).
  assert (Nl : NoDup (map fst l)) by (apply sorted_nodup; exact S). assert (Nj : NoDup (map fst js)).
  { rewrite Kj. clear - Nl. induction (map fst l) as [|k t IH]; cbn [map]; [constructor|]. apply NoDup_cons_iff in Nl. destruct Nl as [Nk Nl]. constructor; [|apply IH; exact Nl]. intros X. apply in_map_iff in X. destruct X as (k' & E & X). apply key_text_inj in E. subst k'. contradiction. }
  pose proof (gathered_unique false js i Nj Gi) as U.
  assert (P : forall x, In x js -> exists f, In f l /\ fst x = key_text u2 (fst f) /\ W f (snd x)).
  { clear - F. induction F as [|e f l js [K X] F IH]; intros x Ix; [destruct Ix|]. destruct Ix as [<-|Ix]; [exists e; split; [left; reflexivity|auto]|]. destruct (IH x Ix) as (g & Ig & Y). exists g. split; [right; exact Ig|exact Y]. }
  assert (P' : forall f, In f l -> exists x, In x js /\ fst x = key_text u2 (fst f)).
  { clear - F. induction F as [|e f l js [K X] F IH]; intros g Ig; [destruct Ig|]. destruct Ig as [<-|Ig]; [exists f; split; [left; reflexivity|auto]|]. destruct (IH g Ig) as (x & Ix & Y). exists x. split; [right; exact Ix|exact Y]. }
  assert (X : exists es, Forall2 (fun x f => (fst x = key_text u2 (fst f) /\ W f (snd x)) /\ In f l) i es).
  { assert (Q : forall x, In x i -> In x js) by (intros [k v] Ix; apply U; exact Ix). clear - P Q. induction i as [|x i IH]; [exists []; constructor|]. destruct IH as [es IH]; [intros y Iy; apply Q; right; exact Iy|]. destruct (P x (Q x (or_introl eq_refl))) as (f & If & Y). exists (f :: es). constructor; auto. }
  destruct X as [es X]. exists es. split; [clear - X; induction X as [|x f i es [Y _] X IH]; constructor; assumption|].
  assert (Ke : map fst i = map (key_text u2) (map fst es)) by (clear - X; induction X as [|x f i es [[K _] _] X IH]; [reflexivity|]; cbn [map]; rewrite K, IH; reflexivity).
  assert (Ne : NoDup (map fst es)) by (apply (NoDup_map_inv (key_text u2)); rewrite <- Ke; apply sorted_nodup; apply Gi).
  assert (Sub : forall f, In f es -> In f l) by (clear - X; induction X as [|x f i es [_ Y] X IH]; intros g Ig; [destruct Ig|]; destruct Ig as [<-|Ig]; [exact Y|apply IH; exact Ig]).
  apply gathered_set; [exact Ne|exact S|]. intros k v. split; [|apply Sub]. intros Il. destruct (P' (k, v) Il) as ([kt w] & Ij & E). cbn [fst] in E. apply U in Ij. apply (in_map fst) in Ij. cbn [fst] in Ij. rewrite Ke, E in Ij. apply in_map_iff in Ij. destruct Ij as (k' & Ek & Ik). apply key_text_inj in Ek. subst k'.
  apply in_map_iff in Ik. destruct Ik as ([k' v'] & Ek & Ie). cbn [fst] in Ek. subst k'. pose proof (Sub _ Ie) as Il'. apply (in_maps l _ _ S) in Il. apply (in_maps l _ _ S) in Il'. rewrite (maps_fun _ _ _ _ Il Il'). exact Ie.
Qed.
Lemma id_says k : id_ok (rev k) -> digest_says odd (key_text u2 k) (rev k) /\ nonzero (rev k).
Proof. intros [L N]. split; [apply text_says; exact L|exact N]. Qed.
Definition write_go := fix go (l : list (bytes * option enode)) (acc : list (bytes * json)) : outcome unit (list (bytes * json)) :=
  match l with
  | [] => Ret acc
  | (k, Some c) :: r => and_then (enode_write u1 u2 answer c) (fun j => go r (obj_set (key_text u2 k) j acc))
  | (_, None) :: _ => Undef
  end.
Lemma enode_written n : restorable n -> exists j, enode_write u1 u2 answer n = Ret j /\ jnode_says keep odd j n.
Proof.
  induction n as [raw mapi proof ins IH] using enode_all. intros R. remember (mkenode raw mapi proof ins) as n eqn:En. destruct R as [raw' p W I0 T N L|raw' ins' S F].
  - destruct (binary_round_trip p W) as (b & E & Rb); [apply valid_exact; auto|]. specialize (Rb []). rewrite app_nil_r in Rb. assert (V : read_binary b = p).
    { rewrite Rb. destruct p as [t d pa h r k]. cbn [ts_tx ts_path] in N, L. subst t. unfold without_tx, with_index32. cbn [ts_id ts_path ts_hash ts_root ts_header]. rewrite N.mod_small by exact L. destruct pa. reflexivity. }
    cbn [enode_write with_answers]. rewrite E. cbn [and_then]. eexists. split; [reflexivity|]. apply js_proof with (s := hex_of u1 b) (b := b).
    + exists (hex_of u1 raw'). split; [reflexivity|apply hex_of_read].
    + left. reflexivity.
    + reflexivity.
    + reflexivity.
    + apply hex_of_read.
    + apply proof_says_exact. split; [exact V|]. apply valid_exact. auto.
  - assert (ins' = ins) as -> by congruence. clear En. change (enode_write u1 u2 answer (mkenode raw' [] None ins)) with (and_then (write_go ins []) (fun i => Ret (JObject (obj_set k_inputs (JObject i) (obj_set k_raw_tx (JString (hex_of u1 raw')) []))))).
    assert (X : forall l, Forall (fun e => id_ok (rev (fst e)) /\ exists n, snd e = Some n /\ restorable n) l -> (forall k c, In (k, Some c) l -> restorable c -> exists j, enode_write u1 u2 answer c = Ret j /\ jnode_says keep odd j c) ->
      exists js, (forall acc, write_go l acc = Ret (fold_left (ins_id false) js acc)) /\ Forall2 (fun e f => fst f = key_text u2 (fst e) /\ id_ok (rev (fst e)) /\ exists n, snd e = Some n /\ jnode_says keep odd (snd f) n) l js).
    { clear. intros l F. induction F as [|[k x] l (O & n & E & R) F IHF]; intros IH; [exists []; split; [reflexivity|constructor]|]. cbn [fst snd] in *. subst x. destruct (IH k n (or_introl eq_refl) R) as (j & Ej & J). destruct IHF as (js & Wj & Fj); [intros k' c' Ic; apply (IH k' c'); right; exact Ic|].
      exists ((key_text u2 k, j) :: js). split; [intros acc; cbn [write_go]; rewrite Ej; cbn [and_then]; rewrite Wj; reflexivity|]. constructor; [|exact Fj]. cbn [fst snd]. split; [reflexivity|]. split; [exact O|]. exists n. auto. }
    destruct (X ins F IH) as (js & Wj & Fj). rewrite Wj. cbn [and_then]. eexists. split; [reflexivity|].
    destruct (written_gathered (fun e j => id_ok (rev (fst e)) /\ exists n, snd e = Some n /\ jnode_says keep odd j n) ins js S Fj) as (es & Fe & G).
    apply js_inputs with (i := fold_left (ins_id false) js []) (es := es).
    + exists (hex_of u1 raw'). split; [reflexivity|apply hex_of_read].
    + left. reflexivity.
    + reflexivity.
    + reflexivity.
    + clear - Fe. induction Fe as [|x [k v] i es (K & O & n & E & J) Fe IHe]; constructor; [|exact IHe]. cbn [fst snd] in *. subst v. exists (rev k), n. rewrite K, rev_involutive. destruct (id_says k O) as [D Z]. auto.
    + exact G.
Qed.
Theorem envel_round_trip e : envel_restorable e -> exists j, envel_write u1 u2 answer e = Ret j /\ envel_read keep odd dump parse j = Ret e.
Proof.
  intros (Em & Ht & S & F). assert (X : exists js, (forall acc, enodes_write u1 u2 answer (sv_inputs e) acc = Ret (fold_left (ins_id false) js acc)) /\
    Forall2 (fun e f => fst f = key_text u2 (fst e) /\ id_ok (rev (fst e)) /\ jnode_says keep odd (snd f) (snd e)) (sv_inputs e) js).
  { clear S. induction F as [|[k n] l (O & R) F IHF]; [exists []; split; [reflexivity|constructor]|]. cbn [fst snd] in *. destruct (enode_written n R) as (j & Ej & J). destruct IHF as (js & Wj & Fj).
    exists ((key_text u2 k, j) :: js). split; [intros acc; cbn [enodes_write]; rewrite Ej; cbn [and_then]; rewrite Wj; reflexivity|]. constructor; [|exact Fj]. cbn [fst snd]. auto. }
  destruct X as (js & Wj & Fj). destruct (written_gathered (fun e j => id_ok (rev (fst e)) /\ jnode_says keep odd j (snd e)) (sv_inputs e) js S Fj) as (es & Fe & G). unfold envel_write. rewrite Em. cbn [with_answers]. rewrite Wj. cbn [and_then]. eexists. split; [reflexivity|]. apply envel_says_read.
  set (i := fold_left (ins_id false) js []) in *. unfold envel_says, raw_says, no_answers, absent, has_text, member. cbn [j_get]. split; [exists (hex_of u1 (sv_raw e)); split; [destruct (sv_txid e); reflexivity|apply hex_of_read]|]. split; [left; destruct (sv_txid e); reflexivity|]. split; [exact Em|]. split.
  - destruct (sv_txid e) as [d|]; [right|left; split; reflexivity]. destruct (Ht d eq_refl) as [L N]. exists (digest_text u2 d), d. split; [reflexivity|]. split; [apply text_says; exact L|auto].
  - exists i, es. split; [destruct (sv_txid e); reflexivity|]. split; [|exact G]. clear - Fe. induction Fe as [|x [k n] i es (K & O & J) Fe IHe]; constructor; [|exact IHe]. cbn [fst snd] in *. exists (rev k), n. rewrite K, rev_involutive. destruct (id_says k O) as [D Z]. auto.
Qed.
(* an SPV proof sent as JSON *)
Lemma sendable_restorable a : forall d n, ordered a -> sendable a -> id_ok d -> converted keep d a n -> restorable n.
Proof.
  induction a as [t c|t l IH] using anode_all; intros d n O Sd [Ld Nd] C.
  - assert (n = mkenode (tx_write t) [] (Some (mktsc None (Some d) (c_path c) None None (Some (c_header c)))) []) as -> by (inversion C; reflexivity). assert (X : header_wf (c_header c) /\ p_index (c_path c) < 2 ^ 32 /\ N.of_nat (length (p_digests (c_path c))) < 2 ^ 64 /\ Forall (opt_wf (fun d => length d = 32%nat)) (p_digests (c_path c))) by (inversion Sd; auto). destruct X as (Wh & Li & Ln & Wd).
    constructor; [|right; exists d; split; reflexivity|right; right; exists (c_header c); repeat (split; [reflexivity|]); reflexivity|reflexivity|exact Li]. unfold tsc_wf. cbn [ts_tx ts_id ts_path ts_hash ts_root ts_header opt_wf]. change (2 ^ 32) with 4294967296 in Li. change (2 ^ 64) with 18446744073709551616 in *. repeat (split; [exact Logic.I || assumption || lia|]). exact Wd.
  - destruct (ordered_inputs keep d t l n O C) as (ins & -> & Sm & Om & F). assert (Sl : Forall (fun e => id_ok (fst e) /\ forall a, snd e = Some a -> sendable a) l) by (inversion Sd; assumption). constructor; [eapply id_sorted_es; [|exact F|exact Sm]; intros e f (b & n & _ & -> & _); reflexivity|].
    clear O C Sd Sm. induction F as [|[k x] f l ins (a & n & E & -> & Ca) F IHF]; constructor.
    + cbn [fst snd] in *. subst x. apply Forall_cons_iff in Sl. destruct Sl as [[Ok Sa] _]. rewrite rev_involutive. split; [exact Ok|]. exists n. split; [reflexivity|]. apply (IH k a (or_introl eq_refl) k); [apply (Om k a (or_introl eq_refl))|apply Sa; reflexivity|exact Ok|exact Ca].
    + apply Forall_cons_iff in Sl. destruct Sl as [_ Sl]. apply IHF; [intros k' a' Ia; apply (IH k' a'); right; exact Ia|intros k' a' Ia; apply (Om k' a'); right; exact Ia|exact Sl].
Qed.
Theorem sent_and_read p e : id_sorted (ap_map p) -> Forall (fun x => id_ok (fst x) /\ forall a, snd x = Some a -> ordered a /\ sendable a) (ap_map p) -> envel_of_proof keep p = Ret e ->
  exists j, envel_write u1 u2 answer e = Ret j /\ envel_read keep odd dump parse j = Ret e.
Proof.
  intros S O C. apply envel_of_proof_exact in C. destruct (proof_inputs keep p e S C) as (t & P & E & F). apply envel_round_trip. split; [rewrite E; reflexivity|]. split; [rewrite E; discriminate|]. split; [eapply id_sorted_es; [|exact F|exact S]; intros x f (a & n & _ & -> & _); reflexivity|].
  clear S C P E. induction F as [|[k x] f l ins (a & n & E & -> & Ca) F IHF]; constructor.
  - cbn [fst snd] in *. subst x. apply Forall_cons_iff in O. destruct O as [[Ok Oa] _]. destruct (Oa a eq_refl) as [O1 O2]. rewrite rev_involutive. split; [exact Ok|]. exact (sendable_restorable a k n O1 O2 Ok Ca).
  - apply IHF. apply Forall_cons_iff in O. apply O.
Qed.
Theorem answers_not_back e j : ~ (sv_mapi e = [] /\ Forall (fun x => bare (snd x)) (sv_inputs e)) -> envel_read keep odd dump parse j <> Ret e.
Proof. intros N E. apply N. eapply read_bare. exact E. Qed.
End Write.
