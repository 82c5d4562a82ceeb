(* Proofs about which SPV proofs make valid envelopes and come back from them. *)
From Coq Require Import String Sorted Lia ZifyBool ZifyNat ZifyN.
From Verif Require Import Base BaseProofs WireModel WireSpec WireProofs MerkleModel TextModel JsonModel StratumConfigSpec DictProofs SpvModel AncModel TscModel TscSpec TscBinaryProofs EnvelopeSpec MapiModel MapiSpec MapiProofs SpvEnvModel SpvEnvSpec SpvEnvProofs.
Local Open Scope list_scope.
Local Open Scope N_scope.

Lemma rev_inj {A} (a b : list A) : rev a = rev b -> a = b.
Proof. intros E. rewrite <- (rev_involutive a), E. apply rev_involutive. Qed.
Lemma sorted_keys {A B} (a : list (bytes * A)) : forall (b : list (bytes * B)), map fst a = map fst b -> sorted a -> sorted b.
Proof.
  induction a as [|x a IH]; intros [|y b] E S; try discriminate E; [constructor|]. cbn [map] in E. assert (fst x = fst y) by congruence. assert (Em : map fst a = map fst b) by congruence. constructor; [apply IH; [exact Em|exact (sorted_tail _ _ S)]|].
  apply sorted_head in S. apply Forall_forall. intros z Iz. apply (in_map fst) in Iz. rewrite <- Em in Iz. apply in_map_iff in Iz. destruct Iz as (w & Ew & Iw). rewrite Forall_forall in S. specialize (S w Iw). congruence.
Qed.
Lemma gathered_fun {A} keep (es f g : list (bytes * A)) : gathered keep es f -> gathered keep es g -> f = g.
Proof. intros F G. apply gathered_exact in F, G. congruence. Qed.
Lemma id_sorted_es {A B} (R : bytes * A -> bytes * B -> Prop) m es : (forall e f, R e f -> fst f = rev (fst e)) -> Forall2 R m es -> id_sorted m -> sorted es.
Proof.
  intros K F S. unfold id_sorted in S. eapply sorted_keys; [|exact S]. rewrite map_map. cbn [fst]. induction F as [|e f m es X F IH]; [reflexivity|]. cbn [map]. rewrite (K _ _ X). f_equal. apply IH. eapply sorted_tail. exact S.
Qed.

Section Named.
Variable H : bytes -> bytes.
Variable keep : bool.
Lemma ordered_inputs d t m n : ordered (mkanode t (Antecedents m)) -> converted keep d (mkanode t (Antecedents m)) n ->
  exists ins, n = mkenode (tx_write t) [] None ins /\ id_sorted m /\ (forall k a, In (k, Some a) m -> ordered a) /\
  Forall2 (fun e f => exists a n, snd e = Some a /\ f = (rev (fst e), Some n) /\ converted keep (fst e) a n) m ins.
Proof.
  intros O C. assert (Sm : id_sorted m) by (inversion O; assumption). assert (Om : Forall (fun e => forall a, snd e = Some a -> ordered a) m) by (inversion O; assumption).
  remember (mkanode t (Antecedents m)) as a eqn:Ea. destruct C as [d t' c|d t' m' es ins F G]; [discriminate Ea|]. assert (t' = t) as -> by congruence. assert (m' = m) as -> by congruence. exists ins. split; [reflexivity|]. split; [exact Sm|]. split.
  - intros k a I0. rewrite Forall_forall in Om. apply (Om _ I0). reflexivity.
  - assert (es = ins) as <-; [|exact F]. eapply gathered_fun; [|exact G]. apply gathered_self. eapply id_sorted_es; [|exact F|exact Sm]. intros e f (b & n & _ & -> & _). reflexivity.
Qed.
Lemma named_sound a : forall d n, ordered a -> converted keep d a n -> (node_sound H (fun p => identified p /\ targeted p) false (rev d) n <-> named H d a).
Proof.
  induction a as [t c|t m IH] using anode_all; intros d n O C.
  - assert (n = mkenode (tx_write t) [] (Some (mktsc None (Some d) (c_path c) None None (Some (c_header c)))) []) as -> by (inversion C; reflexivity). split.
    + intros Sd. assert (E : rev (H (tx_write t)) = rev d) by (inversion Sd; congruence). apply rev_inj in E. subst d. constructor.
    + intros N. assert (E : rev d = rev (H (tx_write t))) by (inversion N; congruence). rewrite E. constructor; [split; [congruence|discriminate]|constructor|]. unfold identified, targeted. cbn [ts_tx ts_id ts_hash ts_root ts_header]. split; [right; eauto|right; right; eauto].
  - destruct (ordered_inputs d t m n O C) as (ins & -> & Sm & Om & F). clear C O. assert (X : Forall (fun e => exists c, snd e = Some c /\ node_sound H (fun p => identified p /\ targeted p) false (fst e) c) ins <-> Forall (fun e => exists a, snd e = Some a /\ named H (fst e) a) m).
    { clear Sm. induction F as [|[k x] f m ins (a & n & E & -> & Ca) F IHF]; [split; constructor|]. cbn [fst snd] in *. subst x. rewrite !Forall_cons_iff. cbn [fst snd]. rewrite IHF; [|intros k' a' Ia; apply (IH k' a'); right; exact Ia|intros k' a' Ia; apply (Om k' a'); right; exact Ia].
      pose proof (IH k a (or_introl eq_refl) k n (Om k a (or_introl eq_refl)) Ca) as Y. split.
      - intros [(n' & En & Sd) R]. assert (n' = n) as -> by congruence. split; [exists a; split; [reflexivity|apply Y; exact Sd]|exact R].
      - intros [(a' & Ea & N) R]. assert (a' = a) as -> by congruence. split; [exists n; split; [reflexivity|apply Y; exact N]|exact R]. }
    assert (Z : ins <> [] <-> m <> []) by (destruct F; split; congruence). split.
    + intros Sd. remember (rev d) as k eqn:Ek. remember (mkenode (tx_write t) [] None ins) as n eqn:En. destruct Sd as [raw mapi p A V P|raw mapi ins' A V N Fn]; [discriminate En|]. assert (raw = tx_write t) as -> by congruence. assert (ins' = ins) as -> by congruence. apply rev_inj in Ek. subst d. constructor; [apply Z; exact N|apply X; exact Fn].
    + intros N. remember (mkanode t (Antecedents m)) as a eqn:Ea. destruct N as [t' c|t' m' N Fm]; [discriminate Ea|]. assert (t' = t) as -> by congruence. assert (m' = m) as -> by congruence. constructor; [split; [congruence|discriminate]|constructor|apply Z; exact N|apply X; exact Fm].
Qed.
Lemma proof_inputs p e : id_sorted (ap_map p) -> proof_converted keep p e -> exists t, ap_payment p = [t] /\ e = mkspv None (tx_write t) [] (sv_inputs e) /\
  Forall2 (fun x f => exists a n, snd x = Some a /\ f = (rev (fst x), n) /\ converted keep (fst x) a n) (ap_map p) (sv_inputs e).
Proof.
  intros S (t & es & P & A & B & C & F & G). exists t. split; [exact P|]. split; [destruct e as [e1 e2 e3 e4]; cbn [sv_txid sv_raw sv_mapi sv_inputs] in *; congruence|]. assert (sv_inputs e = es) as ->; [|exact F]. eapply gathered_fun; [exact G|]. apply gathered_self. eapply id_sorted_es; [|exact F|exact S]. intros x f (a & n & _ & -> & _). reflexivity.
Qed.
Theorem from_proof_valid p e : id_sorted (ap_map p) -> Forall (fun x => forall a, snd x = Some a -> ordered a) (ap_map p) -> envel_of_proof keep p = Ret e ->
  (envel_valid H e = true <-> Forall (fun x => exists a, snd x = Some a /\ named H (fst x) a) (ap_map p)).
Proof.
  intros S O C. apply envel_of_proof_exact in C. destruct (proof_inputs p e S C) as (t & P & E & F). rewrite envel_valid_exact. rewrite E. unfold envel_sound. cbn [sv_txid sv_raw sv_mapi sv_inputs]. clear E C S.
  assert (X : forall b, Forall (fun x => node_sound H (fun p => identified p /\ targeted p) b (fst x) (snd x)) (sv_inputs e) -> sv_inputs e <> [] -> b = false).
  { intros b Fb N. destruct F as [|[k x] f m ins (a & n & _ & -> & Ca) F]; [congruence|]. apply Forall_cons_iff in Fb. destruct Fb as [Sd _]. cbn [fst snd] in Sd. destruct b; [|reflexivity]. destruct Ca; inversion Sd as [? ? ? A|? ? ? A]; exfalso; destruct A as [_ A]; apply A; reflexivity. }
  assert (Y : Forall (fun x => node_sound H (fun p => identified p /\ targeted p) false (fst x) (snd x)) (sv_inputs e) <-> Forall (fun x => exists a, snd x = Some a /\ named H (fst x) a) (ap_map p)).
  { clear X P. induction F as [|[k x] f m ins (a & n & E & -> & Ca) F IHF]; [split; constructor|]. cbn [fst snd] in *. subst x. apply Forall_cons_iff in O. destruct O as [Oa O]. specialize (Oa a eq_refl). rewrite !Forall_cons_iff. cbn [fst snd]. rewrite IHF by exact O. rewrite (named_sound a k n Oa Ca). split; [|intros [(a' & Ea & N) R]; assert (a' = a) as -> by congruence; auto]. intros [N R]. split; [eauto|exact R]. }
  rewrite <- Y. split.
  - intros (_ & _ & b & Fb). destruct (sv_inputs e) as [|i ins] eqn:Ei; [constructor|]. assert (b = false) as -> by (apply X; [exact Fb|discriminate]). exact Fb.
  - intros Fb. split; [discriminate|]. split; [constructor|]. exists false. exact Fb.
Qed.
End Named.

(* ---------------------------------------------------------------- to SPV proofs *)
Section Back.
Variable H : bytes -> bytes.
Variable m : db.
Lemma read_confirmation_exact p c : read_confirmation H m p = Some c <-> confirms m p c.
Proof.
  unfold read_confirmation, confirms, tsc_txid. destruct p as [tx id pa h r b]. cbn [ts_tx ts_id ts_path ts_hash ts_root ts_header]. split.
  - intros E. assert (I : id <> None \/ tx <> None) by (destruct id; [left; discriminate|]; destruct tx; [right; discriminate|discriminate E]). split; [exact I|].
    assert (E' : match b with Some hd => match header_by m (h_merkle_root hd) with Some (n, _) => Some (mkconf pa n hd) | None => None end
      | None => match match r with Some r => Some r | None => h end with Some d => match header_by m d with Some (n, h) => Some (mkconf pa n h) | None => None end | None => None end end = Some c) by (destruct id; [exact E|]; destruct tx; [exact E|discriminate E]). clear E.
    destruct b as [hd|].
    + destruct (header_by m (h_merkle_root hd)) as [[n h']|] eqn:B; [|discriminate E']. assert (c = mkconf pa n hd) as -> by congruence. split; [reflexivity|]. left. exists hd, n, h'. auto.
    + destruct r as [r|]; [|destruct h as [h|]; [|discriminate E']].
      * destruct (header_by m r) as [[n h']|] eqn:B; [|discriminate E']. assert (c = mkconf pa n h') as -> by congruence. split; [reflexivity|]. right. split; [reflexivity|]. exists r, n, h'. auto.
      * destruct (header_by m h) as [[n h']|] eqn:B; [|discriminate E']. assert (c = mkconf pa n h') as -> by congruence. split; [reflexivity|]. right. split; [reflexivity|]. exists h, n, h'. auto.
  - intros (I & P & T). assert (X : exists d, match id, tx with Some d, _ => Some d | None, Some t => Some (H t) | None, None => None end = Some d) by (destruct id; [eauto|]; destruct tx; [eauto|]; destruct I as [I|I]; congruence). destruct X as [d ->]. destruct c as [cp cn ch]. cbn [c_path c_height c_header] in *. subst cp.
    destruct T as [(hd & n & h' & -> & -> & -> & ->)|(-> & d' & n & h' & D & B & -> & ->)]; [reflexivity|]. destruct D as [->|[-> ->]]; rewrite B; reflexivity.
Qed.
Definition back_go := fix go (l : list (bytes * option enode)) : option amap :=
  match l with
  | [] => Some []
  | (k, Some c) :: r => match spv_of_node H m c, go r with Some a, Some s => Some ((rev k, Some a) :: s) | _, _ => None end
  | (_, None) :: _ => None
  end.
Lemma back_go_exact l : (forall k n, In (k, Some n) l -> forall a, spv_of_node H m n = Some a <-> returned m n a) ->
  forall r, back_go l = Some r <-> Forall2 (fun e f => exists n a, snd e = Some n /\ f = (rev (fst e), Some a) /\ returned m n a) l r.
Proof.
  induction l as [|[k [n|]] l IH]; intros F r; cbn [back_go].
  - split; [intros E; assert (r = []) as -> by congruence; constructor|]. intros X. inversion X. reflexivity.
  - assert (Fl : forall k n, In (k, Some n) l -> forall a, spv_of_node H m n = Some a <-> returned m n a) by (intros k' n' Ic; apply (F k' n'); right; exact Ic). specialize (F k n (or_introl eq_refl)). specialize (IH Fl). split.
    + destruct (spv_of_node H m n) as [a|]; [|discriminate]. destruct (back_go l) as [s|]; [|discriminate]. intros E. assert (r = (rev k, Some a) :: s) as -> by congruence. constructor; [|apply IH; reflexivity]. exists n, a. split; [reflexivity|]. split; [reflexivity|]. apply F. reflexivity.
    + intros X. destruct r as [|f s]; [inversion X|]. assert (Y : Forall2 (fun e f => exists n a, snd e = Some n /\ f = (rev (fst e), Some a) /\ returned m n a) l s) by (inversion X; assumption).
      assert (Z : exists n' a, Some n = Some n' /\ f = (rev k, Some a) /\ returned m n' a) by (inversion X; assumption). destruct Z as (n' & a & En & -> & R). assert (n' = n) as -> by congruence. apply F in R. rewrite R. apply IH in Y. rewrite Y. reflexivity.
  - split; [discriminate|]. intros X. inversion X as [|e f ? ? (n & a & E & _) _]. discriminate E.
Qed.
Lemma spv_of_node_exact n : forall a, spv_of_node H m n = Some a <-> returned m n a.
Proof.
  induction n as [raw mapi proof ins IH] using enode_all. intros a. destruct proof as [p|].
  - cbn [spv_of_node]. pose proof (read_confirmation_exact p) as C. split.
    + destruct (read_confirmation H m p) as [c|]; [|discriminate]. cbn [option_map]. intros E. assert (a = mkanode (tx_of_slice raw) (Confirmed c)) as -> by congruence. constructor. apply C. reflexivity.
    + intros R. remember (mkenode raw mapi (Some p) ins) as n eqn:En. destruct R as [raw' mapi' p' ins' c X|]; [|discriminate En]. assert (raw' = raw) as -> by congruence. assert (p' = p) as -> by congruence. apply C in X. rewrite X. reflexivity.
  - change (spv_of_node H m (mkenode raw mapi None ins)) with (option_map (fun l => mkanode (tx_of_slice raw) (Antecedents l)) (back_go ins)). pose proof (back_go_exact ins IH) as G. split.
    + destruct (back_go ins) as [l|]; [|discriminate]. cbn [option_map]. intros E. assert (a = mkanode (tx_of_slice raw) (Antecedents l)) as -> by congruence. constructor. apply G. reflexivity.
    + intros R. remember (mkenode raw mapi None ins) as n eqn:En. destruct R as [|raw' mapi' ins' l X]; [discriminate En|]. assert (raw' = raw) as -> by congruence. assert (ins' = ins) as -> by congruence. apply G in X. rewrite X. reflexivity.
Qed.
Lemma spv_of_map_exact l : forall r, spv_of_map H m l = Some r <-> Forall2 (fun x f => exists a, f = (rev (fst x), Some a) /\ returned m (snd x) a) l r.
Proof.
  induction l as [|[k n] l IH]; intros r; cbn [spv_of_map].
  - split; [intros E; assert (r = []) as -> by congruence; constructor|]. intros X. inversion X. reflexivity.
  - pose proof (spv_of_node_exact n) as F. split.
    + destruct (spv_of_node H m n) as [a|]; [|discriminate]. destruct (spv_of_map H m l) as [s|]; [|discriminate]. intros E. assert (r = (rev k, Some a) :: s) as -> by congruence. constructor; [|apply IH; reflexivity]. exists a. split; [reflexivity|]. apply F. reflexivity.
    + intros X. destruct r as [|f s]; [inversion X|]. assert (Y : Forall2 (fun x f => exists a, f = (rev (fst x), Some a) /\ returned m (snd x) a) l s) by (inversion X; assumption).
      assert (Z : exists a, f = (rev k, Some a) /\ returned m n a) by (inversion X; assumption). destruct Z as (a & -> & R). apply F in R. rewrite R. apply IH in Y. rewrite Y. reflexivity.
Qed.
Theorem spv_of_envel_exact e p : spv_of_envel H m e = Some p <-> proof_returned m e p.
Proof.
  unfold spv_of_envel, proof_returned. pose proof (spv_of_map_exact (sv_inputs e)) as G. split.
  - destruct (spv_of_map H m (sv_inputs e)) as [l|]; [|discriminate]. cbn [option_map]. intros E. assert (p = mkaproof [tx_of_slice (sv_raw e)] l) as -> by congruence. cbn [ap_payment ap_map]. split; [reflexivity|]. apply G. reflexivity.
  - intros [P F]. apply G in F. rewrite F. cbn [option_map]. destruct p as [pp pm]. cbn [ap_payment ap_map] in *. congruence.
Qed.

(* ---------------------------------------------------------------- there and back *)
Variable keep : bool.
Lemma tx_back t : tx_wf t -> tx_of_slice (tx_write t) = t.
Proof. intros W. unfold tx_of_slice. rewrite <- (app_nil_r (tx_write t)), tx_round_trip by exact W. reflexivity. Qed.
Lemma returned_placed a : forall d n, ordered a -> writable a -> converted keep d a n -> (returned m n a <-> placed m a).
Proof.
  induction a as [t c|t l IH] using anode_all; intros d n O W C.
  - assert (n = mkenode (tx_write t) [] (Some (mktsc None (Some d) (c_path c) None None (Some (c_header c)))) []) as -> by (inversion C; reflexivity). assert (Wt : tx_wf t) by (inversion W; assumption). pose proof (tx_back t Wt) as B. split.
    + intros R. assert (X : confirms m (mktsc None (Some d) (c_path c) None None (Some (c_header c))) c) by (inversion R; assumption). destruct X as (_ & _ & [(h & k & h' & E1 & E2 & E3 & E4)|[E _]]); [|discriminate E]. cbn [ts_header] in E1. constructor. exists h'. congruence.
    + intros P. assert (X : exists h, header_by m (h_merkle_root (c_header c)) = Some (c_height c, h)) by (inversion P; assumption). destruct X as [h X]. rewrite <- B at 2. constructor. split; [left; discriminate|]. split; [reflexivity|]. left. exists (c_header c), (c_height c), h. auto.
  - destruct (ordered_inputs keep d t l n O C) as (ins & -> & Sm & Om & F). assert (Wt : tx_wf t) by (inversion W; assumption). assert (Wl : Forall (fun e => forall a, snd e = Some a -> writable a) l) by (inversion W; assumption). pose proof (tx_back t Wt) as B. clear O W C Sm.
    assert (X : Forall2 (fun e f => exists n a, snd e = Some n /\ f = (rev (fst e), Some a) /\ returned m n a) ins l <-> Forall (fun e => forall a, snd e = Some a -> placed m a) l).
    { induction F as [|[k x] f l ins (a & n & E & -> & Ca) F IHF]; [split; constructor|]. cbn [fst snd] in *. subst x. apply Forall_cons_iff in Wl. destruct Wl as [Wa Wl]. specialize (Wa a eq_refl).
      specialize (IHF (fun k' a' Ia => IH k' a' (or_intror Ia)) (fun k' a' Ia => Om k' a' (or_intror Ia)) Wl). pose proof (IH k a (or_introl eq_refl) k n (Om k a (or_introl eq_refl)) Wa Ca) as Y. rewrite Forall_cons_iff. cbn [snd]. split.
      - intros R. assert (R1 : exists n' a', Some n = Some n' /\ (k, Some a) = (rev (rev k), Some a') /\ returned m n' a') by (inversion R; assumption). assert (R2 : Forall2 (fun e f => exists n a, snd e = Some n /\ f = (rev (fst e), Some a) /\ returned m n a) ins l) by (inversion R; assumption).
        split; [|apply IHF; exact R2]. intros a0 E0. assert (a0 = a) as -> by congruence. destruct R1 as (n' & a' & En & Ea & Rn). assert (n' = n) as -> by congruence. assert (a' = a) as -> by congruence. apply Y. exact Rn.
      - intros [Pa Pl]. constructor; [|apply IHF; exact Pl]. exists n, a. split; [reflexivity|]. cbn [fst]. rewrite rev_involutive. split; [reflexivity|]. apply Y. apply Pa. reflexivity. }
    split.
    + intros R. assert (Y : Forall2 (fun e f => exists n a, snd e = Some n /\ f = (rev (fst e), Some a) /\ returned m n a) ins l) by (inversion R; assumption). constructor. apply X. exact Y.
    + intros P. assert (Y : Forall (fun e => forall a, snd e = Some a -> placed m a) l) by (inversion P; assumption). rewrite <- B at 2. constructor. apply X. exact Y.
Qed.
Theorem there_and_back p e : id_sorted (ap_map p) -> Forall tx_wf (ap_payment p) -> Forall (fun x => forall a, snd x = Some a -> ordered a /\ writable a) (ap_map p) -> envel_of_proof keep p = Ret e ->
  (spv_of_envel H m e = Some p <-> Forall (fun x => forall a, snd x = Some a -> placed m a) (ap_map p)).
Proof.
  intros S Wp O C. apply envel_of_proof_exact in C. destruct (proof_inputs keep p e S C) as (t & P & E & F). clear S C. rewrite P in Wp. apply Forall_cons_iff in Wp. destruct Wp as [Wt _]. rewrite spv_of_envel_exact. unfold proof_returned. rewrite P. replace (sv_raw e) with (tx_write t) by (rewrite E; reflexivity). rewrite tx_back by exact Wt. clear E P Wt.
  assert (X : Forall2 (fun x f => exists a, f = (rev (fst x), Some a) /\ returned m (snd x) a) (sv_inputs e) (ap_map p) <-> Forall (fun x => forall a, snd x = Some a -> placed m a) (ap_map p)); [|rewrite X; tauto].
  induction F as [|[k x] f l ins (a & n & E & -> & Ca) F IHF]; [split; constructor|]. cbn [fst snd] in *. subst x. apply Forall_cons_iff in O. destruct O as [Oa O]. destruct (Oa a eq_refl) as [Oa1 Oa2]. specialize (IHF O). pose proof (returned_placed a k n Oa1 Oa2 Ca) as Y. rewrite Forall_cons_iff. cbn [snd]. split.
  - intros R. assert (R1 : exists a', (k, Some a) = (rev (rev k), Some a') /\ returned m n a') by (inversion R; assumption). assert (R2 : Forall2 (fun x f => exists a, f = (rev (fst x), Some a) /\ returned m (snd x) a) ins l) by (inversion R; assumption).
    split; [|apply IHF; exact R2]. intros a0 E0. assert (a0 = a) as -> by congruence. destruct R1 as (a' & Ea & Rn). assert (a' = a) as -> by congruence. apply Y. exact Rn.
  - intros [Pa Pl]. constructor; [|apply IHF; exact Pl]. exists a. cbn [fst snd]. rewrite rev_involutive. split; [reflexivity|]. apply Y. apply Pa. reflexivity.
Qed.
End Back.
