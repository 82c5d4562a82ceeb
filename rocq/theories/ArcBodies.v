(* Proofs about the bodies of submissions to ARC. *)
From Coq Require Import String Lia ZifyBool ZifyNat ZifyN.
From Verif Require Import Base BaseProofs WireModel WireSpec WireProofs MerkleModel TextModel TextSpec TextProofs JsonModel ScriptModel MachineModel SighashModel ExtModel ExtSpec ExtProofs TscModel TscJsonProofs ArcModel ArcSpec ArcProofs.
Local Open Scope list_scope.
Local Open Scope N_scope.

Lemma octets_written t : xtx_wf t -> tx_octets t = Ret (xtx_write t).
Proof. intros W. unfold tx_octets. rewrite (proj1 (xtx_bytes_exact t W)). reflexivity. Qed.
Lemma read_written t : xtx_wf t -> xtx_read (xtx_write t) = Some (t, []).
Proof. intros W. rewrite <- (app_nil_r (xtx_write t)) at 1. apply xtx_round_trip. exact W. Qed.

Section Bodies.
Variable parse : bytes -> option json.
Variable dump : json -> bytes.
Variable u1 : bool.

Lemma hex_carried t : xtx_wf t -> hex_carries (hex_of u1 (xtx_write t)) t.
Proof. intros W. exists (xtx_write t). split; [apply hex_of_read|apply read_written; exact W]. Qed.
Lemma json_written t : xtx_wf t -> tx_json u1 t = Ret (JObject [(k_raw, JString (hex_of u1 (xtx_write t)))]).
Proof. intros W. unfold tx_json. rewrite (octets_written t W). reflexivity. Qed.
Lemma json_carried t : xtx_wf t -> json_carries (JObject [(k_raw, JString (hex_of u1 (xtx_write t)))]) t.
Proof. intros W. exists (hex_of u1 (xtx_write t)). split; [eexists; split; [reflexivity|reflexivity]|apply hex_carried; exact W]. Qed.
Lemma tx_body_defined c t : xtx_wf t -> (exists b, tx_body dump u1 c t = Ret b) <-> c <> COther.
Proof.
  intros W. unfold tx_body. rewrite (json_written t W), (octets_written t W). destruct c; cbn [and_then]; split; try discriminate; try (intros _; eexists; reflexivity); [intros (b & X); discriminate X|contradiction].
Qed.
Lemma tx_body_carries c t b : xtx_wf t -> (forall j, tx_json u1 t = Ret j -> parse (dump j) = Some j) -> tx_body dump u1 c t = Ret b -> carries_tx parse c b t.
Proof.
  intros W P E. pose proof (P _ (json_written t W)) as Q. unfold tx_body in E. rewrite (json_written t W), (octets_written t W) in E. destruct c; cbn [and_then] in E; try discriminate E.
  - assert (b = hex_of u1 (xtx_write t)) as -> by congruence. apply hex_carried. exact W.
  - cbn [carries_tx]. eexists. split; [|apply json_carried; exact W]. rewrite <- Q. f_equal. congruence.
  - assert (b = xtx_write t) as -> by congruence. apply read_written. exact W.
Qed.
Lemma hex_carries_one s a b : hex_carries s a -> hex_carries s b -> a = b.
Proof. intros (x & A & B) (y & C & D). congruence. Qed.
Lemma json_carries_one j a b : json_carries j a -> json_carries j b -> a = b.
Proof. intros (s & A & B) (t & C & D). assert (E : JString s = JString t) by exact (holds_one _ _ _ _ A C). assert (s = t) as -> by congruence. exact (hex_carries_one _ _ _ B D). Qed.
Lemma carries_tx_one c b t u : carries_tx parse c b t -> carries_tx parse c b u -> t = u.
Proof.
  destruct c; cbn [carries_tx].
  - apply hex_carries_one.
  - intros (j & A & B) (k & C & D). assert (j = k) as -> by congruence. exact (json_carries_one _ _ _ B D).
  - intros A B. congruence.
  - intros [].
Qed.

(* ---- several transactions *)
Lemma all_written {A B} (f : A -> outcome unit B) g l : (forall x, In x l -> f x = Ret (g x)) -> all_of f l = Ret (map g l).
Proof.
  induction l as [|x r IH]; intros H; [reflexivity|]. cbn [all_of map]. rewrite (H x (or_introl eq_refl)). cbn [and_then].
  rewrite IH by (intros y Y; apply H; right; exact Y). reflexivity.
Qed.
Lemma octets_carried l : Forall xtx_wf l -> octets_carry (concat (map xtx_write l)) l.
Proof.
  induction 1 as [|t r W _ IH]; [constructor|]. cbn [map concat]. apply (carry_cons _ t (concat (map xtx_write r))); [apply xtx_round_trip; exact W|exact IH].
Qed.
Lemma xtx_read_nil : xtx_read [] = None.
Proof. reflexivity. Qed.
Lemma octets_one b l : octets_carry b l -> forall m, octets_carry b m -> l = m.
Proof.
  induction 1 as [|b t r l E _ IH]; intros m M.
  - inversion M as [|b t r l E]; subst; [reflexivity|]. rewrite xtx_read_nil in E. discriminate E.
  - inversion M as [E1 E2|b' t' r' l' E' M']; subst; [rewrite xtx_read_nil in E; discriminate E|]. assert (t = t') as -> by congruence. assert (r = r') as -> by congruence. f_equal. apply IH. exact M'.
Qed.
Lemma digit_not_end c x : hex_digit c = Some x -> c <> x0a.
Proof. intros E ->. vm_compute in E. discriminate E. Qed.
Lemma hex_no_end s b : hex_read s = Some b -> ~ In x0a s.
Proof.
  assert (G : forall n s b, (length s <= n)%nat -> hex_read s = Some b -> ~ In x0a s).
  { induction n as [|n IH]; intros [|c [|d r]] v L E; cbn [length] in L; try lia; try discriminate E; try (solve [intros []]).
    cbn [hex_read] in E. destruct (hex_digit c) as [x|] eqn:C; [|discriminate E]. destruct (hex_digit d) as [y|] eqn:D; [|discriminate E]. destruct (hex_read r) as [w|] eqn:R; [|discriminate E].
    intros [X|[X|X]]; [exact (digit_not_end _ _ C X)|exact (digit_not_end _ _ D X)|]. apply (IH r w); [lia|exact R|exact X]. }
  apply (G (length s)). lia.
Qed.
Lemma lines_joined ls : Forall (fun l => ~ In x0a l /\ l <> []) ls -> lines (joined ls) ls.
Proof.
  induction 1 as [|l r (A & B) F IH]; [constructor|]. destruct r as [|m r]; [constructor; assumption|].
  change (joined (l :: m :: r)) with (l ++ x0a :: joined (m :: r)). constructor; [exact A|exact IH|discriminate].
Qed.
Lemma split_one (a b c d : bytes) : ~ In x0a a -> ~ In x0a c -> a ++ x0a :: b = c ++ x0a :: d -> a = c /\ b = d.
Proof.
  revert c. induction a as [|x a IH]; intros [|y c] A C E; cbn [app] in E.
  - split; [reflexivity|congruence].
  - exfalso. apply C. left. congruence.
  - exfalso. apply A. left. congruence.
  - assert (x = y) as -> by congruence. destruct (IH c) as (-> & ->); [intros X; apply A; right; exact X|intros X; apply C; right; exact X|congruence|]. split; reflexivity.
Qed.
Lemma lines_one b ls : lines b ls -> forall ms, lines b ms -> ls = ms.
Proof.
  induction 1 as [|l A B|l b ls A L IH N]; intros ms M.
  - inversion M as [E1 E2|l A B E1 E2|l b ls A L N E1 E2]; subst; [reflexivity|contradiction|]. destruct l; discriminate E1.
  - inversion M as [E1 E2|l' A' B' E1 E2|l' b ls A' L N E1 E2]; subst; [contradiction|reflexivity|]. exfalso. apply A. apply in_app_iff. right. left. reflexivity.
  - inversion M as [E1 E2|l' A' B' E1 E2|l' b' ls' A' L' N' E1 E2]; subst.
    + destruct l; discriminate E1.
    + exfalso. apply A'. apply in_app_iff. right. left. reflexivity.
    + destruct (split_one _ _ _ _ A' A E1) as (-> & ->). f_equal. apply IH. exact L'.
Qed.
Lemma forall2_one {A B} (R : A -> B -> Prop) : (forall x a b, R x a -> R x b -> a = b) -> forall l m n, Forall2 R l m -> Forall2 R l n -> m = n.
Proof.
  intros F l m n X. revert n. induction X as [|x a l m H _ IH]; intros n Y; inversion Y as [|x' b l' n' H' Y']; subst; [reflexivity|]. f_equal; [exact (F _ _ _ H H')|exact (IH _ Y')].
Qed.
Lemma carries_txs_one c b l m : carries_txs parse c b l -> carries_txs parse c b m -> l = m.
Proof.
  destruct c; cbn [carries_txs].
  - intros (ls & A & B) (ms & C & D). assert (ls = ms) as -> by exact (lines_one _ _ A _ C). exact (forall2_one _ hex_carries_one _ _ _ B D).
  - intros (a & A & B) (c & C & D). assert (a = c) as -> by congruence. exact (forall2_one _ json_carries_one _ _ _ B D).
  - intros A B. exact (octets_one _ _ A _ B).
  - intros [].
Qed.
Lemma forall2_map {A B} (R : B -> A -> Prop) (f : A -> B) l : Forall (fun x => R (f x) x) l -> Forall2 R (map f l) l.
Proof. induction 1; cbn [map]; constructor; assumption. Qed.
Definition hexed (t : xtx) : bytes := hex_of u1 (xtx_write t).
Definition jsoned (t : xtx) : json := JObject [(k_raw, JString (hex_of u1 (xtx_write t)))].
Lemma txs_body_form c l : Forall xtx_wf l ->
  txs_body dump u1 c l = match c with
                         | COctet => Ret (concat (map xtx_write l))
                         | CJson => Ret (dump (JArray (map jsoned l)))
                         | CText => Ret (joined (map hexed l))
                         | COther => Throw tt
                         end.
Proof.
  intros W. rewrite Forall_forall in W. unfold txs_body. destruct c.
  - rewrite (all_written _ hexed); [reflexivity|]. intros t I. rewrite (octets_written t (W t I)). reflexivity.
  - rewrite (all_written _ jsoned); [reflexivity|]. intros t I. apply json_written. exact (W t I).
  - rewrite (buffer_write_exact _ (concat (map xtx_write l))); [reflexivity|]. apply concat_size. apply Forall_forall. intros t I. apply xtx_len. exact (W t I).
  - reflexivity.
Qed.
Lemma txs_body_defined c l : Forall xtx_wf l -> (exists b, txs_body dump u1 c l = Ret b) <-> c <> COther.
Proof.
  intros W. rewrite (txs_body_form c l W). destruct c; split; try discriminate; try (intros _; eexists; reflexivity); [intros (b & X); discriminate X|contradiction].
Qed.
Lemma txs_body_carries c l b : Forall xtx_wf l -> (forall a, all_of (tx_json u1) l = Ret a -> parse (dump (JArray a)) = Some (JArray a)) ->
  txs_body dump u1 c l = Ret b -> carries_txs parse c b l.
Proof.
  intros W P E. rewrite (txs_body_form c l W) in E. destruct c; try discriminate E; cbn [carries_txs].
  - assert (b = joined (map hexed l)) as -> by congruence. exists (map hexed l). split.
    + apply lines_joined. apply Forall_forall. intros s I. apply in_map_iff in I. destruct I as (t & <- & I). rewrite Forall_forall in W. destruct (hex_carried t (W t I)) as (v & X & Y). split; [exact (hex_no_end _ _ X)|].
      unfold hexed. intros Z. rewrite Z in X. cbn [hex_read] in X. assert (v = []) as -> by congruence. rewrite xtx_read_nil in Y. discriminate Y.
    + apply forall2_map. eapply Forall_impl; [|exact W]. intros t. apply hex_carried.
  - exists (map jsoned l). split; [|apply forall2_map; eapply Forall_impl; [|exact W]; intros t; apply json_carried].
    assert (b = dump (JArray (map jsoned l))) as -> by congruence. apply P. apply all_written. intros t I. rewrite Forall_forall in W. apply json_written. exact (W t I).
  - assert (b = concat (map xtx_write l)) as -> by congruence. apply octets_carried. exact W.
Qed.
(* ---- the whole request *)
Lemma submit_exact base t s : xtx_wf t -> (forall j, tx_json u1 t = Ret j -> parse (dump j) = Some j) ->
  forall p, submit_tx dump u1 base t s = Ret p -> po_path p = base ++ text "/v1/tx" /\ headers s = Ret (po_headers p) /\ carries_tx parse (sm_content s) (po_body p) t.
Proof.
  intros W P p. unfold submit_tx. destruct (headers s) as [h|u|]; cbn [and_then]; try discriminate. destruct (tx_body dump u1 (sm_content s) t) as [b|u|] eqn:B; cbn [and_then]; try discriminate.
  intros E. assert (p = mkpost (base ++ text "/v1/tx") h b) as -> by congruence. cbn [po_path po_headers po_body]. split; [reflexivity|]. split; [reflexivity|]. exact (tx_body_carries _ _ _ W P B).
Qed.
Lemma submit_txs_exact base l s : Forall xtx_wf l -> (forall a, all_of (tx_json u1) l = Ret a -> parse (dump (JArray a)) = Some (JArray a)) ->
  forall p, submit_txs dump u1 base l s = Ret p -> po_path p = base ++ text "/v1/txs" /\ headers s = Ret (po_headers p) /\ carries_txs parse (sm_content s) (po_body p) l.
Proof.
  intros W P p. unfold submit_txs. destruct (headers s) as [h|u|]; cbn [and_then]; try discriminate. destruct (txs_body dump u1 (sm_content s) l) as [b|u|] eqn:B; cbn [and_then]; try discriminate.
  intros E. assert (p = mkpost (base ++ text "/v1/txs") h b) as -> by congruence. cbn [po_path po_headers po_body]. split; [reflexivity|]. split; [reflexivity|]. exact (txs_body_carries _ _ _ W P B).
Qed.
End Bodies.
Lemma path_names u2 base a b : status_path u2 base a = status_path u2 base b -> a = b.
Proof.
  unfold status_path. intros E. apply app_inv_head in E. apply app_inv_head in E. assert (X : hex_read (digest_text u2 a) = hex_read (digest_text u2 b)) by congruence. rewrite !digest_text_read in X.
  rewrite <- (rev_involutive a), <- (rev_involutive b). congruence.
Qed.
