(* Proofs about what is written by the Merchant API, whether it is read back, and what the client makes of answers. *)
From Coq Require Import String Lia ZifyBool ZifyNat ZifyN.
From Verif Require Import Base BaseProofs WireModel MerkleModel TextModel TextSpec JsonModel StratumConfigSpec DictProofs ExtModel TscModel TscSpec TscJsonProofs EnvelopeModel EnvelopeSpec EnvelopeProofs MapiModel MapiSpec MapiProofs.
Local Open Scope list_scope.
Local Open Scope N_scope.

Lemma reparsed_get k j : j_get k (reparsed j) = option_map reparsed (j_get k j).
Proof.
  destruct j; try reflexivity; [cbn [reparsed]; destruct (0 <=? z)%Z; reflexivity|]. cbn [reparsed j_get]. induction o as [|[i w] o IH]; cbn [map obj_find]; [reflexivity|]. destruct (bytes_eqb k i); [reflexivity|exact IH].
Qed.

Section Write.
Variable u1 u2 : bool.
Variable odd : bytes -> option digest.
Variable point : bytes -> bool.
Variable shown : digest -> bytes.
Variable keep : bool.

(* ---------------------------------------------------------------- conflicts and statuses *)
Theorem conflict_round_trip c : length (cw_txid c) = 32%nat -> conflict_read odd (conflict_write u1 u2 c) = Ret c.
Proof.
  intros L. apply conflict_read_exact. left. exists (digest_text u2 (cw_txid c)), (hex_of u1 (cw_tx c)). repeat split; try reflexivity; [apply text_says; exact L|apply hex_of_read].
Qed.
Lemma status_write_absent s : absent (text "returnDescription") (status_write u1 u2 s).
Proof. unfold absent, status_write. destruct (st_conflicts s); reflexivity. Qed.
Theorem status_not_back s : status_read odd (status_write u1 u2 s) = Ret status_none /\ status_read odd (reparsed (status_write u1 u2 s)) = Ret status_none.
Proof. split; apply status_unread; [apply status_write_absent|]. unfold absent. rewrite reparsed_get. rewrite (status_write_absent s). reflexivity. Qed.
Theorem status_written s : let j := status_write u1 u2 s in
  has_text "txid" j (digest_text u2 (st_txid s)) /\ has_text "returnResult" j (text (if st_success s then "success" else "failure")) /\ has_text "resultDescription" j (st_description s) /\
  (st_conflicts s = [] -> absent (text "conflictedWith") j) /\ (st_conflicts s <> [] -> has_list "conflictedWith" j (map (conflict_write u1 u2) (st_conflicts s))).
Proof.
  cbn zeta. unfold has_text, has_list, member, absent, status_write. destruct (st_conflicts s) as [|c l].
  - repeat split; try reflexivity; [destruct (st_success s); reflexivity|congruence].
  - repeat split; try reflexivity; [destruct (st_success s); reflexivity|congruence].
Qed.

(* ---------------------------------------------------------------- quotes *)
Definition is_int (j : json) : Prop := exists z, j = JInt z.
Lemma spb_written r : rate_wf r -> rt_bytes r <> 0 -> (0 <= rt_satoshis r)%Z -> rate_says (reparsed (spb_write r)) r.
Proof.
  unfold rate_wf. intros [A B] N P. split; [exact N|]. unfold has_uint, member. rewrite !reparsed_get. split; [|reflexivity].
  exists (Z.to_N (rt_satoshis r)). split; [|left; rewrite Z2N.id by exact P; split; [exact B|reflexivity]].
  change (j_get (text "satoshis") (spb_write r)) with (Some (JInt (rt_satoshis r))). cbn [option_map reparsed]. destruct (0 <=? rt_satoshis r)%Z eqn:E; [reflexivity|lia].
Qed.
Lemma spb_negative r q : (rt_satoshis r < 0)%Z -> ~ rate_says (reparsed (spb_write r)) q.
Proof.
  intros N (_ & (n & H & _) & _). unfold has_uint, member in H. rewrite reparsed_get in H. change (j_get (text "satoshis") (spb_write r)) with (Some (JInt (rt_satoshis r))) in H. cbn [option_map reparsed] in H.
  destruct (0 <=? rt_satoshis r)%Z eqn:E; [lia|discriminate H].
Qed.
Lemma spb_raw r q : ~ rate_says (spb_write r) q.
Proof. intros (_ & (n & H & _) & _). discriminate H. Qed.
Definition fee_entry (e : bytes * fee) : json :=
  j_pairs [(k_fee_type, JString (fst e)); (k_mining_fee, spb_write (fe_mining (snd e))); (k_relay_fee, spb_write (fe_relay (snd e)))].
Lemma fee_entry_written e : rt_bytes (fe_mining (snd e)) <> 0 /\ rt_bytes (fe_relay (snd e)) <> 0 -> fee_write e = fee_entry e.
Proof. intros [A B]. unfold fee_write, fee_valid, rate_valid. destruct (rt_bytes (fe_mining (snd e)) =? 0) eqn:X; [lia|]. destruct (rt_bytes (fe_relay (snd e)) =? 0) eqn:Y; [lia|]. reflexivity. Qed.
Lemma fee_back e : rt_bytes (fe_mining (snd e)) <> 0 /\ rt_bytes (fe_relay (snd e)) <> 0 -> rate_wf (fe_mining (snd e)) /\ rate_wf (fe_relay (snd e)) ->
  (0 <= rt_satoshis (fe_mining (snd e)) /\ 0 <= rt_satoshis (fe_relay (snd e)))%Z -> fee_says (reparsed (fee_write e)) e.
Proof.
  intros V [W1 W2] [P1 P2]. rewrite fee_entry_written by exact V. destruct V as [V1 V2]. unfold fee_says, has_text, member. rewrite !reparsed_get. split; [reflexivity|]. split.
  - exists (reparsed (spb_write (fe_mining (snd e)))). split; [reflexivity|]. apply spb_written; assumption.
  - exists (reparsed (spb_write (fe_relay (snd e)))). split; [reflexivity|]. apply spb_written; assumption.
Qed.
Lemma fee_back_only e x : fee_says (reparsed (fee_write e)) x -> (0 <= rt_satoshis (fe_mining (snd e)) /\ 0 <= rt_satoshis (fe_relay (snd e)))%Z.
Proof.
  unfold fee_write. destruct (fee_valid (snd e)); [|intros (X & _); discriminate X]. fold (fee_entry e). intros (_ & (m & M & Sm) & (r & R & Sr)). unfold member in M, R. rewrite reparsed_get in M, R.
  change (j_get (text "miningFee") (fee_entry e)) with (Some (spb_write (fe_mining (snd e)))) in M. change (j_get (text "relayFee") (fee_entry e)) with (Some (spb_write (fe_relay (snd e)))) in R.
  assert (m = reparsed (spb_write (fe_mining (snd e)))) as -> by (cbn [option_map] in M; congruence). assert (r = reparsed (spb_write (fe_relay (snd e)))) as -> by (cbn [option_map] in R; congruence).
  split; [destruct (Z_le_gt_dec 0 (rt_satoshis (fe_mining (snd e)))) as [L|L]|destruct (Z_le_gt_dec 0 (rt_satoshis (fe_relay (snd e)))) as [L|L]]; try exact L; exfalso.
  - apply (spb_negative (fe_mining (snd e)) (fe_mining (snd x))); [lia|exact Sm].
  - apply (spb_negative (fe_relay (snd e)) (fe_relay (snd x))); [lia|exact Sr].
Qed.
Lemma fee_raw e x : ~ fee_says (fee_write e) x.
Proof.
  unfold fee_write. destruct (fee_valid (snd e)); [|intros (X & _); discriminate X]. fold (fee_entry e). intros (_ & (m & M & Sm) & _). unfold member in M.
  change (j_get (text "miningFee") (fee_entry e)) with (Some (spb_write (fe_mining (snd e)))) in M. assert (m = spb_write (fe_mining (snd e))) as -> by congruence. exact (spb_raw _ _ Sm).
Qed.

Lemma find_sorted_rev (f : list (bytes * fee)) k : sorted f -> obj_find k (rev f) = obj_find k f.
Proof.
  induction f as [|[i w] f IH]; intros S; [reflexivity|]. cbn [rev obj_find]. rewrite find_app. rewrite IH by exact (sorted_tail _ _ S). cbn [obj_find]. destruct (bytes_eqb k i) eqn:K.
  - apply bytes_eqb_eq in K. subst i. destruct (obj_find k f) as [x|] eqn:F; [|reflexivity]. exfalso. exact (sorted_absent _ _ _ S _ F).
  - destruct (obj_find k f); reflexivity.
Qed.
Lemma collected_self f : sorted f -> collected keep f f.
Proof. intros S. split; [exact S|]. intros k v. rewrite chosen_exact. unfold maps. destruct keep; [reflexivity|]. rewrite find_sorted_rev by exact S. reflexivity. Qed.

Definition quote_entry (q : fee_quote) : json :=
  j_pairs [(k_api_version, JString (fq_version q)); (k_timestamp, JString (fq_time q)); (k_expiry_time, JString (fq_expiry q));
           (k_miner_id, w_hex u1 (fq_miner q)); (k_highest_hash, JString (skipn 2 (shown (fq_hash q))));
           (k_highest_height, JUint (fq_height q)); (k_fees, JArray (map fee_write (fq_fees q)))].
Lemma quote_entry_written q : quote_sound point q -> quote_write u1 point shown q = quote_entry q.
Proof. intros V. apply quote_valid_exact in V. unfold quote_write. rewrite V. reflexivity. Qed.
Hypothesis SH : forall d, exists a b, shown d = a :: b :: digest_text u2 d.
Lemma quote_read_said j q : quote_says odd keep j q -> quote_read odd keep j = Ret q.
Proof. intros X. apply (quote_exact odd) in X. apply X. Qed.
Lemma quote_back q : quote_wf q -> quote_sound point q -> payable q -> quote_read odd keep (reparsed (quote_write u1 point shown q)) = Ret q.
Proof.
  intros (L & S & W) V P. rewrite quote_entry_written by exact V. apply quote_read_said. destruct V as (_ & _ & _ & Z & _ & V). unfold quote_says, has_text, has_uint, has_list, member. rewrite !reparsed_get.
  split; [exact Z|]. split; [reflexivity|]. split; [reflexivity|]. split; [reflexivity|]. split; [exists (hex_of u1 (fq_miner q)); split; [reflexivity|apply hex_of_read]|].
  split; [exists (digest_text u2 (fq_hash q)); split; [|apply text_says; exact L]|].
  { change (j_get (text "currentHighestBlockHash") (quote_entry q)) with (Some (JString (skipn 2 (shown (fq_hash q))))). destruct (SH (fq_hash q)) as (a & b & ->). reflexivity. }
  split; [reflexivity|]. exists (map reparsed (map fee_write (fq_fees q))), (fq_fees q). split; [reflexivity|]. split; [|apply collected_self; exact S].
  clear - V W P. unfold payable in P. induction (fq_fees q) as [|e f IH]; cbn [map]; [constructor|]. apply Forall_cons_iff in V, W, P. destruct V as [Ve V], W as [We W], P as [Pe P]. constructor; [apply fee_back; assumption|apply IH; assumption].
Qed.
Lemma fees_none l f : (forall es, ~ Forall2 fee_says l es) -> fees_read keep f l = None.
Proof. intros N. destruct (fees_read keep f l) as [r|] eqn:E; [|reflexivity]. apply fees_read_exact in E. destruct E as (es & F & _). destruct (N es F). Qed.
Lemma quote_no_fees j l : has_list "fees" j l -> (forall es, ~ Forall2 fee_says l es) -> quote_read odd keep j = Ret quote_none.
Proof.
  intros L N. unfold quote_read. change k_fees with (text "fees"). apply (proj2 (get_array_exact _ _ _)) in L. rewrite L, fees_none by exact N. repeat match goal with |- context [match ?x with Some _ => _ | None => _ end] => destruct x; try reflexivity end.
Qed.
Theorem quote_round_trip q : quote_wf q -> quote_sound point q ->
  quote_read odd keep (reparsed (quote_write u1 point shown q)) = Ret q /\ payable q \/
  quote_read odd keep (reparsed (quote_write u1 point shown q)) = Ret quote_none /\ ~ payable q.
Proof.
  intros W V. assert (D : payable q \/ ~ payable q).
  { unfold payable. destruct (Forall_dec (fun e : bytes * fee => (0 <= rt_satoshis (fe_mining (snd e)) /\ 0 <= rt_satoshis (fe_relay (snd e)))%Z)) with (l := fq_fees q) as [F|F]; [|left; exact F|right; exact F].
    intros e. destruct (Z_le_gt_dec 0 (rt_satoshis (fe_mining (snd e)))) as [A|A]; [destruct (Z_le_gt_dec 0 (rt_satoshis (fe_relay (snd e)))) as [B|B]; [left; auto|right; lia]|right; lia]. }
  destruct D as [P|P]; [left; split; [apply quote_back; assumption|exact P]|right; split; [|exact P]]. rewrite quote_entry_written by exact V.
  apply quote_no_fees with (l := map reparsed (map fee_write (fq_fees q))); [unfold has_list, member; rewrite reparsed_get; reflexivity|]. intros es F. apply P. unfold payable. clear - F. revert es F.
  induction (fq_fees q) as [|e f IH]; cbn [map]; intros es F; constructor; inversion F; subst; [eapply fee_back_only; eassumption|eapply IH; eassumption].
Qed.
(* before it was text *)
Theorem quote_direct q : quote_wf q -> quote_sound point q ->
  quote_read odd keep (quote_write u1 point shown q) = Ret (match fq_fees q with [] => q | _ => quote_none end).
Proof.
  intros W V. destruct (fq_fees q) as [|e f] eqn:F.
  - pose proof (quote_back q W V) as B. unfold payable in B. rewrite F in B. specialize (B (Forall_nil _)). rewrite <- B. f_equal. rewrite quote_entry_written by exact V. unfold quote_entry. rewrite F. reflexivity.
  - rewrite quote_entry_written by exact V. apply quote_no_fees with (l := map fee_write (fq_fees q)); [reflexivity|]. rewrite F. intros es X. inversion X; subst. eapply fee_raw. eassumption.
Qed.
Lemma quote_unsound_written q : ~ quote_sound point q -> quote_write u1 point shown q = JNull.
Proof. intros N. unfold quote_write. destruct (quote_valid point q) eqn:V; [|reflexivity]. exfalso. apply N. apply quote_valid_exact. exact V. Qed.

(* ---------------------------------------------------------------- the status of a transaction *)
Lemma put_get k v j i : (exists o, j = JObject o) \/ j = JNull -> j_get i (j_put k v j) = if bytes_eqb i k then Some v else j_get i j.
Proof. intros [[o ->] | ->]; cbn [j_put j_set j_get]; [apply find_set|]. cbn [obj_find]. destruct (bytes_eqb i k); reflexivity. Qed.
Lemma put_object k v j : (exists o, j = JObject o) \/ j = JNull -> exists o, j_put k v j = JObject o.
Proof. intros [[o ->] | ->]; cbn [j_put j_set]; eauto. Qed.
Lemma status_json_shape s : (exists o, status_json u1 u2 s = JObject o) \/ status_json u1 u2 s = JNull.
Proof. unfold status_json, status_write. destruct (status_valid s); [|auto]. left. destruct (st_conflicts s); eexists; reflexivity. Qed.
Lemma tx_status_write_absent t : absent (text "returnDescription") (tx_status_write u1 u2 t).
Proof.
  unfold absent, tx_status_write. destruct (negb (tx_status_valid t)); [reflexivity|].
  assert (G : j_get (text "returnDescription") (status_json u1 u2 (tt_status t)) = None) by (unfold status_json; destruct (status_valid (tt_status t)); [apply status_write_absent|reflexivity]).
  pose proof (status_json_shape (tt_status t)) as O. generalize dependent (status_json u1 u2 (tt_status t)). intros j G O. cbn zeta.
  assert (X : forall k v j, (exists o, j = JObject o) \/ j = JNull -> j_get (text "returnDescription") j = None -> bytes_eqb (text "returnDescription") k = false ->
    ((exists o, j_put k v j = JObject o) \/ j_put k v j = JNull) /\ j_get (text "returnDescription") (j_put k v j) = None).
  { intros k v i Oi Gi E. split; [left; apply put_object; exact Oi|]. rewrite put_get by exact Oi. rewrite E. exact Gi. }
  destruct (X k_api_version (JString (tt_version t)) j O G eq_refl) as [O1 G1]. clear O G. destruct (X k_timestamp (JString (tt_time t)) _ O1 G1 eq_refl) as [O2 G2]. destruct (X k_miner_id (w_hex u1 (tt_miner t)) _ O2 G2 eq_refl) as [O3 G3].
  destruct (X k_expiry (JUint (tt_expiry t)) _ O3 G3 eq_refl) as [O4 G4]. destruct (tt_confirmations t) as [n|]; [|exact G4]. apply (X k_confirmations (JUint n) _ O4 G4 eq_refl).
Qed.
Lemma tx_status_unread j : absent (text "returnDescription") j -> tx_status_read odd j = Ret tx_status_none.
Proof.
  intros A. unfold tx_status_read. rewrite (status_unread odd j A). cbn [and_then]. change (status_valid status_none) with false. cbn [negb].
  repeat match goal with |- context [match ?x with Some _ => _ | None => _ end] => destruct x; try reflexivity end.
Qed.
Theorem tx_status_not_back t : tx_status_read odd (tx_status_write u1 u2 t) = Ret tx_status_none /\ tx_status_read odd (reparsed (tx_status_write u1 u2 t)) = Ret tx_status_none.
Proof. split; apply tx_status_unread; [apply tx_status_write_absent|]. unfold absent. rewrite reparsed_get, (tx_status_write_absent t). reflexivity. Qed.

(* ---------------------------------------------------------------- many submissions *)
Theorem submitted_all_not_back s : submitted_all_sound point s ->
  submitted_all_read odd (submitted_all_write u1 u2 point s) = match sa_txs s with [] => Undef | _ => Ret submitted_all_none end.
Proof.
  intros V. apply submitted_all_valid_exact in V. unfold submitted_all_write. rewrite V. destruct (sa_txs s) as [|t l] eqn:T.
  - unfold submitted_all_read. match goal with |- context [get_text k_api_version ?j] => set (J := j) end.
    change (get_text k_api_version J) with (Some (sa_version s)). change (get_text k_timestamp J) with (Some (sa_time s)). change (get_text k_miner_id J) with (Some (hex_of u1 (sa_miner s))). change (get_text k_highest_hash J) with (Some (digest_text u2 (sa_hash s))).
    change (get_uint k_highest_height J) with (Some (sa_height s)). change (get_uint k_expiry J) with (Some (sa_expiry s)). change (get_array k_txs J) with (Some (@nil json)). change (get_uint k_failure_count J) with (Some (sa_failures s)).
    cbn [statuses_read and_then]. rewrite hex_of_read. reflexivity.
  - unfold submitted_all_read. match goal with |- context [get_text k_api_version ?j] => set (J := j) end.
    change (get_text k_api_version J) with (Some (sa_version s)). change (get_text k_timestamp J) with (Some (sa_time s)). change (get_text k_miner_id J) with (Some (hex_of u1 (sa_miner s))). change (get_text k_highest_hash J) with (Some (digest_text u2 (sa_hash s))).
    change (get_uint k_highest_height J) with (Some (sa_height s)). change (get_uint k_expiry J) with (Some (sa_expiry s)). change (get_array k_txs J) with (Some (status_write u1 u2 t :: map (status_write u1 u2) l)). change (get_uint k_failure_count J) with (Some (sa_failures s)).
    cbn [statuses_read]. rewrite (proj1 (status_not_back t)). cbn [and_then app]. change (status_valid status_none) with false. reflexivity.
Qed.

(* ---------------------------------------------------------------- requests *)
Theorem submission_written s : submission_says s (submission_write u1 s).
Proof.
  unfold submission_says, submission_write, parameters_list, has_text, member, w_hex. destruct s as [b [a c d e f g]]. cbn [sm_tx sm_parameters pm_url pm_token pm_proof pm_format pm_check pm_encryption].
  assert (R : hex_read (hex_of u1 b) = Some b) by apply hex_of_read.
  assert (X : forall (A : Type) (x : A) (w : A -> json) v, Some (w x) = Some v <-> exists y, Some x = Some y /\ v = w y).
  { intros A x w v. split; [intros E; exists x; split; congruence|]. intros (y & E & ->). congruence. }
  assert (Y : forall (A : Type) (w : A -> json) v, None = Some v <-> exists y, @None A = Some y /\ v = w y).
  { intros A w v. split; [discriminate|]. intros (y & E & _). discriminate E. }
  split.
  - exists (hex_of u1 b). split; [|exact R]. destruct a, c, d as [[]|], e, f as [[]|], g; reflexivity.
  - split; [|split; [|split; [|split; [|split]]]]; intros v.
    + destruct a as [a|]; [destruct c, d, e, f, g; exact (X _ a JString v)|]. destruct c, d, e, f, g; exact (Y _ JString v).
    + destruct c as [c|]; [|destruct a, d, e, f, g; exact (Y _ JString v)]. destruct a, d, e, f, g; exact (X _ c JString v).
    + destruct d as [d|]; [|destruct a, c, e, f, g; exact (Y _ (fun x : bool => JString (text (if x then "1" else "0"))) v)]. destruct a, c, e, f, g; exact (X _ d (fun x : bool => JString (text (if x then "1" else "0"))) v).
    + destruct e as [e|]; [|destruct a, c, d, f, g; exact (Y _ JString v)]. destruct a, c, d, f, g; exact (X _ e JString v).
    + destruct f as [f|]; [|destruct a, c, d, e, g; exact (Y _ (fun x : bool => JString (text (if x then "1" else "0"))) v)]. destruct a, c, d, e, g; exact (X _ f (fun x : bool => JString (text (if x then "1" else "0"))) v).
    + destruct g as [g|]; [|destruct a, c, d, e, f; exact (Y _ JString v)]. destruct a, c, d, e, f; exact (X _ g JString v).
Qed.
End Write.

(* ---------------------------------------------------------------- answers *)
Section Answers.
Variable sha : bytes -> bytes.
Variable b64r : bytes -> option bytes.
Variable verify : bytes -> bytes -> bytes -> bool.
Variable parse : bytes -> option json.

Theorem call_exact code content body j : call sha b64r verify parse code content body = Ret j <->
  200 <= code < 300 /\ content = Some (text "application/json") /\ parse body = Some j /\
  exists e, describes j e /\ (unsigned e \/ signed sha b64r verify e).
Proof.
  unfold call. destruct ((code <? 200) || (300 <=? code)) eqn:C; [split; [discriminate|]; intros [X _]; lia|]. destruct content as [c|]; [|split; [discriminate|]; intros (_ & X & _); discriminate X].
  destruct (bytes_eqb c (text "application/json")) eqn:T; cbn [negb].
  - apply bytes_eqb_eq in T. subst c. destruct (parse body) as [i|]; [|split; [discriminate|]; intros (_ & _ & X & _); discriminate X].
    destruct (env_verify sha b64r verify (env_read i)) eqn:V.
    + split.
      * intros E. assert (i = j) as -> by congruence. split; [lia|]. split; [reflexivity|]. split; [reflexivity|]. apply verify_exact in V. destruct V as [N V]. exists (env_read j). split; [|exact V].
        apply reads_exact. split; [reflexivity|]. intros E0. rewrite E0 in N. apply N. reflexivity.
      * intros (_ & _ & E & _). congruence.
    + split; [discriminate|]. intros (_ & _ & E & e & D & W). assert (i = j) as -> by congruence. apply reads_exact in D as R. destruct R as [R N]. rewrite R in V.
      assert (env_verify sha b64r verify e = true); [|congruence]. apply verify_exact. split; [|exact W]. destruct D as (_ & _ & (n & D & _) & _). destruct (ev_encoding e); [discriminate D|discriminate|discriminate].
  - split; [discriminate|]. intros (_ & E & _). assert (c = text "application/json") as -> by congruence. rewrite text_eqb_refl in T. discriminate T.
Qed.
Lemma call_total code content body : (exists j, call sha b64r verify parse code content body = Ret j) \/ call sha b64r verify parse code content body = Throw tt.
Proof. unfold call. destruct ((code <? 200) || (300 <=? code)); [auto|]. destruct content as [c|]; [|auto]. destruct (negb (bytes_eqb c (text "application/json"))); [auto|]. destruct (parse body) as [j|]; [|auto]. destruct (env_verify sha b64r verify (env_read j)); eauto. Qed.

Variable dump : json -> bytes.
Section Value.
Variable T : Type.
Variable none : T.
Variable read : json -> outcome unit T.
Theorem response_lost j r : response_read dump parse none read j = Ret r -> r = mkresponse T none None None.
Proof.
  unfold response_read. destruct (negb (jj_valid parse (jj_plain dump j))); [congruence|]. destruct (jj_payload parse (jj_plain dump j)) as [p|]; [|discriminate]. destruct (read p); cbn [and_then]; try discriminate. intros E.
  assert (r = mkresponse T none (ev_key (jj_plain dump j)) (ev_sig (jj_plain dump j))) as -> by congruence. reflexivity.
Qed.
(* what is read is the envelope, not what it carries, and that is only tried *)
Theorem response_exact j : parse (dump j) = Some j ->
  response_read dump parse none read j = match read j with Ret _ => Ret (mkresponse T none None None) | Throw e => Throw e | Undef => Undef end.
Proof. intros P. unfold response_read, jj_valid, jj_payload, jj_plain, env_text. cbn [env_valid ev_encoding ev_sig ev_key ev_payload]. rewrite P. cbn [andb negb]. destruct (read j); reflexivity. Qed.
Theorem request_lost code content body r : request sha b64r verify dump parse none read code content body = Ret r -> r = mkresponse T none None None.
Proof. unfold request. destruct (call sha b64r verify parse code content body) as [j| |]; cbn [and_then]; try discriminate. apply response_lost. Qed.
Theorem request_exact code content body : (forall j, parse (dump j) = Some j) ->
  request sha b64r verify dump parse none read code content body = Ret (mkresponse T none None None) <->
  exists j x, call sha b64r verify parse code content body = Ret j /\ read j = Ret x.
Proof.
  intros P. unfold request. destruct (call sha b64r verify parse code content body) as [j| |]; cbn [and_then].
  - rewrite response_exact by apply P. split.
    + destruct (read j) as [x| |] eqn:E; try discriminate. intros _. exists j, x. auto.
    + intros (i & x & E & R). assert (i = j) as -> by congruence. rewrite R. reflexivity.
  - split; [discriminate|]. intros (j & x & E & _). discriminate E.
  - split; [discriminate|]. intros (j & x & E & _). discriminate E.
Qed.
End Value.
End Answers.
