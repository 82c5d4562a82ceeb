(* More proofs about the messages of the Merchant API: what is kept and what is written of messages that extend others. *)
From Coq Require Import String Lia ZifyBool ZifyNat ZifyN.
From Verif Require Import Base BaseProofs WireModel MerkleModel TextModel TextSpec JsonModel StratumConfigSpec DictProofs ExtModel TscModel TscSpec TscJsonProofs EnvelopeModel EnvelopeSpec EnvelopeProofs MapiModel MapiSpec MapiProofs MapiWrite.
Local Open Scope list_scope.
Local Open Scope N_scope.

Section Read.
Variable odd : bytes -> option digest.
Variable point : bytes -> bool.
Variable keep : bool.

Theorem policy_exact j p : policy_read odd point keep j = Ret p /\ p <> policy_none <-> policy_says odd point keep j p /\ pq_policies p <> JNull.
Proof.
  unfold policy_read, policy_says, has_list, member. change k_callbacks with (text "callbacks"). change k_policies with (text "policies"). split.
  - intros [R N]. destruct (j_get (text "callbacks") j) as [c|] eqn:C; [|congruence]. destruct (j_get (text "policies") j) as [o|] eqn:O; [|congruence].
    destruct (quote_read odd keep j) as [q| |] eqn:Q; cbn [and_then] in R; try discriminate R. destruct (quote_valid point q) eqn:V; cbn [negb] in R; [|congruence].
    destruct (callbacks_read c) as [l|] eqn:B; [|congruence]. assert (p = mkpolicy quote_none l o) as -> by congruence. cbn [pq_quote pq_callbacks pq_policies].
    assert (c = JArray [] /\ l = []) as [-> ->]. { unfold callbacks_read in B. destruct c as [| | | | | |[|]|]; try discriminate B. split; congruence. }
    apply quote_valid_exact in V. split; [|intros ->; apply N; reflexivity]. split; [|repeat split].
    exists q. split; [|exact V]. apply quote_exact. split; [exact Q|]. intros ->. destruct V as (V & _). apply V. reflexivity.
  - intros [((q & Q & V) & E & C & B & O) N]. rewrite C, O. apply quote_exact in Q. destruct Q as [Q _]. rewrite Q. cbn [and_then]. apply quote_valid_exact in V. rewrite V. cbn [negb callbacks_read].
    split; [|intros ->; apply N; reflexivity]. destruct p as [a b c]. cbn [pq_quote pq_callbacks pq_policies] in *. subst. reflexivity.
Qed.
Theorem submitted_exact j s : submitted_read odd j = Ret s /\ s <> submitted_none <-> submitted_says odd j s.
Proof.
  unfold submitted_read, submitted_says. change k_api_version with (text "apiVersion"). change k_timestamp with (text "timestamp"). change k_highest_hash with (text "currentHighestBlockHash"). change k_highest_height with (text "currentHighestBlockHeight").
  change k_miner_id with (text "minerId"). change k_expiry with (text "txSecondMempoolExpiry"). unfold to_u32. split.
  - intros [R N]. destruct (get_text (text "apiVersion") j) as [v|] eqn:V; [|congruence]. destruct (get_text (text "timestamp") j) as [t|] eqn:T; [|congruence]. destruct (get_text (text "minerId") j) as [m|] eqn:M; [|congruence].
    destruct (get_text (text "currentHighestBlockHash") j) as [h|] eqn:H; [|congruence]. destruct (get_uint (text "currentHighestBlockHeight") j) as [n|] eqn:G; [|congruence].
    destruct (get_uint (text "txSecondMempoolExpiry") j) as [x|] eqn:X; [|congruence]. destruct (status_read odd j) as [u| |] eqn:U; cbn [and_then] in R; try discriminate R. destruct (status_valid u) eqn:Vu; cbn [negb] in R; [|congruence].
    destruct (hex_read m) as [k|] eqn:K; [|congruence]. destruct (read_digest odd h) as [d| |] eqn:D; cbn [and_then] in R; try discriminate R. destruct (digest_valid d) eqn:Z; [|congruence].
    assert (E : s = mksubmitted status_none v t k (x mod 2 ^ 32) d n) by congruence. subst s. cbn [sb_status sb_version sb_time sb_miner sb_expiry sb_hash sb_height].
    getters. apply read_digest_exact in D. apply digest_valid_nonzero in Z. split; [exists u; apply status_exact; auto|]. split; [reflexivity|]. split; [exact V|]. split; [exact T|]. split; [eauto|]. split; [eauto|]. split; [exact Z|]. split; [exact G|eauto].
  - intros ((u & U) & E0 & V & T & (m & M & K) & (h & H & D) & Z & G & (x & X & Ex)). ungetters. rewrite V, T, H, G, M, X. apply status_exact in U. destruct U as [U Vu]. rewrite U. cbn [and_then]. rewrite Vu. cbn [negb]. rewrite K.
    apply (proj2 (read_digest_exact _ _ _)) in D. rewrite D. cbn [and_then]. pose proof Z as Z'. apply digest_valid_nonzero in Z. rewrite Z. split; [|intros ->; apply Z'; reflexivity].
    destruct s as [a b c e f g i]. cbn [sb_status sb_version sb_time sb_miner sb_expiry sb_hash sb_height] in *. subst. reflexivity.
Qed.
End Read.

Section Write.
Variable u1 u2 : bool.
Variable point : bytes -> bool.
Variable shown : digest -> bytes.

Lemma put_adds k v l r j : (exists o, j = JObject o) \/ j = JNull -> adds l r j ->
  ((exists o, j_put (text k) v j = JObject o) \/ j_put (text k) v j = JNull) /\ adds ((k, v) :: l) r (j_put (text k) v j).
Proof.
  intros O A. split; [left; apply put_object; exact O|]. intros i. rewrite put_get by exact O. cbn [map fst snd obj_find]. destruct (bytes_eqb i (text k)); [reflexivity|apply A].
Qed.
Lemma adds_self r : adds [] r r.
Proof. intros k. reflexivity. Qed.


Lemma find_fold (es : list (bytes * json)) k : obj_find k (fold_left obj_add es []) = obj_find k es.
Proof.
  induction es as [|[i w] es F] using rev_ind; [reflexivity|]. rewrite fold_left_app. cbn [fold_left]. unfold obj_add at 1. cbn [fst snd]. rewrite find_app. cbn [obj_find]. rewrite <- F.
  destruct (bytes_eqb k i) eqn:K.
  - apply bytes_eqb_eq in K. subst k. destruct (obj_find i (fold_left obj_add es [])) as [x|] eqn:E; [exact E|]. rewrite find_set, (proj2 (bytes_eqb_eq i i) eq_refl). reflexivity.
  - destruct (obj_find i (fold_left obj_add es [])) as [x|] eqn:E; [destruct (obj_find k (fold_left obj_add es [])); reflexivity|].
    rewrite find_set, K. destruct (obj_find k (fold_left obj_add es [])); reflexivity.
Qed.
Lemma pairs_of_pairs (l : list (bytes * json)) : pairs_of (map (fun p => JArray [JString (fst p); snd p]) l) = Some l.
Proof. induction l as [|[k v] l IH]; [reflexivity|]. cbn [map fst snd pairs_of]. rewrite IH. reflexivity. Qed.
Lemma pairs_adds l : adds l JNull (j_pairs (map (fun e => (text (fst e), snd e)) l)) /\ exists o, j_pairs (map (fun e => (text (fst e), snd e)) l) = JObject o.
Proof.
  unfold j_pairs, init_list. rewrite pairs_of_pairs. split; [|eauto]. intros k. cbn [j_get]. rewrite find_fold. destruct (obj_find k _); reflexivity.
Qed.

Theorem quote_written q : quote_sound point q ->
  adds [("apiVersion", JString (fq_version q)); ("timestamp", JString (fq_time q)); ("expiryTime", JString (fq_expiry q)); ("minerId", JString (hex_of u1 (fq_miner q)));
        ("currentHighestBlockHash", JString (skipn 2 (shown (fq_hash q)))); ("currentHighestBlockHeight", JUint (fq_height q)); ("fees", JArray (map fee_write (fq_fees q)))]%string
       JNull (quote_write u1 point shown q).
Proof. intros V. rewrite quote_entry_written by exact V. apply (pairs_adds [(_, _); (_, _); (_, _); (_, _); (_, _); (_, _); (_, _)]). Qed.
Theorem policy_written p : (quote_sound point (pq_quote p) ->
    adds [("policies", pq_policies p); ("callbacks", JArray (map JString (pq_callbacks p)))]%string (quote_write u1 point shown (pq_quote p)) (policy_write u1 point shown p)) /\
  (~ quote_sound point (pq_quote p) -> policy_write u1 point shown p = JNull).
Proof.
  unfold policy_write. split.
  - intros V. rewrite quote_entry_written by exact V. assert (O : exists o, quote_entry u1 shown (pq_quote p) = JObject o) by apply (pairs_adds [(_, _); (_, _); (_, _); (_, _); (_, _); (_, _); (_, _)]).
    destruct O as [o O]. rewrite O. apply put_adds; [left; apply put_object; eauto|]. apply put_adds; [eauto|apply adds_self].
  - intros V. rewrite quote_unsound_written by exact V. reflexivity.
Qed.
Theorem submitted_written s : (nonzero (st_txid (sb_status s)) ->
    adds [("txSecondMempoolExpiry", JUint (sb_expiry s)); ("currentHighestBlockHeight", JUint (sb_height s)); ("currentHighestBlockHash", JString (digest_text u2 (sb_hash s)));
          ("minerId", JString (hex_of u1 (sb_miner s))); ("timestamp", JString (sb_time s)); ("apiVersion", JString (sb_version s))]%string (status_write u1 u2 (sb_status s)) (submitted_write u1 u2 s)) /\
  (~ nonzero (st_txid (sb_status s)) -> submitted_write u1 u2 s = JNull).
Proof.
  unfold submitted_write, submitted_valid, status_valid. split.
  - intros V. apply digest_valid_nonzero in V. rewrite V. cbn [negb]. assert (J : status_json u1 u2 (sb_status s) = status_write u1 u2 (sb_status s)) by (unfold status_json, status_valid; rewrite V; reflexivity).
    pose proof (status_json_shape u1 u2 (sb_status s)) as O. rewrite J in *. set (j := status_write u1 u2 (sb_status s)) in *. clearbody j. clear J.
    repeat (apply put_adds; [repeat (first [exact O|left; apply put_object])|]). apply adds_self.
  - intros V. destruct (digest_valid (st_txid (sb_status s))) eqn:E; [|reflexivity]. apply digest_valid_nonzero in E. contradiction.
Qed.
Theorem tx_status_written t : (tt_version t <> [] /\ tt_time t <> [] /\ tt_miner t <> [] ->
    adds (match tt_confirmations t with Some n => [("confirmations", JUint n)]%string | None => [] end ++
          [("txSecondMempoolExpiry", JUint (tt_expiry t)); ("minerId", JString (hex_of u1 (tt_miner t))); ("timestamp", JString (tt_time t)); ("apiVersion", JString (tt_version t))]%string)
      (status_json u1 u2 (tt_status t)) (tx_status_write u1 u2 t)) /\
  (~ (tt_version t <> [] /\ tt_time t <> [] /\ tt_miner t <> []) -> tx_status_write u1 u2 t = JNull).
Proof.
  unfold tx_status_write. split.
  - intros V. apply tx_status_valid_exact in V. rewrite V. cbn [negb]. pose proof (status_json_shape u1 u2 (tt_status t)) as O. set (j := status_json u1 u2 (tt_status t)) in *. clearbody j.
    cbn zeta. destruct (tt_confirmations t) as [n|]; cbn [app]; repeat (apply put_adds; [repeat (first [exact O|left; apply put_object])|]); apply adds_self.
  - intros V. destruct (tx_status_valid t) eqn:E; [|reflexivity]. apply tx_status_valid_exact in E. contradiction.
Qed.
Theorem status_json_exact s : (nonzero (st_txid s) -> status_json u1 u2 s = status_write u1 u2 s) /\ (~ nonzero (st_txid s) -> status_json u1 u2 s = JNull).
Proof.
  unfold status_json, status_valid. split; intros V; [apply digest_valid_nonzero in V; rewrite V; reflexivity|].
  destruct (digest_valid (st_txid s)) eqn:E; [|reflexivity]. apply digest_valid_nonzero in E. contradiction.
Qed.
Theorem submitted_all_written s : (submitted_all_sound point s ->
    adds [("apiVersion", JString (sa_version s)); ("timestamp", JString (sa_time s)); ("minerId", JString (hex_of u1 (sa_miner s))); ("currentHighestBlockHash", JString (digest_text u2 (sa_hash s)));
          ("currentHighestBlockHeight", JUint (sa_height s)); ("txSecondMempoolExpiry", JUint (sa_expiry s)); ("txs", JArray (map (status_write u1 u2) (sa_txs s))); ("failureCount", JUint (sa_failures s))]%string
      JNull (submitted_all_write u1 u2 point s)) /\
  (~ submitted_all_sound point s -> submitted_all_write u1 u2 point s = JNull).
Proof.
  unfold submitted_all_write. split.
  - intros V. apply submitted_all_valid_exact in V. rewrite V. apply (pairs_adds [(_, _); (_, _); (_, _); (_, _); (_, _); (_, _); (_, _); (_, _)]).
  - intros V. destruct (submitted_all_valid point s) eqn:E; [|reflexivity]. apply submitted_all_valid_exact in E. contradiction.
Qed.
End Write.
