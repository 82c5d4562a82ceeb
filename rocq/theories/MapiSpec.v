(* What the messages of the Merchant API are meant to say, without the functions that read and write them in MapiModel. *)
From Coq Require Import String.
From Verif Require Import Base WireModel MerkleModel TextModel JsonModel StratumConfigSpec ExtModel TscModel TscSpec EnvelopeModel EnvelopeSpec MapiModel.
Local Open Scope list_scope.
Local Open Scope N_scope.

Definition has_text (k : string) (j : json) (s : bytes) : Prop := member (text k) j (JString s).
Definition has_uint (k : string) (j : json) (n : N) : Prop := member (text k) j (JUint n).
Definition has_list (k : string) (j : json) (l : list json) : Prop := member (text k) j (JArray l).
Definition nonzero (d : digest) : Prop := d <> zero_digest.

(* a value as it is after it was written to text and read again: a number that is not negative is unsigned *)
Fixpoint reparsed (j : json) : json :=
  match j with
  | JInt z => if (0 <=? z)%Z then JUint (Z.to_N z) else JInt z
  | JArray l => JArray (map reparsed l)
  | JObject o => JObject (map (fun e => match e with (k, v) => (k, reparsed v) end) o)
  | _ => j
  end.

Section Says.
Variable odd : bytes -> option digest.
Variable point : bytes -> bool.
Variable keep : bool.

(* ---------------------------------------------------------------- conflicts *)
Definition conflict_shaped (j : json) : Prop :=
  exists t n h, has_text "txid" j t /\ has_uint "size" j n /\ has_text "hex" j h /\ hex_read h <> None.
Definition conflict_says (j : json) (c : conflict) : Prop :=
  exists t h, has_text "txid" j t /\ digest_says odd t (cw_txid c) /\ has_uint "size" j (cw_size c) /\
              has_text "hex" j h /\ hex_read h = Some (cw_tx c).
(* what stands in the list for an element: something else is nothing *)
Definition conflict_entry (j : json) (c : conflict) : Prop :=
  conflict_says j c \/ (~ conflict_shaped j /\ c = mkconflict zero_digest 0 []).
(* a conflict that names a transaction and gives its size *)
Definition conflict_sound (c : conflict) : Prop := nonzero (cw_txid c) /\ cw_size c = len (cw_tx c).

(* ---------------------------------------------------------------- statuses *)
Definition result_named (s : bytes) (success : bool) : Prop := s = text (if success then "success" else "failure").
(* only the first conflict has to be sound *)
Definition conflicts_say (j : json) (cs : list conflict) : Prop :=
  (absent (text "conflictedWith") j /\ cs = []) \/
  (exists l, has_list "conflictedWith" j l /\ Forall2 conflict_entry l cs /\ match cs with [] => True | c :: _ => conflict_sound c end).
(* what has to be there of a status: the description of the result is looked for under one name and read under another *)
Definition status_front (j : json) (s : status) : Prop :=
  nonzero (st_txid s) /\
  (exists t, has_text "txid" j t /\ digest_says odd t (st_txid s)) /\
  (exists r, has_text "returnResult" j r /\ result_named r (st_success s)) /\
  (exists d, has_text "returnDescription" j d) /\
  conflicts_say j (st_conflicts s).
Definition status_says (j : json) (s : status) : Prop := status_front j s /\ has_text "resultDescription" j (st_description s).

(* ---------------------------------------------------------------- quotes *)
(* a number of 64 bits read as a signed one *)
Definition reads_signed (n : N) (z : Z) : Prop := (Z.of_N n < 2 ^ 63 /\ z = Z.of_N n)%Z \/ (2 ^ 63 <= Z.of_N n /\ z = Z.of_N n - 2 ^ 64)%Z.
Definition rate_says (j : json) (r : rate) : Prop :=
  rt_bytes r <> 0 /\ (exists n, has_uint "satoshis" j n /\ reads_signed n (rt_satoshis r)) /\ has_uint "bytes" j (rt_bytes r).
Definition fee_says (j : json) (e : bytes * fee) : Prop :=
  has_text "feeType" j (fst e) /\
  (exists m, member (text "miningFee") j m /\ rate_says m (fe_mining (snd e))) /\
  (exists m, member (text "relayFee") j m /\ rate_says m (fe_relay (snd e))).
(* for a type given more than once the first or the last is kept *)
Definition chosen (es : list (bytes * fee)) (k : bytes) (f : fee) : Prop :=
  exists a b, es = a ++ (k, f) :: b /\ ~ In k (map fst (if keep then a else b)).
Definition collected (es f : list (bytes * fee)) : Prop := sorted f /\ forall k v, maps f k v <-> chosen es k v.
Definition quote_says (j : json) (q : fee_quote) : Prop :=
  nonzero (fq_hash q) /\
  has_text "apiVersion" j (fq_version q) /\ has_text "timestamp" j (fq_time q) /\ has_text "expiryTime" j (fq_expiry q) /\
  (exists m, has_text "minerId" j m /\ hex_read m = Some (fq_miner q)) /\
  (exists h, has_text "currentHighestBlockHash" j h /\ digest_says odd h (fq_hash q)) /\
  has_uint "currentHighestBlockHeight" j (fq_height q) /\
  (exists l es, has_list "fees" j l /\ Forall2 fee_says l es /\ collected es (fq_fees q)).
Definition quote_sound (q : fee_quote) : Prop :=
  fq_time q <> [] /\ fq_expiry q <> [] /\ point (fq_miner q) = true /\ nonzero (fq_hash q) /\ fq_height q <> 0 /\
  Forall (fun e => rt_bytes (fe_mining (snd e)) <> 0 /\ rt_bytes (fe_relay (snd e)) <> 0) (fq_fees q).
(* fields of the sizes their types have *)
Definition rate_wf (r : rate) : Prop := (- 2 ^ 63 <= rt_satoshis r < 2 ^ 63)%Z.
Definition quote_wf (q : fee_quote) : Prop :=
  length (fq_hash q) = 32%nat /\ sorted (fq_fees q) /\ Forall (fun e => rate_wf (fe_mining (snd e)) /\ rate_wf (fe_relay (snd e))) (fq_fees q).
Definition payable (q : fee_quote) : Prop :=
  Forall (fun e => (0 <= rt_satoshis (fe_mining (snd e)))%Z /\ (0 <= rt_satoshis (fe_relay (snd e)))%Z) (fq_fees q).

(* a quote of policies: what is kept of it is everything except the quote itself; a list of callbacks is only read if it is empty *)
Definition policy_says (j : json) (p : policy_quote) : Prop :=
  (exists q, quote_says j q /\ quote_sound q) /\ pq_quote p = mkquote [] [] [] [] zero_digest 0 [] /\
  has_list "callbacks" j [] /\ pq_callbacks p = [] /\ member (text "policies") j (pq_policies p).
(* one submission: what is kept of it is everything except the status *)
Definition submitted_says (j : json) (s : submitted) : Prop :=
  (exists t, status_says j t) /\ sb_status s = mkstatus zero_digest false [] [] /\
  has_text "apiVersion" j (sb_version s) /\ has_text "timestamp" j (sb_time s) /\
  (exists m, has_text "minerId" j m /\ hex_read m = Some (sb_miner s)) /\
  (exists h, has_text "currentHighestBlockHash" j h /\ digest_says odd h (sb_hash s)) /\ nonzero (sb_hash s) /\
  has_uint "currentHighestBlockHeight" j (sb_height s) /\
  (exists n, has_uint "txSecondMempoolExpiry" j n /\ sb_expiry s = n mod 2 ^ 32).

(* ---------------------------------------------------------------- the status of a transaction *)
(* what is kept of it: everything except the status itself *)
Definition tx_status_says (j : json) (t : tx_status) : Prop :=
  (exists s, status_says j s) /\ tt_status t = mkstatus zero_digest false [] [] /\
  has_text "apiVersion" j (tt_version t) /\ has_text "timestamp" j (tt_time t) /\
  (exists m, has_text "minerId" j m /\ hex_read m = Some (tt_miner t)) /\
  (exists h d, has_text "blockHash" j h /\ digest_says odd h d /\ nonzero d /\ tt_hash t = Some d) /\
  (exists n, has_uint "blockHeight" j n /\ tt_height t = Some (n mod 2 ^ 32)) /\
  (exists n, has_uint "txSecondMempoolExpiry" j n /\ tt_expiry t = n mod 2 ^ 32) /\
  ((absent (text "confirmations") j /\ tt_confirmations t = None) \/
   (exists n, has_uint "confirmations" j n /\ tt_confirmations t = Some (n mod 2 ^ 32))).

(* ---------------------------------------------------------------- many submissions *)
(* the highest hash has to be there, but the hash of the block is taken *)
Definition submitted_all_says (j : json) (s : submitted_all) : Prop :=
  has_text "apiVersion" j (sa_version s) /\ has_text "timestamp" j (sa_time s) /\
  (exists m, has_text "minerId" j m /\ hex_read m = Some (sa_miner s)) /\
  (exists h, has_text "currentHighestBlockHash" j h) /\
  (exists h, has_text "blockHash" j h /\ digest_says odd h (sa_hash s)) /\
  has_uint "currentHighestBlockHeight" j (sa_height s) /\
  (exists n, has_uint "txSecondMempoolExpiry" j n /\ sa_expiry s = n mod 2 ^ 32) /\
  (exists n, has_uint "failureCount" j n /\ sa_failures s = n mod 2 ^ 32) /\
  (exists l, has_list "txs" j l /\ Forall2 status_says l (sa_txs s)).
Definition submitted_all_sound (s : submitted_all) : Prop :=
  sa_time s <> [] /\ point (sa_miner s) = true /\ nonzero (sa_hash s) /\ sa_height s <> 0 /\ sa_expiry s <> 0 /\
  Forall (fun t => nonzero (st_txid t)) (sa_txs s).
End Says.

(* ---------------------------------------------------------------- requests *)
(* the query of a submission, said member by member *)
Definition submission_says (s : submission) (j : json) : Prop :=
  let p := sm_parameters s in
  (exists h, has_text "rawtx" j h /\ hex_read h = Some (sm_tx s)) /\
  (forall v, member (text "callbackUrl") j v <-> exists x, pm_url p = Some x /\ v = JString x) /\
  (forall v, member (text "callbackToken") j v <-> exists x, pm_token p = Some x /\ v = JString x) /\
  (forall v, member (text "merkleProof") j v <-> exists x, pm_proof p = Some x /\ v = JString (text (if x : bool then "1" else "0"))) /\
  (forall v, member (text "merkleFormat") j v <-> exists x, pm_format p = Some x /\ v = JString x) /\
  (forall v, member (text "dsCheck") j v <-> exists x, pm_check p = Some x /\ v = JString (text (if x : bool then "1" else "0"))) /\
  (forall v, member (text "callbackEncryption") j v <-> exists x, pm_encryption p = Some x /\ v = JString x).

(* ---------------------------------------------------------------- what is written *)
(* the members are these, over those of [rest] *)
Definition adds (l : list (string * json)) (rest j : json) : Prop :=
  forall k, j_get k j = match obj_find k (map (fun e => (text (fst e), snd e)) l) with Some v => Some v | None => j_get k rest end.
