(* What envelopes are meant to say, without the functions of SpvEnvModel. *)
From Coq Require Import String.
From Verif Require Import Base WireModel WireSpec MerkleModel TextModel JsonModel StratumConfigSpec SpvModel AncModel TscModel TscSpec EnvelopeSpec MapiModel MapiSpec SpvEnvModel.
Local Open Scope list_scope.
Local Open Scope N_scope.

(* entries inserted one after another: for a key given more than once the first or the last is kept *)
Definition survives {A} (keep : bool) (es : list (bytes * A)) (k : bytes) (v : A) : Prop :=
  exists a b, es = a ++ (k, v) :: b /\ ~ In k (map fst (if keep then a else b)).
Definition gathered {A} (keep : bool) (es f : list (bytes * A)) : Prop := sorted f /\ forall k v, maps f k v <-> survives keep es k v.

Definition answer_sound (r : response tx_status) : Prop :=
  tt_version (rs_value _ r) <> [] /\ tt_time (rs_value _ r) <> [] /\ tt_miner (rs_value _ r) <> [].

(* ---------------------------------------------------------------- validity *)
Section Sound.
Variable H : bytes -> bytes.
Variable proof_ok : tsc -> Prop.
Variable b : bool.
(* either a proof or inputs; all nodes or none have answers; the key is the id of the transaction *)
Inductive node_sound : bytes -> enode -> Prop :=
| sound_proof raw mapi p : (mapi <> [] <-> b = true) -> Forall answer_sound mapi -> proof_ok p ->
    node_sound (rev (H raw)) (mkenode raw mapi (Some p) [])
| sound_inputs raw mapi ins : (mapi <> [] <-> b = true) -> Forall answer_sound mapi -> ins <> [] ->
    Forall (fun e => exists c, snd e = Some c /\ node_sound (fst e) c) ins ->
    node_sound (rev (H raw)) (mkenode raw mapi None ins).
End Sound.
Definition envel_sound (H : bytes -> bytes) (e : envel) : Prop :=
  (forall d, sv_txid e = Some d -> d = H (sv_raw e)) /\ Forall answer_sound (sv_mapi e) /\
  exists b, Forall (fun x => node_sound H (fun p => identified p /\ targeted p) b (fst x) (snd x)) (sv_inputs e).

(* ---------------------------------------------------------------- from SPV proofs *)
Inductive converted (keep : bool) : digest -> anode -> enode -> Prop :=
| conv_confirmed d t c : converted keep d (mkanode t (Confirmed c)) (mkenode (tx_write t) [] (Some (mktsc None (Some d) (c_path c) None None (Some (c_header c)))) [])
| conv_antecedents d t m es ins :
    Forall2 (fun e f => exists a n, snd e = Some a /\ f = (rev (fst e), Some n) /\ converted keep (fst e) a n) m es ->
    gathered keep es ins -> converted keep d (mkanode t (Antecedents m)) (mkenode (tx_write t) [] None ins).
Definition proof_converted (keep : bool) (p : aproof) (e : envel) : Prop :=
  exists t es, ap_payment p = [t] /\ sv_txid e = None /\ sv_raw e = tx_write t /\ sv_mapi e = [] /\
  Forall2 (fun x f => exists a n, snd x = Some a /\ f = (rev (fst x), n) /\ converted keep (fst x) a n) (ap_map p) es /\ gathered keep es (sv_inputs e).
(* no null pointers *)
Inductive solid : anode -> Prop :=
| solid_confirmed t c : solid (mkanode t (Confirmed c))
| solid_antecedents t m : Forall (fun e => exists a, snd e = Some a /\ solid a) m -> solid (mkanode t (Antecedents m)).
(* what iterating over a map gives: ids in the order of numbers, each once *)
Definition id_sorted {A} (m : list (bytes * A)) : Prop := sorted (map (fun e => (rev (fst e), snd e)) m).
Inductive ordered : anode -> Prop :=
| ordered_confirmed t c : ordered (mkanode t (Confirmed c))
| ordered_antecedents t m : id_sorted m -> Forall (fun e => forall a, snd e = Some a -> ordered a) m -> ordered (mkanode t (Antecedents m)).
(* transactions that can be written and read *)
Inductive writable : anode -> Prop :=
| writable_confirmed t c : tx_wf t -> writable (mkanode t (Confirmed c))
| writable_antecedents t m : tx_wf t -> Forall (fun e => forall a, snd e = Some a -> writable a) m -> writable (mkanode t (Antecedents m)).
(* keyed by the id of the transaction, and with antecedents unless confirmed *)
Inductive named (H : bytes -> bytes) : digest -> anode -> Prop :=
| named_confirmed t c : named H (H (tx_write t)) (mkanode t (Confirmed c))
| named_antecedents t m : m <> [] -> Forall (fun e => exists a, snd e = Some a /\ named H (fst e) a) m -> named H (H (tx_write t)) (mkanode t (Antecedents m)).

(* ---------------------------------------------------------------- to SPV proofs *)
Section Back.
Variable m : db.
(* the height is that of the header the database has for the root or hash; a given header is kept *)
Definition confirms (p : tsc) (c : confirmation) : Prop :=
  (ts_id p <> None \/ ts_tx p <> None) /\ c_path c = ts_path p /\
  ((exists h n h', ts_header p = Some h /\ header_by m (h_merkle_root h) = Some (n, h') /\ c_height c = n /\ c_header c = h) \/
   (ts_header p = None /\ exists d n h, (ts_root p = Some d \/ (ts_root p = None /\ ts_hash p = Some d)) /\ header_by m d = Some (n, h) /\ c_height c = n /\ c_header c = h)).
Inductive returned : enode -> anode -> Prop :=
| ret_proof raw mapi p ins c : confirms p c -> returned (mkenode raw mapi (Some p) ins) (mkanode (tx_of_slice raw) (Confirmed c))
| ret_inputs raw mapi ins l :
    Forall2 (fun e f => exists n a, snd e = Some n /\ f = (rev (fst e), Some a) /\ returned n a) ins l ->
    returned (mkenode raw mapi None ins) (mkanode (tx_of_slice raw) (Antecedents l)).
Definition proof_returned (e : envel) (p : aproof) : Prop :=
  ap_payment p = [tx_of_slice (sv_raw e)] /\
  Forall2 (fun x f => exists a, f = (rev (fst x), Some a) /\ returned (snd x) a) (sv_inputs e) (ap_map p).
(* headers that the database has at the heights given *)
Inductive placed : anode -> Prop :=
| placed_confirmed t c : (exists h, header_by m (h_merkle_root (c_header c)) = Some (c_height c, h)) -> placed (mkanode t (Confirmed c))
| placed_antecedents t l : Forall (fun e => forall a, snd e = Some a -> placed a) l -> placed (mkanode t (Antecedents l)).
End Back.

(* ---------------------------------------------------------------- JSON *)
Section Json.
Variable keep : bool.
Variable odd : bytes -> option digest.
(* answers cannot be read: there are none *)
Definition no_answers (j : json) : Prop := absent (text "mapiResponses") j \/ has_list "mapiResponses" j [].
Definition raw_says (j : json) (raw : bytes) : Prop := exists r, has_text "rawTx" j r /\ hex_read r = Some raw.
(* a proof, and perhaps something after it *)
Definition proof_says (b : bytes) (p : tsc) : Prop := exists c rest, b = c ++ rest /\ tsc_form p c /\ ts_id p <> None.
Inductive jnode_says : json -> enode -> Prop :=
| js_proof j raw s b p : raw_says j raw -> no_answers j -> absent (text "inputs") j ->
    has_text "proof" j s -> hex_read s = Some b -> proof_says b p -> jnode_says j (mkenode raw [] (Some p) [])
| js_inputs j raw i es ins : raw_says j raw -> no_answers j -> absent (text "proof") j ->
    member (text "inputs") j (JObject i) ->
    Forall2 (fun e f => exists d n, digest_says odd (fst e) d /\ nonzero d /\ f = (rev d, Some n) /\ jnode_says (snd e) n) i es ->
    gathered keep es ins -> jnode_says j (mkenode raw [] None ins).
Definition envel_says (j : json) (e : envel) : Prop :=
  raw_says j (sv_raw e) /\ no_answers j /\ sv_mapi e = [] /\
  ((absent (text "txid") j /\ sv_txid e = None) \/ (exists s d, has_text "txid" j s /\ digest_says odd s d /\ nonzero d /\ sv_txid e = Some d)) /\
  exists i es, member (text "inputs") j (JObject i) /\
    Forall2 (fun x f => exists d n, digest_says odd (fst x) d /\ nonzero d /\ f = (rev d, n) /\ jnode_says (snd x) n) i es /\
    gathered keep es (sv_inputs e).
End Json.

(* without answers *)
Inductive bare : enode -> Prop :=
| bare_node raw p ins : Forall (fun e => forall n, snd e = Some n -> bare n) ins -> bare (mkenode raw [] p ins).

(* what comes back from JSON *)
Definition id_ok (d : digest) : Prop := length d = 32%nat /\ nonzero d.
Inductive restorable : enode -> Prop :=
| rest_proof raw p : tsc_wf p -> identified p -> targeted p -> ts_tx p = None -> p_index (ts_path p) < 2 ^ 32 -> restorable (mkenode raw [] (Some p) [])
| rest_inputs raw ins : sorted ins -> Forall (fun e => id_ok (rev (fst e)) /\ exists n, snd e = Some n /\ restorable n) ins -> restorable (mkenode raw [] None ins).
Definition envel_restorable (e : envel) : Prop :=
  sv_mapi e = [] /\ (forall d, sv_txid e = Some d -> id_ok d) /\ sorted (sv_inputs e) /\
  Forall (fun x => id_ok (rev (fst x)) /\ restorable (snd x)) (sv_inputs e).
(* an SPV proof that can be sent in an envelope *)
Inductive sendable : anode -> Prop :=
| send_confirmed t c : header_wf (c_header c) -> p_index (c_path c) < 2 ^ 32 -> N.of_nat (length (p_digests (c_path c))) < 2 ^ 64 ->
    Forall (opt_wf (fun d => length d = 32%nat)) (p_digests (c_path c)) -> sendable (mkanode t (Confirmed c))
| send_antecedents t l : Forall (fun e => id_ok (fst e) /\ forall a, snd e = Some a -> sendable a) l -> sendable (mkanode t (Antecedents l)).
