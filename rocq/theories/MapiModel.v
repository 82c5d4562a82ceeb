(* Merchant API: its messages as JSON, and what the client makes of answers.
   Source: pay/MAPI.cpp, include/gigamonkey/pay/MAPI.hpp.
   External and left as parameters: the case of hexadecimal digits [u1] [u2] and digests of odd texts [odd] as in TscModel;
   whether a byte string is a public key [point]; the order in which std::ostream writes digests [shown]; the map of the
   library on a key it has already [keep]; JSON text [dump] [parse] and the envelope, as in EnvelopeModel.  IP addresses are
   their texts.  Numbers of nlohmann::json converted to uint32 are cut; to int64 they wrap around.
   Not modelled: the requests over HTTP beyond path, query parameters and body; encode_form_data; response<T>::verify, which
   cannot be instantiated; the conversion of response<T> to JSON, for which the compiler has two ways. *)
From Coq Require Import String.
From Verif Require Import Base WireModel MerkleModel TextModel TextSpec JsonModel ExtModel TscModel EnvelopeModel.
Local Open Scope list_scope.
Local Open Scope N_scope.

Definition k_txid := text "txid".
Definition k_size := text "size".
Definition k_hex := text "hex".
Definition k_satoshis := text "satoshis".
Definition k_bytes := text "bytes".
Definition k_fee_type := text "feeType".
Definition k_mining_fee := text "miningFee".
Definition k_relay_fee := text "relayFee".
Definition k_api_version := text "apiVersion".
Definition k_timestamp := text "timestamp".
Definition k_expiry_time := text "expiryTime".
Definition k_miner_id := text "minerId".
Definition k_highest_hash := text "currentHighestBlockHash".
Definition k_highest_height := text "currentHighestBlockHeight".
Definition k_fees := text "fees".
Definition k_callbacks := text "callbacks".
Definition k_policies := text "policies".
Definition k_return_result := text "returnResult".
Definition k_return_description := text "returnDescription".
Definition k_result_description := text "resultDescription".
Definition k_conflicted_with := text "conflictedWith".
Definition k_expiry := text "txSecondMempoolExpiry".
Definition k_block_hash := text "blockHash".
Definition k_block_height := text "blockHeight".
Definition k_confirmations := text "confirmations".
Definition k_txs := text "txs".
Definition k_failure_count := text "failureCount".
Definition k_rawtx := text "rawtx".
Definition s_success := text "success".
Definition s_failure := text "failure".

(* contains (k) and a test of the type *)
Definition get_text (k : bytes) (j : json) : option bytes := match j_get k j with Some (JString s) => Some s | _ => None end.
Definition get_uint (k : bytes) (j : json) : option N := match j_get k j with Some (JUint n) => Some n | _ => None end.
Definition get_array (k : bytes) (j : json) : option (list json) := match j_get k j with Some (JArray l) => Some l | _ => None end.
(* j[k] = v: null becomes an object *)
Definition j_put (k : bytes) (v : json) (j : json) : json := match j with JNull => JObject [(k, v)] | _ => j_set k v j end.
(* JSON {{k, v}, ..} *)
Definition j_pairs (l : list (bytes * json)) : json := init_list (map (fun p => JArray [JString (fst p); snd p]) l).
(* conversions of numbers *)
Definition to_u32 (n : N) : N := n mod 2 ^ 32.
Definition to_i64 (n : N) : Z := if n <? 2 ^ 63 then Z.of_N n else (Z.of_N n - 2 ^ 64)%Z.
(* nlohmann::json keeps an int64 as a signed number *)
Definition of_i64 (z : Z) : json := JInt z.

(* ---------------------------------------------------------------- messages *)
(* MAPI.hpp 68-82 *)
Record fee := mkfee { fe_mining : rate; fe_relay : rate }.
(* MAPI.hpp 82-107 *)
Record fee_quote := mkquote {
  fq_version : bytes; fq_time : bytes; fq_expiry : bytes; fq_miner : bytes; fq_hash : digest; fq_height : N; fq_fees : list (bytes * fee) }.
Definition quote_none : fee_quote := mkquote [] [] [] [] zero_digest 0 [].
(* MAPI.hpp 109-131 *)
Record policy_quote := mkpolicy { pq_quote : fee_quote; pq_callbacks : list bytes; pq_policies : json }.
Definition policy_none : policy_quote := mkpolicy quote_none [] JNull.
(* MAPI.hpp 139-152 *)
Record conflict := mkconflict { cw_txid : digest; cw_size : N; cw_tx : bytes }.
Definition conflict_none : conflict := mkconflict zero_digest 0 [].
(* MAPI.hpp 154-172: the result is success or failure *)
Record status := mkstatus { st_txid : digest; st_success : bool; st_description : bytes; st_conflicts : list conflict }.
Definition status_none : status := mkstatus zero_digest false [] [].
(* MAPI.hpp 174-219 *)
Record tx_status := mktxstatus {
  tt_status : status; tt_version : bytes; tt_time : bytes; tt_miner : bytes; tt_expiry : N;
  tt_hash : option digest; tt_height : option N; tt_confirmations : option N }.
Definition tx_status_none : tx_status := mktxstatus status_none [] [] [] 0 None None None.
(* MAPI.hpp 266-294 *)
Record submitted := mksubmitted {
  sb_status : status; sb_version : bytes; sb_time : bytes; sb_miner : bytes; sb_expiry : N; sb_hash : digest; sb_height : N }.
Definition submitted_none : submitted := mksubmitted status_none [] [] [] 0 zero_digest 0.
(* MAPI.hpp 306-325 *)
Record submitted_all := mksubmittedall {
  sa_version : bytes; sa_time : bytes; sa_miner : bytes; sa_hash : digest; sa_height : N; sa_expiry : N; sa_txs : list status; sa_failures : N }.
Definition submitted_all_none : submitted_all := mksubmittedall [] [] [] zero_digest 0 0 [] 0.
(* MAPI.hpp 221-239 *)
Record parameters := mkparameters {
  pm_url : option bytes; pm_token : option bytes; pm_proof : option bool; pm_format : option bytes; pm_check : option bool; pm_encryption : option bytes }.
(* MAPI.hpp 241-253 *)
Record submission := mksubmission { sm_tx : bytes; sm_parameters : parameters }.

Section Mapi.
Variable u1 u2 : bool.
Variable odd : bytes -> option digest.
Variable point : bytes -> bool.
Variable shown : digest -> bytes.
Variable keep : bool.

(* MAPI.hpp 385-404, 436-445, 458-466; data::valid of a map is that of its values *)
Definition fee_valid (f : fee) : bool := rate_valid (fe_mining f) && rate_valid (fe_relay f).
Definition conflict_valid (c : conflict) : bool := digest_valid (cw_txid c) && (cw_size c =? len (cw_tx c)).
Definition status_valid (s : status) : bool := digest_valid (st_txid s).
Definition quote_valid (q : fee_quote) : bool :=
  negb (bytes_eqb (fq_time q) []) && negb (bytes_eqb (fq_expiry q) []) && point (fq_miner q) && digest_valid (fq_hash q) &&
  negb (fq_height q =? 0) && forallb (fun e => fee_valid (snd e)) (fq_fees q).
Definition policy_valid (p : policy_quote) : bool := quote_valid (pq_quote p).
Definition submission_valid (s : submission) : bool := 0 <? len (sm_tx s).
(* a key is compared with the empty one, see pubkey_eqb in SecpModel *)
Definition tx_status_valid (t : tx_status) : bool :=
  negb (bytes_eqb (tt_version t) []) && negb (bytes_eqb (tt_time t) []) && negb (bytes_eqb (tt_miner t) []).
Definition submitted_valid (s : submitted) : bool := status_valid (sb_status s).
Definition submitted_all_valid (s : submitted_all) : bool :=
  negb (bytes_eqb (sa_time s) []) && point (sa_miner s) && digest_valid (sa_hash s) && negb (sa_height s =? 0) &&
  negb (sa_expiry s =? 0) && forallb status_valid (sa_txs s).

(* ---- reading ---- *)
(* MAPI.cpp 51-58 *)
Definition spb_read (j : json) : rate :=
  match get_uint k_satoshis j, get_uint k_bytes j with
  | Some s, Some b => {| rt_satoshis := to_i64 s; rt_bytes := b |}
  | _, _ => rate_default
  end.
(* MAPI.cpp 236-250 *)
Definition conflict_read (j : json) : outcome unit conflict :=
  match get_text k_txid j, get_uint k_size j, get_text k_hex j with
  | Some t, Some n, Some h =>
      match hex_read h with
      | Some b => and_then (read_digest odd t) (fun d => Ret (mkconflict d n b))
      | None => Ret conflict_none
      end
  | _, _, _ => Ret conflict_none
  end.
(* MAPI.cpp 129-136: first (cw) is the first of all; [None]: the status is not read *)
Fixpoint conflicts_read (cw : list conflict) (l : list json) : outcome unit (option (list conflict)) :=
  match l with
  | [] => Ret (Some cw)
  | w :: r => and_then (conflict_read w) (fun c =>
                match cw ++ [c] with
                | f :: _ => if conflict_valid f then conflicts_read (cw ++ [c]) r else Ret None
                | [] => Undef
                end)
  end.
Definition result_read (s : bytes) : option bool :=
  if bytes_eqb s s_success then Some true else if bytes_eqb s s_failure then Some false else None.
(* MAPI.cpp 115-144 *)
Definition status_read (j : json) : outcome unit status :=
  match get_text k_txid j, get_text k_return_result j, get_text k_return_description j,
        match j_get k_conflicted_with j with None => Some [] | Some (JArray l) => Some l | Some _ => None end with
  | Some t, Some rr, Some _, Some l =>
      match result_read rr with
      | None => Ret status_none
      | Some r =>
          and_then (conflicts_read [] l) (fun c =>
          match c with
          | None => Ret status_none
          | Some cw =>
              and_then (read_digest odd t) (fun d =>
              if negb (digest_valid d) then Ret status_none
              else and_then (and_then (at_key k_result_description j) as_text) (fun s => Ret (mkstatus d r s cw)))
          end)
      end
  | _, _, _, _ => Ret status_none
  end.
(* MAPI.cpp 265-281: one fee; [None]: nothing is read *)
Definition fee_read (j : json) : option (bytes * fee) :=
  match get_text k_fee_type j, j_get k_mining_fee j, j_get k_relay_fee j with
  | Some t, Some m, Some r =>
      if negb (rate_valid (spb_read m)) then None
      else if negb (rate_valid (spb_read r)) then None
      else Some (t, mkfee (spb_read m) (spb_read r))
  | _, _, _ => None
  end.
Definition fee_insert (f : list (bytes * fee)) (e : bytes * fee) : list (bytes * fee) :=
  if keep then obj_add f e else obj_set (fst e) (snd e) f.
Fixpoint fees_read (f : list (bytes * fee)) (l : list json) : option (list (bytes * fee)) :=
  match l with
  | [] => Some f
  | j :: r => match fee_read j with Some e => fees_read (fee_insert f e) r | None => None end
  end.
(* MAPI.cpp 252-298 *)
Definition quote_read (j : json) : outcome unit fee_quote :=
  match get_text k_api_version j, get_text k_timestamp j, get_text k_expiry_time j, get_text k_miner_id j, get_text k_highest_hash j,
        get_uint k_highest_height j, get_array k_fees j with
  | Some v, Some t, Some e, Some m, Some h, Some n, Some l =>
      match fees_read [] l, hex_read m with
      | Some f, Some k =>
          and_then (read_digest odd h) (fun d => if digest_valid d then Ret (mkquote v t e k d n f) else Ret quote_none)
      | _, _ => Ret quote_none
      end
  | _, _, _, _, _, _, _ => Ret quote_none
  end.
(* MAPI.cpp 92-103: the member is looked for in the array itself *)
Definition callbacks_read (j : json) : option (list bytes) :=
  match j with JArray [] => Some [] | _ => None end.
(* MAPI.cpp 313-327: the quote is assigned to a temporary object *)
Definition policy_read (j : json) : outcome unit policy_quote :=
  match j_get k_callbacks j, j_get k_policies j with
  | Some c, Some p =>
      and_then (quote_read j) (fun q =>
      if negb (quote_valid q) then Ret policy_none
      else match callbacks_read c with Some l => Ret (mkpolicy quote_none l p) | None => Ret policy_none end)
  | _, _ => Ret policy_none
  end.
(* MAPI.cpp 340-370: the status is assigned to a temporary object *)
Definition submitted_read (j : json) : outcome unit submitted :=
  match get_text k_api_version j, get_text k_timestamp j, get_text k_miner_id j, get_text k_highest_hash j,
        get_uint k_highest_height j, get_uint k_expiry j with
  | Some v, Some t, Some m, Some h, Some n, Some x =>
      and_then (status_read j) (fun s =>
      if negb (status_valid s) then Ret submitted_none
      else match hex_read m with
           | None => Ret submitted_none
           | Some k => and_then (read_digest odd h) (fun d =>
               if digest_valid d then Ret (mksubmitted status_none v t k (to_u32 x) d n) else Ret submitted_none)
           end)
  | _, _, _, _, _, _ => Ret submitted_none
  end.
(* MAPI.cpp 399-432: the status is assigned to a temporary object *)
Definition tx_status_read (j : json) : outcome unit tx_status :=
  match get_text k_api_version j, get_text k_timestamp j, get_text k_block_hash j, get_uint k_block_height j, get_text k_miner_id j,
        match j_get k_confirmations j with None => Some None | Some (JUint n) => Some (Some n) | Some _ => None end, get_uint k_expiry j with
  | Some v, Some t, Some h, Some n, Some m, Some c, Some x =>
      and_then (status_read j) (fun s =>
      if negb (status_valid s) then Ret tx_status_none
      else match hex_read m with
           | None => Ret tx_status_none
           | Some k => and_then (read_digest odd h) (fun d =>
               if digest_valid d
               then Ret (mktxstatus status_none v t k (to_u32 x) (Some d) (Some (to_u32 n)) (option_map to_u32 c))
               else Ret tx_status_none)
           end)
  | _, _, _, _, _, _, _ => Ret tx_status_none
  end.
(* MAPI.cpp 462-466 *)
Fixpoint statuses_read (sr : list status) (l : list json) : outcome unit (option (list status)) :=
  match l with
  | [] => Ret (Some sr)
  | w :: r => and_then (status_read w) (fun s =>
                match sr ++ [s] with
                | f :: _ => if status_valid f then statuses_read (sr ++ [s]) r else Ret None
                | [] => Undef
                end)
  end.
(* MAPI.cpp 449-484: "blockHash" is read without a test *)
Definition submitted_all_read (j : json) : outcome unit submitted_all :=
  match get_text k_api_version j, get_text k_timestamp j, get_text k_miner_id j, get_text k_highest_hash j,
        get_uint k_highest_height j, get_uint k_expiry j, get_array k_txs j, get_uint k_failure_count j with
  | Some v, Some t, Some m, Some _, Some n, Some x, Some l, Some c =>
      and_then (statuses_read [] l) (fun s =>
      match s, hex_read m with
      | Some sr, Some k =>
          and_then (and_then (and_then (at_key k_block_hash j) as_text) (read_digest odd)) (fun d =>
          if digest_valid d then Ret (mksubmittedall v t k d n (to_u32 x) sr (to_u32 c)) else Ret submitted_all_none)
      | _, _ => Ret submitted_all_none
      end)
  | _, _, _, _, _, _, _, _ => Ret submitted_all_none
  end.

(* ---- writing ---- *)
Definition w_digest (d : digest) : json := JString (digest_text u2 d).
Definition w_hex (b : bytes) : json := JString (hex_of u1 b).
(* MAPI.cpp 64-66 *)
Definition spb_write (r : rate) : json := j_pairs [(k_satoshis, of_i64 (rt_satoshis r)); (k_bytes, JUint (rt_bytes r))].
(* MAPI.cpp 68-70 *)
Definition result_write (b : bool) : json := JString (if b then s_success else s_failure).
(* MAPI.cpp 228-234 *)
Definition conflict_write (c : conflict) : json :=
  j_pairs [(k_txid, w_digest (cw_txid c)); (k_size, JUint (cw_size c)); (k_hex, w_hex (cw_tx c))].
(* MAPI.cpp 387-397, 168-176 *)
Definition status_write (s : status) : json :=
  let j := j_pairs [(k_txid, w_digest (st_txid s)); (k_return_result, result_write (st_success s)); (k_result_description, JString (st_description s))] in
  match st_conflicts s with [] => j | l => j_put k_conflicted_with (JArray (map conflict_write l)) j end.
(* MAPI.cpp 178-189: null when it is not valid *)
Definition status_json (s : status) : json := if status_valid s then status_write s else JNull.
(* MAPI.cpp 80-90 *)
Definition fee_write (e : bytes * fee) : json :=
  if fee_valid (snd e)
  then j_pairs [(k_fee_type, JString (fst e)); (k_mining_fee, spb_write (fe_mining (snd e))); (k_relay_fee, spb_write (fe_relay (snd e)))]
  else JNull.
(* MAPI.cpp 300-311: the first two characters of what the stream writes are dropped *)
Definition quote_write (q : fee_quote) : json :=
  if quote_valid q
  then j_pairs [(k_api_version, JString (fq_version q)); (k_timestamp, JString (fq_time q)); (k_expiry_time, JString (fq_expiry q));
                (k_miner_id, w_hex (fq_miner q)); (k_highest_hash, JString (skipn 2 (shown (fq_hash q))));
                (k_highest_height, JUint (fq_height q)); (k_fees, JArray (map fee_write (fq_fees q)))]
  else JNull.
(* MAPI.cpp 329-338, 105-113 *)
Definition policy_write (p : policy_quote) : json :=
  match quote_write (pq_quote p) with
  | JNull => JNull
  | j => j_put k_policies (pq_policies p) (j_put k_callbacks (JArray (map JString (pq_callbacks p))) j)
  end.
(* MAPI.cpp 372-385 *)
Definition submitted_write (s : submitted) : json :=
  if negb (submitted_valid s) then JNull
  else j_put k_expiry (JUint (sb_expiry s)) (j_put k_highest_height (JUint (sb_height s)) (j_put k_highest_hash (w_digest (sb_hash s))
       (j_put k_miner_id (w_hex (sb_miner s)) (j_put k_timestamp (JString (sb_time s)) (j_put k_api_version (JString (sb_version s)) (status_json (sb_status s))))))).
(* MAPI.cpp 434-447 *)
Definition tx_status_write (t : tx_status) : json :=
  if negb (tx_status_valid t) then JNull
  else let j := j_put k_expiry (JUint (tt_expiry t)) (j_put k_miner_id (w_hex (tt_miner t)) (j_put k_timestamp (JString (tt_time t))
         (j_put k_api_version (JString (tt_version t)) (status_json (tt_status t))))) in
       match tt_confirmations t with Some n => j_put k_confirmations (JUint n) j | None => j end.
(* MAPI.cpp 486-503 *)
Definition submitted_all_write (s : submitted_all) : json :=
  if submitted_all_valid s
  then j_pairs [(k_api_version, JString (sa_version s)); (k_timestamp, JString (sa_time s)); (k_miner_id, w_hex (sa_miner s));
                (k_highest_hash, w_digest (sa_hash s)); (k_highest_height, JUint (sa_height s)); (k_expiry, JUint (sa_expiry s));
                (k_txs, JArray (map status_write (sa_txs s))); (k_failure_count, JUint (sa_failures s))]
  else JNull.

(* MAPI.cpp 38-49 and 215-226: std::to_string of a bool is the text of a number *)
Definition bool_text (b : bool) : bytes := text (if b then "1" else "0").
Definition parameters_list (p : parameters) : list (bytes * bytes) :=
  match pm_url p with Some s => [(text "callbackUrl", s)] | None => [] end ++
  match pm_token p with Some s => [(text "callbackToken", s)] | None => [] end ++
  match pm_proof p with Some b => [(text "merkleProof", bool_text b)] | None => [] end ++
  match pm_format p with Some s => [(text "merkleFormat", s)] | None => [] end ++
  match pm_check p with Some b => [(text "dsCheck", bool_text b)] | None => [] end ++
  match pm_encryption p with Some s => [(text "callbackEncryption", s)] | None => [] end.
Definition submission_write (s : submission) : json :=
  fold_left (fun j e => j_put (fst e) (JString (snd e)) j) (parameters_list (sm_parameters s)) (j_pairs [(k_rawtx, w_hex (sm_tx s))]).

(* ---------------------------------------------------------------- answers *)
Section Answers.
Variable sha : bytes -> bytes.
Variable b64r : bytes -> option bytes.
Variable verify : bytes -> bytes -> bytes -> bool.
Variable dump : json -> bytes.
Variable parse : bytes -> option json.

(* MAPI.hpp 327-342 *)
Record response (T : Type) := mkresponse { rs_value : T; rs_key : option bytes; rs_sig : option bytes }.
(* MAPI.hpp 489-496: an envelope is made around j, and the value read from its payload is assigned to a temporary object *)
Definition response_read {T} (none : T) (read : json -> outcome unit T) (j : json) : outcome unit (response T) :=
  let e := jj_plain dump j in
  if negb (jj_valid parse e) then Ret (mkresponse T none None None)
  else match jj_payload parse e with
       | Some p => and_then (read p) (fun _ => Ret (mkresponse T none (ev_key e) (ev_sig e)))
       | None => Throw tt
       end.

(* MAPI.cpp 9-27: status, content type and body of the answer *)
Definition call (code : N) (content : option bytes) (body : bytes) : outcome unit json :=
  if (code <? 200) || (300 <=? code) then Throw tt
  else match content with
       | None => Throw tt
       | Some c =>
           if negb (bytes_eqb c (text "application/json")) then Throw tt
           else match parse body with
                | None => Throw tt
                | Some j => if env_verify sha b64r verify (env_read j) then Ret j else Throw tt
                end
       end.
(* MAPI.hpp 356-374 *)
Definition request {T} (none : T) (read : json -> outcome unit T) (code : N) (content : option bytes) (body : bytes) : outcome unit (response T) :=
  and_then (call code content body) (response_read none read).
End Answers.
End Mapi.
