(* ARC: what its responses are taken to say, what is asked of it, and its policy on fees.
   Source: pay/ARC.cpp, include/gigamonkey/pay/ARC.hpp.
   External and left as parameters: the text form of JSON [dump] [parse]; the case of hexadecimal digits [u1] [u2] as in TscModel;
   data::net::error::valid [error_ok]; the conversion of a floating point number to an integer ([float_u], [float_i], None
   when it does not fit).  An amount is compared with a rate through the conversion of the rate to double; whether the
   comparison is one of doubles or the double is first cut to an integer depends on the operators the library has for
   int64_little ([cut]).  URLs are their texts; a response is its status, its content type and its body.
   Not modelled: the transport; status::block_hash and the other functions that are declared only; lists of more than 2^31
   transactions. *)
From Coq Require Import String.
From Verif Require Import Base WireModel MerkleModel TextModel TextSpec JsonModel ScriptModel MachineModel SighashModel ExtModel TscModel Bip44Model.
Local Open Scope list_scope.
Local Open Scope N_scope.

Definition k_timestamp := text "timestamp".
Definition k_healthy := text "healthy".
Definition k_version := text "version".
Definition k_reason := text "reason".
Definition k_policy := text "policy".
Definition k_script_size := text "maxscriptsizepolicy".
Definition k_sigops := text "maxtxsigopscountspolicy".
Definition k_tx_size := text "maxtxsizepolicy".
Definition k_mining_fee := text "miningFee".
Definition k_satoshis := text "satoshis".
Definition k_bytes := text "bytes".
Definition k_block_hash := text "blockHash".
Definition k_block_height := text "blockHeight".
Definition k_txid := text "txid".
Definition k_merkle_path := text "merklePath".
Definition k_tx_status := text "txStatus".
Definition k_raw := text "rawTx".
Definition t_json := text "application/json".

(* HTTP::response *)
Record http := mkhttp { ht_status : N; ht_type : option bytes; ht_body : bytes }.
(* contains (k) and a test of the type *)
Definition has_kind (test : json -> bool) (k : bytes) (j : json) : bool := match j_get k j with Some v => test v | None => false end.
Definition is_number (j : json) : bool := match j with JInt _ | JUint _ | JFloat _ => true | _ => false end.

Section Arc.
Variable parse : bytes -> option json.
Variable dump : json -> bytes.
Variable u1 u2 : bool.
Variable error_ok : json -> bool.
Variable float_u : N -> option N.
Variable float_i : N -> option Z.
Variable cut : bool.

(* ---------------------------------------------------------------- responses *)
(* ARC.cpp 42-47 *)
Definition arc_body (r : http) : option json := parse (ht_body r).
(* ARC.cpp 32-36: && binds before || *)
Definition arc_valid (r : http) : bool :=
  ((ht_status r =? 401) && bytes_eqb (ht_body r) []) ||
  (match ht_type r with Some t => bytes_eqb t t_json | None => false end || some (arc_body r)).
(* ARC.hpp 261-263 *)
Definition arc_is_error (r : http) : bool := negb (ht_status r =? 200).
(* ARC.cpp 38-41: the condition calls the function itself; [None]: the given number of calls was not enough *)
Fixpoint arc_error (fuel : nat) (r : http) : option (outcome unit json) :=
  match fuel with
  | O => None
  | S f =>
      match arc_error f r with
      | None => None
      | Some (Ret e) => if negb (error_ok e) || (ht_status r =? 401) then Some (Ret JNull)
                        else Some (match arc_body r with Some b => Ret b | None => Undef end)
      | Some x => Some x
      end
  end.

(* *body (r): undefined when there is none *)
Definition arc_deref (r : http) : outcome unit json := match arc_body r with Some j => Ret j | None => Undef end.
(* conversions of JSON values, which throw *)
Definition as_bool (j : json) : outcome unit bool := match j with JBool b => Ret b | _ => Throw tt end.
Definition as_u64 (j : json) : outcome unit N :=
  match j with
  | JUint n => Ret n
  | JInt z => Ret (Z.to_N (z mod 18446744073709551616))
  | JFloat f => match float_u f with Some n => Ret n | None => Undef end
  | _ => Throw tt
  end.
Definition as_i64 (j : json) : outcome unit Z :=
  match j with
  | JUint n => Ret (as_int64 n)
  | JInt z => Ret z
  | JFloat f => match float_i f with Some z => Ret z | None => Undef end
  | _ => Throw tt
  end.

(* ARC.hpp 278-284 *)
Definition success_valid (j : json) : bool := is_object j && some (j_get k_timestamp j).
Definition arc_timestamp (j : json) : outcome unit bytes := and_then (at_key k_timestamp j) as_text.

(* ARC.hpp 294-297, 311-323 *)
Definition health_valid (j : json) : bool :=
  is_object j && has_kind is_boolean k_healthy j && has_kind is_string k_version j && has_kind (fun v => is_string v || is_null v) k_reason j.
Definition health_healthy (j : json) : outcome unit bool := and_then (at_key k_healthy j) as_bool.
Definition health_reason (j : json) : outcome unit bytes := and_then (at_key k_reason j) (fun v => if is_string v then as_text v else Ret []).
Definition health_version (j : json) : outcome unit bytes := and_then (at_key k_version j) as_text.
(* ARC.hpp 329-332, ARC.cpp 49-53 *)
Definition health_of (r : http) : outcome unit json := if arc_is_error r then Ret JNull else arc_deref r.
Definition health_response_valid (r : http) : bool :=
  if arc_valid r then match arc_body r with Some b => health_valid b | None => true end else false.

(* ARC.cpp 55-60, ARC.hpp 357-372 *)
Definition policy_valid (j : json) : bool :=
  is_object j && has_kind is_number k_script_size j && has_kind is_number k_sigops j && has_kind is_number k_tx_size j && has_kind is_object k_mining_fee j.
Definition policy_script_size (j : json) : outcome unit N := and_then (at_key k_script_size j) as_u64.
Definition policy_sigops (j : json) : outcome unit N := and_then (at_key k_sigops j) as_u64.
Definition policy_tx_size (j : json) : outcome unit N := and_then (at_key k_tx_size j) as_u64.
Definition policy_fee (j : json) : outcome unit rate :=
  and_then (at_key k_mining_fee j) (fun m =>
  and_then (and_then (at_key k_satoshis m) as_i64) (fun s =>
  and_then (and_then (at_key k_bytes m) as_u64) (fun b => Ret {| rt_satoshis := s; rt_bytes := b |}))).
(* ARC.cpp 62-68, ARC.hpp 386-392 *)
Definition policy_response_valid (r : http) : bool :=
  if arc_valid r then
    match arc_body r with
    | Some b => success_valid b && match j_get k_policy b with Some p => policy_valid p | None => false end
    | None => true
    end
  else false.
Definition policy_of (r : http) : outcome unit json := and_then (arc_deref r) (at_key k_policy).
Definition timestamp_of (r : http) : outcome unit bytes := and_then (arc_deref r) arc_timestamp.

(* ARC.cpp 70-77 *)
Definition status_valid (j : json) : bool :=
  has_kind is_string k_block_hash j && has_kind is_unsigned k_block_height j && has_kind is_string k_txid j &&
  has_kind is_string k_merkle_path j && has_kind is_string k_tx_status j.
(* ARC.cpp 79-86 *)
Definition status_response_valid (r : http) : bool :=
  if arc_valid r then
    match arc_body r with
    | Some b => if arc_is_error r then (error_ok b && (ht_status r =? 404)) || (ht_status r =? 409) else success_valid b && status_valid b
    | None => true
    end
  else false.
(* ARC.cpp 194-206 *)
Definition submit_response_valid (r : http) : bool :=
  let s := ht_status r in
  if arc_valid r then
    match arc_body r with
    | Some b => if arc_is_error r then (error_ok b && (s =? 400)) || (s =? 409) || (s =? 422) || (s =? 409) || ((460 <=? s) && (s <=? 469)) || (s =? 473)
                else success_valid b && status_valid b
    | None => true
    end
  else false.
(* ARC.cpp 208-220 *)
Definition submit_txs_response_valid (r : http) : bool :=
  let s := ht_status r in
  if arc_valid r then
    match arc_body r with
    | Some b => if arc_is_error r then (error_ok b && (s =? 400)) || (s =? 409) || (s =? 409) || ((460 <=? s) && (s <=? 469)) || (s =? 473)
                else match b with JArray l => forallb status_valid l | _ => false end
    | None => true
    end
  else false.
(* ARC.hpp 430-432, 442-444 *)
Definition status_of (r : http) : outcome unit json := arc_deref r.
(* the elements a loop over a JSON value visits *)
Definition elements (j : json) : list json :=
  match j with JNull => [] | JArray l => l | JObject o => map snd o | _ => [j] end.
(* ARC.cpp 222-227 *)
Definition statuses_of (r : http) : outcome unit (list json) := and_then (arc_deref r) (fun b => Ret (elements b)).

(* ---------------------------------------------------------------- requests *)
(* ARC.cpp 8-18 *)
Definition policy_path (base : bytes) : bytes := base ++ text "/v1/policy".
Definition health_path (base : bytes) : bytes := base ++ text "/v1/health".
Definition status_path (base txid : bytes) : bytes := base ++ text "/v1/tx/" ++ digest_text u2 txid.
(* ARC.hpp 184; a value of the enumeration may be none of the three *)
Inductive content := CText | CJson | COctet | COther.
(* ARC.hpp 187-200; a status value is a uint32 *)
Record submit := mksubmit {
  sm_content : content; sm_url : option bytes; sm_full : option bool; sm_timeout : option Z; sm_skip_fee : option bool;
  sm_skip_script : option bool; sm_skip_tx : option bool; sm_cumulative : option bool; sm_token : option bytes; sm_wait : option N }.
Definition submit_default : submit := mksubmit COctet None None None None None None None None None.
(* ARC.cpp 140-173 *)
Definition content_text (c : content) : outcome unit bytes :=
  match c with
  | CText => Ret (text "text/plain")
  | CJson => Ret (text "application/json")
  | COctet => Ret (text "application/octet-stream")
  | COther => Throw tt
  end.
Definition wait_text (n : N) : outcome unit bytes :=
  if n =? 2 then Ret (text "RECEIVED")
  else if n =? 3 then Ret (text "STORED")
  else if n =? 4 then Ret (text "ANNOUNCED_TO_NETWORK")
  else if n =? 5 then Ret (text "REQUESTED_BY_NETWORK")
  else if n =? 6 then Ret (text "SENT_TO_NETWORK")
  else if n =? 7 then Ret (text "ACCEPTED_BY_NETWORK")
  else if n =? 8 then Ret (text "SEEN_ON_NETWORK")
  else Throw tt.
Definition bool_text (b : bool) : bytes := if b then text "true" else text "false".
Definition int_text (z : Z) : bytes := if (z <? 0)%Z then text "-" ++ to_string (Z.abs_N z) else to_string (Z.to_N z).
(* if (bool (x)) m = m.append ({name, write (x)}) *)
Definition add_header {A} (name : bytes) (write : A -> outcome unit bytes) (x : option A) (m : list (bytes * bytes)) : outcome unit (list (bytes * bytes)) :=
  match x with Some a => and_then (write a) (fun v => Ret (m ++ [(name, v)])) | None => Ret m end.
(* ARC.cpp 175-189 *)
Definition headers (s : submit) : outcome unit (list (bytes * bytes)) :=
  and_then (add_header (text "Content-Type") content_text (Some (sm_content s)) []) (fun m =>
  and_then (add_header (text "X-CallbackURL") Ret (sm_url s) m) (fun m =>
  and_then (add_header (text "X-FullStatusUpdates") (fun b => Ret (bool_text b)) (sm_full s) m) (fun m =>
  and_then (add_header (text "X-MaxTimeout") (fun b => Ret (int_text b)) (sm_timeout s) m) (fun m =>
  and_then (add_header (text "X-SkipFeeValidation") (fun b => Ret (bool_text b)) (sm_skip_fee s) m) (fun m =>
  and_then (add_header (text "X-SkipScriptValidation") (fun b => Ret (bool_text b)) (sm_skip_script s) m) (fun m =>
  and_then (add_header (text "X-SkipTxValidation") (fun b => Ret (bool_text b)) (sm_skip_tx s) m) (fun m =>
  and_then (add_header (text "X-CumulativeFeeValidation") (fun b => Ret (bool_text b)) (sm_cumulative s) m) (fun m =>
  and_then (add_header (text "X-CallbackToken") Ret (sm_token s) m) (fun m =>
  add_header (text "X-WaitFor") wait_text (sm_wait s) m))))))))).
(* bytes (tx): undefined when the buffer is too short *)
Definition tx_octets (t : xtx) : outcome unit bytes := match xtx_bytes t with Some b => Ret b | None => Undef end.
Definition tx_json (t : xtx) : outcome unit json :=
  and_then (tx_octets t) (fun b => Ret (JObject [(k_raw, JString (hex_of u1 b))])).
Fixpoint all_of {A B} (f : A -> outcome unit B) (l : list A) : outcome unit (list B) :=
  match l with
  | [] => Ret []
  | x :: r => and_then (f x) (fun y => and_then (all_of f r) (fun z => Ret (y :: z)))
  end.
Fixpoint joined (l : list bytes) : bytes :=
  match l with
  | [] => []
  | [x] => x
  | x :: r => x ++ x0a :: joined r
  end.
(* ARC.cpp 88-107 *)
Definition tx_body (c : content) (t : xtx) : outcome unit bytes :=
  match c with
  | COctet => tx_octets t
  | CJson => and_then (tx_json t) (fun j => Ret (dump j))
  | CText => and_then (tx_octets t) (fun b => Ret (hex_of u1 b))
  | COther => Throw tt
  end.
(* ARC.cpp 109-138: one buffer for all (the sum assumed below 2^64) *)
Definition txs_body (c : content) (l : list xtx) : outcome unit bytes :=
  match c with
  | COctet => match buffer_write (fold_left (fun n t => n + xtx_size t) l 0) (concat (map xtx_write l)) with Some b => Ret b | None => Undef end
  | CJson => and_then (all_of tx_json l) (fun a => Ret (dump (JArray a)))
  | CText => and_then (all_of (fun t => and_then (tx_octets t) (fun b => Ret (hex_of u1 b))) l) (fun a => Ret (joined a))
  | COther => Throw tt
  end.
(* a POST *)
Record post := mkpost { po_path : bytes; po_headers : list (bytes * bytes); po_body : bytes }.
Definition submit_tx (base : bytes) (t : xtx) (s : submit) : outcome unit post :=
  and_then (headers s) (fun h => and_then (tx_body (sm_content s) t) (fun b => Ret (mkpost (base ++ text "/v1/tx") h b))).
Definition submit_txs (base : bytes) (l : list xtx) (s : submit) : outcome unit post :=
  and_then (headers s) (fun h => and_then (txs_body (sm_content s) l) (fun b => Ret (mkpost (base ++ text "/v1/txs") h b))).

(* ---------------------------------------------------------------- the policy *)
(* doubles with a sign *)
Definition sdouble (z : Z) (x : N * N) : Z * N := (if (z <? 0)%Z then - Z.of_N (fst x) else Z.of_N (fst x), snd x)%Z.
(* satoshi.hpp 68-71 *)
Definition rate_double (r : rate) : Z * N := sdouble (rt_satoshis r) (double_div (double (Z.abs_N (rt_satoshis r)) 1) (double (rt_bytes r) 1)).
(* fee () < spb *)
Definition fee_below (fee : Z) (r : rate) : outcome unit bool :=
  if rt_bytes r =? 0 then Throw tt
  else let q := rate_double r in
       if cut then let z := Z.quot (fst q) (Z.of_N (snd q)) in if fits64 z then Ret (fee <? z)%Z else Undef
       else let f := sdouble fee (double (Z.abs_N fee) 1) in Ret (fst f * Z.of_N (snd q) <? fst q * Z.of_N (snd f))%Z.
(* timechain.cpp 277-286: every byte of every script is looked at, and the count is not returned *)
Definition count_ops (n : N) (s : bytes) : N :=
  fold_left (fun n o => if (b2n o =? 172) || (b2n o =? 173) then n + 1 else if (b2n o =? 174) || (b2n o =? 175) then n + 20 else n) s n.
Definition sigops (t : tx) : N :=
  let _ := fold_left count_ops (map out_script (tx_outputs t)) (fold_left count_ops (map in_script (tx_inputs t)) 0) in
  0.
(* ARC.cpp 229-248 *)
Definition satisfies (ovf : Z -> Z) (p : json) (t : xtx) : outcome unit bool :=
  and_then (policy_script_size p) (fun script_max =>
  and_then (policy_sigops p) (fun sigops_max =>
  and_then (policy_tx_size p) (fun size_max =>
  and_then (policy_fee p) (fun fee_rate =>
  if sigops_max <? sigops (xtx_plain t) then Ret false
  else if size_max <? tx_size (xtx_plain t) then Ret false
  else and_then (fee_below (xtx_fee ovf t) fee_rate) (fun low =>
  if low then Ret false
  else if existsb (fun i => script_max <? len (in_script (xi_input i))) (xt_inputs t) then Ret false
  else if existsb (fun o => script_max <? len (out_script o)) (xt_outputs t) then Ret false
  else Ret true))))).
End Arc.
