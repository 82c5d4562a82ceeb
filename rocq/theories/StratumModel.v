(* Stratum messages.
   Source: stratum/{method,error,stratum,mining,mining_subscribe,mining_authorize,mining_configure,extensions}.cpp
   and the headers of the same names in include/gigamonkey/stratum, session_id.hpp, message_id.hpp,
   boolean_response.hpp, difficulty.hpp, mining_set_*.hpp, client_*.hpp.
   Values of JSON are those of JsonModel.v; their text form is not modelled.  A conversion of a JSON value to
   a C++ type that does not fit throws: [Throw tt].  encoding::hex::write gives two lower case digits for
   each byte and read takes both cases.
   [mem]: encoding::hex::write of an int32_little gives the bytes as they lie in memory (true), or the
   digits of the number (false); the external library decides.
   Not modelled: authorize_request::username and password (declared as members, defined as other
   functions), set_extranonce's constructor (not defined), floating point difficulties (opaque numbers). *)
From Coq Require Import String.
From Verif Require Import Base TextModel WireModel MerkleModel WorkModel JsonModel.
Local Open Scope N_scope.

(* what a conversion may do *)
Definition res (A : Type) : Type := outcome unit A.
Definition bind {A B} (x : res A) (f : A -> res B) : res B :=
  match x with Ret a => f a | Throw e => Throw e | Undef => Undef end.
(* string (j), bool (j): throw unless the value has the type *)
Definition as_string (j : json) : res bytes := match j with JString s => Ret s | _ => Throw tt end.
Definition as_bool (j : json) : res bool := match j with JBool b => Ret b | _ => Throw tt end.

(* ---------------------------------------------------------------- method.hpp 15-31 *)
Inductive method :=
| unset | mining_authorize | mining_configure | mining_subscribe | mining_notify | mining_submit
| mining_set_difficulty | mining_set_version_mask | mining_set_extranonce | mining_suggest_difficulty
| mining_suggest_target | client_get_version | client_reconnect | client_get_transactions | client_show_message.

(* method.cpp 8-33 *)
Definition method_to_string (m : method) : bytes :=
  match m with
  | mining_notify => text "mining.notify"
  | mining_submit => text "mining.submit"
  | mining_configure => text "mining.configure"
  | mining_authorize => text "mining.authorize"
  | mining_subscribe => text "mining.subscribe"
  | mining_set_difficulty => text "mining.set_difficulty"
  | mining_set_extranonce => text "mining.set_extranonce"
  | mining_set_version_mask => text "mining.set_version_mask"
  | client_get_version => text "client.get_version"
  | client_show_message => text "client.show_message"
  | _ => []
  end.
(* method.cpp 35-47 *)
Definition method_from_string (s : bytes) : method :=
  if bytes_eqb s (text "mining.notify") then mining_notify
  else if bytes_eqb s (text "mining.submit") then mining_submit
  else if bytes_eqb s (text "mining.authorize") then mining_authorize
  else if bytes_eqb s (text "mining.configure") then mining_configure
  else if bytes_eqb s (text "mining.subscribe") then mining_subscribe
  else if bytes_eqb s (text "mining.set_difficulty") then mining_set_difficulty
  else if bytes_eqb s (text "mining.set_extranonce") then mining_set_extranonce
  else if bytes_eqb s (text "mining.set_version_mask") then mining_set_version_mask
  else if bytes_eqb s (text "client.get_version") then client_get_version
  else if bytes_eqb s (text "client.show_message") then client_show_message
  else unset.
Definition is_unset (m : method) : bool := match m with unset => true | _ => false end.

(* ---------------------------------------------------------------- messages *)
Definition k_id := text "id".
Definition k_method := text "method".
Definition k_params := text "params".
Definition k_result := text "result".
Definition k_error := text "error".

(* message_id.hpp 32-38 *)
Definition id_valid (j : json) : bool := is_unsigned j || is_string j.
(* stratum.cpp 8-13, 52-57; message_id {} is JSON null *)
Definition msg_id (j : json) : json := match j_get k_id j with Some q => if id_valid q then q else JNull | None => JNull end.
(* stratum.cpp 15-20, 29-34 *)
Definition msg_method (j : json) : method := match j_get k_method j with Some (JString s) => method_from_string s | _ => unset end.
(* stratum.cpp 22-27, 36-41 *)
Definition msg_params (j : json) : list json := match j_get k_params j with Some (JArray l) => l | _ => [] end.
Definition has_params (j : json) : bool := match j_get k_params j with Some (JArray _) => true | _ => false end.

(* stratum.hpp 121-125 *)
Definition request (id : json) (m : method) (p : list json) : json :=
  j_set k_params (JArray p) (j_set k_method (JString (method_to_string m)) (j_set k_id id (JObject []))).
(* stratum.hpp 127-130 *)
Definition request_valid (j : json) : bool :=
  negb (is_unset (msg_method j)) && has_params j && match j_get k_id j with Some q => id_valid q | None => false end.

(* stratum.hpp 150-151: the initializer list has {"method"}, an array of one element *)
Definition notification (m : method) (p : list json) : json :=
  init_list [JArray [JString k_id; JNull]; JArray [JString k_method]; JArray [JString k_params; JArray p]].
(* stratum.hpp 153-156 *)
Definition notification_valid (j : json) : bool :=
  negb (is_unset (msg_method j)) && has_params j && match j_get k_id j with Some q => is_null q | None => false end.

(* error.hpp 52-71, error.cpp 39-43: the code is an enumeration over uint32, and whatever number fits is one *)
Record error := mkerror { er_code : N; er_message : bytes }.
Definition error_json (e : error) : json := init_list [JUint (er_code e); JString (er_message e)].
Definition error_valid (j : json) : bool := match j with JArray [JUint _; JString _] => true | _ => false end.
Definition error_read (j : json) : error := match j with JArray [JUint c; JString m] => mkerror (c mod 2 ^ 32) m | _ => mkerror 0 [] end.
(* error.cpp 8-37 *)
Definition error_message (c : N) : bytes :=
  if c =? 0 then text "rejected"
  else if c =? 21 then text "job not found or stale"
  else if c =? 22 then text "duplicate share"
  else if c =? 23 then text "low difficulty"
  else if c =? 24 then text "unauthorized"
  else if c =? 25 then text "not subscribed"
  else if c =? 26 then text "illegal method"
  else if c =? 27 then text "illegal params"
  else if c =? 28 then text "ip banned"
  else if c =? 29 then text "invalid username"
  else if c =? 30 then text "internal error"
  else if c =? 31 then text "time too old"
  else if c =? 32 then text "time too new"
  else if c =? 33 then text "illegal version mask"
  else if c =? 34 then text "invalid solution"
  else if c =? 35 then text "wrong nonce prefix"
  else if c =? 36 then text "job not found"
  else if c =? 37 then text "stale share"
  else if c =? 2147483647 then text "unknown"
  else [].
Definition error_of (c : N) : error := mkerror c (error_message c).

(* stratum.hpp 170-184 *)
Definition response (id result : json) : json :=
  j_set k_error JNull (j_set k_result result (j_set k_id id (JObject []))).
Definition response_error (id result : json) (e : error) : json :=
  j_set k_error (error_json e) (j_set k_result result (j_set k_id id (JObject []))).
(* stratum.cpp 43-47 *)
Definition response_valid (j : json) : bool :=
  match j_get k_id j, j_get k_result j, j_get k_error j with
  | Some i, Some _, Some e => id_valid i && (is_null e || error_valid e)
  | _, _, _ => false
  end.
(* stratum.cpp 59-62 *)
Definition msg_result (j : json) : json := match j_get k_result j with Some r => r | None => JNull end.
(* stratum.cpp 64-69 *)
Definition msg_error (j : json) : option error :=
  if negb (response_valid j) then None
  else match j_get k_error j with Some e => if is_null e then None else Some (error_read e) | None => None end.
Definition is_error (j : json) : bool := match msg_error j with Some _ => true | None => false end.

(* boolean_response.hpp 13-28 *)
Definition boolean_response (id : json) (r : bool) : json := response id (JBool r).
Definition boolean_error (id : json) (e : error) : json := response_error id (JBool false) e.
Definition boolean_valid (j : json) : bool := response_valid j && (is_boolean (msg_result j) || is_error j).
Definition boolean_result (j : json) : res bool :=
  if boolean_valid j && negb (is_error j) then as_bool (msg_result j) else Ret false.

(* ---------------------------------------------------------------- fields *)
(* session_id.hpp: a uint32_big; hex::fixed<4> is a string, valid when it is eight hexadecimal digits *)
Definition session_text (v : N) : bytes := hex_write (be 4 v).
Definition session_json (v : N) : json := JString (session_text v).
(* session_id.hpp 52-55: the bytes are copied over the four bytes of the number; more than four run past
   its end, and text that is not hexadecimal leaves zero *)
Definition session_of_text (s : bytes) : option N :=
  match hex_read s with
  | None => Some 0
  | Some b => if (4 <? length b)%nat then None else Some (be_val (b ++ repeat x00 (4 - length b)))
  end.
Definition fixed4_valid (s : bytes) : bool :=
  (length s =? 8)%nat && match hex_read s with Some _ => true | None => false end.
(* session_id.hpp 34-41 *)
Definition session_read (j : json) : option N :=
  match j with JString s => if fixed4_valid s then session_of_text s else None | _ => None end.

(* mining.hpp 30-53 *)
Record extranonce := mkextra { en_1 : N; en_2_size : N }.
Definition extra_none : extranonce := mkextra 0 0.
Definition extra_valid (x : extranonce) : bool := 0 <? en_2_size x.

(* mining.cpp 16-20: each group of four bytes has its first three reversed *)
Definition reverse3 (g : bytes) : bytes := rev (firstn 3 g) ++ skipn 3 g.
Fixpoint groups4 (k : nat) (b : bytes) : list bytes :=
  match k with O => [] | S k' => firstn 4 b :: groups4 k' (skipn 4 b) end.
Definition digest_text (d : bytes) : bytes := hex_write (concat (map reverse3 (groups4 8 d))).
(* mining.cpp 22-30 *)
Definition digest_read (j : json) : option bytes :=
  match j with
  | JString s => if (length s =? 64)%nat then match hex_read s with Some b => Some (concat (map (@rev byte) (groups4 8 b))) | None => None end else None
  | _ => None
  end.
(* mining.cpp 32-43 *)
Definition bytes_text (b : bytes) : bytes := hex_write b.
Definition bytes_read (j : json) : option bytes := match j with JString s => hex_read s | _ => None end.
(* mining.cpp 45-54: the digests are taken from [n], which is empty; [None]: the first element of an empty
   stack is taken *)
Definition path_write (ds : digests) : option (list json) := match ds with [] => Some [] | _ => None end.
(* mining.cpp 56-65: >>= puts a digest in front *)
Fixpoint path_read_all (l : list json) (acc : digests) : option digests :=
  match l with
  | [] => Some acc
  | j :: r => match digest_read j with Some d => path_read_all r (Some d :: acc) | None => None end
  end.
Definition path_read (j : json) : option digests := match j with JArray l => path_read_all l [] | _ => None end.

Section Order.
Variable mem : bool.
(* mining.cpp 67-69, extensions.hpp 131-133: an int32_little *)
Definition int_text (z : Z) : bytes := hex_write (if mem then sle 4 z else rev (sle 4 z)).
(* mining.cpp 71-80: read as an int32_big *)
Definition int_read (j : json) : option Z :=
  match j with
  | JString s => if (length s =? 8)%nat then match hex_read s with Some b => Some (sle_val (rev b)) | None => None end else None
  | _ => None
  end.
(* mining.cpp 82-112: the target and the time, as uint32_big *)
Definition u32_text (v : N) : bytes := hex_write (be 4 v).
Definition u32_read (j : json) : option N :=
  match j with
  | JString s => if (length s =? 8)%nat then match hex_read s with Some b => Some (be_val b) | None => None end else None
  | _ => None
  end.
(* mining.cpp 130-139: the nonce; whether the text is hexadecimal is not asked *)
Definition nonce_read (j : json) : outcome unit N :=
  match j with
  | JString s => if (length s =? 8)%nat then match hex_read s with Some b => Ret (be_val b) | None => Undef end else Throw tt
  | _ => Throw tt
  end.

(* ---------------------------------------------------------------- mining.notify *)
(* mining_notify.hpp 19-51 *)
Record notify := mknotify { nt_job : bytes; nt_digest : bytes; nt_tx1 : bytes; nt_tx2 : bytes; nt_path : digests;
                            nt_version : Z; nt_target : N; nt_now : N; nt_clean : bool }.
Definition notify_none : notify := mknotify [] zero_digest [] [] [] 0 0 0 false.
(* mining_notify.hpp 44-46 *)
Definition notify_params_valid (p : notify) : bool :=
  digest_valid (nt_digest p) && digests_valid (nt_path p) && compact_valid (nt_target p) && negb (nt_now p =? 0).
(* mining.cpp 143-146 *)
Definition notify_write (p : notify) : option (list json) :=
  match path_write (nt_path p) with
  | None => None
  | Some ds => Some [JString (nt_job p); JString (digest_text (nt_digest p)); JString (bytes_text (nt_tx1 p)); JString (bytes_text (nt_tx2 p));
                     JArray ds; JString (int_text (nt_version p)); JString (u32_text (nt_target p)); JString (u32_text (nt_now p)); JBool (nt_clean p)]
  end.
(* mining.cpp 148-166 *)
Definition notify_read (n : list json) : notify :=
  match n with
  | [JString job; d; t1; t2; ds; v; t; now; JBool clean] =>
    match digest_read d, bytes_read t1, bytes_read t2, path_read ds, int_read v, u32_read t, u32_read now with
    | Some d, Some t1, Some t2, Some ds, Some v, Some t, Some now => mknotify job d t1 t2 ds v t now clean
    | _, _, _, _, _, _, _ => notify_none
    end
  | _ => notify_none
  end.
(* mining_notify.hpp 70-72 *)
Definition notify_valid (j : json) : bool :=
  notification_valid j && match msg_method j with mining_notify => true | _ => false end && notify_params_valid (notify_read (msg_params j)).

(* ---------------------------------------------------------------- mining.submit *)
(* mining.hpp 68-79 *)
Record sshare := mksshare { ss_name : bytes; ss_job : bytes; ss_share : share }.
Definition sshare_none : sshare := mksshare [] [] empty_share.
Definition sshare_valid (s : sshare) : bool := match ss_name s with [] => false | _ => true end.
(* mining.cpp 168-174 *)
Definition submit_write (s : sshare) : list json :=
  let x := ss_share s in
  [JString (ss_name s); JString (ss_job s); JString (bytes_text (sh_extra2 x)); JString (u32_text (sh_timestamp x)); JString (u32_text (sh_nonce x))] ++
  match sh_bits x with Some b => [JString (int_text b)] | None => [] end.
(* mining.cpp 176-194.  [Throw] of nonce_read stands for "not read" here: nothing is thrown *)
Definition submit_read (n : list json) : outcome unit sshare :=
  let body (name job e t k : json) (bits : option json) :=
    match name, job, bytes_read e, u32_read t with
    | JString name, JString job, Some e, Some t =>
      match nonce_read k with
      | Undef => Undef
      | Throw _ => Ret sshare_none
      | Ret k =>
        match bits with
        | None => Ret (mksshare name job {| sh_timestamp := t; sh_nonce := k; sh_extra2 := e; sh_bits := None |})
        | Some b => match int_read b with
                    | Some z => Ret (mksshare name job {| sh_timestamp := t; sh_nonce := k; sh_extra2 := e; sh_bits := Some z |})
                    | None => Ret sshare_none
                    end
        end
      end
    | _, _, _, _ => Ret sshare_none
    end in
  match n with
  | [name; job; e; t; k] => body name job e t k None
  | [name; job; e; t; k; b] => body name job e t k (Some b)
  | _ => Ret sshare_none
  end.
(* mining_submit.hpp 33-39 *)
Definition submit_request (id : json) (s : sshare) : json := request id mining_submit (submit_write s).
Definition submit_valid (j : json) : outcome unit bool :=
  if request_valid j then bind (submit_read (msg_params j)) (fun s => Ret (sshare_valid s)) else Ret false.

(* ---------------------------------------------------------------- version masks *)
(* extensions.hpp 131-133, extensions.cpp 8-15: what was read is thrown away, and when nothing was read it
   is used *)
Definition mask_text (z : Z) : bytes := int_text z.
Definition mask_read (s : bytes) : outcome unit (option Z) :=
  if negb (length s =? 8)%nat then Ret None
  else match hex_read s with Some _ => Ret None | None => Undef end.
(* mining_set_version_mask.hpp 37-46 *)
Definition set_mask_write (z : Z) : list json := [JString (mask_text z)].
Definition set_mask_read (p : list json) : outcome unit (option Z) :=
  match p with [JString s] => mask_read s | _ => Ret None end.
End Order.

(* ---------------------------------------------------------------- mining.subscribe *)
(* mining_subscribe.hpp 12-25, mining_subscribe.cpp 8-20 *)
Record subscription := mksub { sb_method : method; sb_id : bytes }.
Definition sub_json (s : subscription) : json := JArray [JString (method_to_string (sb_method s)); JString (sb_id s)].
Definition sub_read (j : json) : res subscription :=
  match j with
  | JArray [JString m; i] => bind (as_string i) (fun i => Ret (mksub (method_from_string m) i))
  | _ => Ret (mksub unset [])
  end.
Definition sub_valid (s : subscription) : bool := negb (is_unset (sb_method s)).
(* mining_subscribe.hpp 134-136: the methods are only asked to be set *)
Definition sub_eqb (a b : subscription) : bool := sub_valid a && sub_valid b && bytes_eqb (sb_id a) (sb_id b).

(* mining_subscribe.hpp 33-52, mining_subscribe.cpp 22-45 *)
Record subscribe_params := mksubreq { sr_agent : bytes; sr_extra1 : option N }.
Definition subscribe_write (p : subscribe_params) : list json :=
  JString (sr_agent p) :: match sr_extra1 p with Some v => [JString (session_text v)] | None => [] end.
Definition subscribe_read (l : list json) : subscribe_params :=
  match l with
  | [JString a] => mksubreq a None
  | [JString a; s] => match session_read s with Some v => mksubreq a (Some v) | None => mksubreq [] None end
  | _ => mksubreq [] None
  end.

(* mining_subscribe.hpp 85-99, mining_subscribe.cpp 47-84 *)
Record subscribed := mksubd { sd_subs : list subscription; sd_extra : extranonce }.
Definition subscribed_none : subscribed := mksubd [] extra_none.
Definition subscribed_write (p : subscribed) : list json :=
  if extra_valid (sd_extra p) then [JArray (map sub_json (sd_subs p)); session_json (en_1 (sd_extra p)); JUint (en_2_size (sd_extra p))] else [].
(* the loop of mining_subscribe.cpp 73-77: [Ret None] when a subscription is not valid *)
Fixpoint subs_read (l : list json) : res (option (list subscription)) :=
  match l with
  | [] => Ret (Some [])
  | j :: r => bind (sub_read j) (fun s =>
      if sub_valid s then bind (subs_read r) (fun o => Ret (match o with Some t => Some (s :: t) | None => None end)) else Ret None)
  end.
Definition subscribed_read (l : list json) : res subscribed :=
  match l with
  | [JArray subs; i; JUint n] =>
    match session_read i with
    | None => Ret subscribed_none
    | Some v => bind (subs_read subs) (fun o => Ret (match o with Some t => mksubd t (mkextra v (n mod 2 ^ 32)) | None => subscribed_none end))
    end
  | _ => Ret subscribed_none
  end.

(* ---------------------------------------------------------------- mining.authorize *)
(* mining_authorize.hpp 18-31, mining_authorize.cpp 7-24 *)
Record authorize_params := mkauth { au_user : bytes; au_pass : option bytes }.
Definition authorize_write (p : authorize_params) : list json :=
  JString (au_user p) :: match au_pass p with Some x => [JString x] | None => [] end.
Definition authorize_read (l : list json) : res authorize_params :=
  match l with
  | [JString u] => Ret (mkauth u None)
  | [JString u; p] => bind (as_string p) (fun p => Ret (mkauth u (Some p)))
  | _ => Ret (mkauth [] None)
  end.
Definition authorize_valid (j : json) : bool :=
  match msg_params j with [JString _] => true | [JString _; JString _] => true | _ => false end.

(* ---------------------------------------------------------------- the other notifications *)
(* difficulty.hpp 37-39; [positive] says of an opaque floating point number that it is above zero *)
Definition difficulty_valid (positive : N -> bool) (j : json) : bool :=
  match j with JFloat f => positive f | JUint n => 0 <? n | _ => false end.
(* mining_set_difficulty.hpp 13-22; difficulty {} is JSON null *)
Definition set_difficulty_write (d : json) : list json := [d].
Definition set_difficulty_read (p : list json) : json := match p with [JUint n] => JUint n | _ => JNull end.
(* mining_set_extranonce.hpp 15-25 *)
Definition set_extranonce_write (x : extranonce) : list json := [JString (session_text (en_1 x)); JUint (en_2_size x)].
Definition set_extranonce_read (p : list json) : outcome unit (option extranonce) :=
  match p with
  | [JString s; JUint n] => match session_of_text s with Some v => Ret (Some (mkextra v n)) | None => Undef end
  | _ => Ret None
  end.
(* client_show_message.hpp 13-22 *)
Definition show_message_write (m : bytes) : list json := [JString m].
Definition show_message_read (p : list json) : bytes := match p with [JString m] => m | _ => [] end.
