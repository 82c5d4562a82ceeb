(* Stratum extensions and the message mining.configure.
   Source: include/gigamonkey/stratum/extensions.hpp, stratum/extensions.cpp,
   include/gigamonkey/stratum/mining_configure.hpp, stratum/mining_configure.cpp.
   data::map and std::map over strings are lists in the order of their keys, each key once.
   Not modelled: the printing operators; extension_from_string, which is declared and never defined. *)
From Coq Require Import String.
From Verif Require Import Base TextModel WireModel JsonModel StratumModel.
Local Open Scope N_scope.

Definition dict (A : Type) : Type := list (bytes * A).

(* ---------------------------------------------------------------- extensions.hpp 16-21, extensions.cpp 64-72 *)
Inductive extension := version_rolling | minimum_difficulty | subscribe_extranonce | ext_info.
Definition extension_to_string (x : extension) : bytes :=
  match x with
  | version_rolling => text "version_rolling"
  | minimum_difficulty => text "minimum_difficulty"
  | subscribe_extranonce => text "subscribe_extranonce"
  | ext_info => text "info"
  end.

(* ---------------------------------------------------------------- extensions.hpp 27-40, 161-186 *)
Inductive accepted := AccBool (b : bool) | AccError (s : bytes) | AccNone.
Definition acc_read (j : json) : accepted := match j with JBool b => AccBool b | JString s => AccError s | _ => AccNone end.
Definition acc_valid (a : accepted) : bool := match a with AccNone => false | _ => true end.
(* std::get<bool> throws when the variant holds something else *)
Definition acc_bool (a : accepted) : res bool := match a with AccBool b => Ret b | AccError _ => Ret false | AccNone => Throw tt end.
Definition acc_json (a : accepted) : res json := match a with AccBool b => Ret (JBool b) | AccError s => Ret (JString s) | AccNone => Throw tt end.

(* ---------------------------------------------------------------- extensions.hpp 42-101, 188-202, extensions.cpp 17-53 *)
Definition ext_request : Type := dict json.
(* configuration<version_rolling>; MinBitCount is a byte *)
Record rolling := mkrolling { vr_mask : Z; vr_bits : N }.
Definition rolling_write (mem : bool) (r : rolling) : ext_request :=
  [(text "mask", JString (mask_text mem (vr_mask r))); (text "min-bit-count", JUint (vr_bits r))].
Definition rolling_read (p : ext_request) : res (option rolling) :=
  match obj_find (text "mask") p, obj_find (text "min-bit-count") p with
  | Some m, Some (JUint k) =>
    bind (as_string m) (fun s => bind (mask_read s) (fun o => Ret (match o with Some z => Some (mkrolling z (k mod 256)) | None => None end)))
  | _, _ => Ret None
  end.
(* configured<version_rolling> *)
Definition rolled_write (mem : bool) (z : Z) : ext_request := [(text "mask", JString (mask_text mem z))].
Definition rolled_read (p : ext_request) : res (option Z) :=
  match obj_find (text "mask") p with
  | None => Ret None
  | Some m => bind (as_string m) mask_read
  end.
(* configuration<minimum_difficulty> *)
Definition minimum_write (d : json) : ext_request := [(text "value", d)].
Definition minimum_read (p : ext_request) : option json :=
  match obj_find (text "value") p with Some (JUint n) => Some (JUint n) | Some (JFloat f) => Some (JFloat f) | _ => None end.
(* configuration<info>: written under hw-id, read under sw-id *)
Record about := mkabout { ab_url : bytes; ab_hw : bytes; ab_sw : bytes; ab_id : bytes }.
Definition about_write (a : about) : ext_request :=
  [(text "connection-url", JString (ab_url a)); (text "hw-id", JString (ab_id a)); (text "hw-version", JString (ab_hw a)); (text "sw-version", JString (ab_sw a))].
Definition about_read (p : ext_request) : res (option about) :=
  match obj_find (text "connection-url") p, obj_find (text "hw-version") p, obj_find (text "sw-version") p, obj_find (text "sw-id") p with
  | Some a, Some b, Some c, Some d =>
    bind (as_string a) (fun a => bind (as_string b) (fun b => bind (as_string c) (fun c => bind (as_string d) (fun d => Ret (Some (mkabout a b c d))))))
  | _, _, _, _ => Ret None
  end.

(* ---------------------------------------------------------------- extensions.hpp 103-113, 204-215 *)
Definition requests : Type := dict ext_request.
(* for an extension that is not there yet *)
Definition requests_insert (x : extension) (q : ext_request) (r : requests) : requests := obj_set (extension_to_string x) q r.

(* ---------------------------------------------------------------- extensions.hpp 115-129, 217-223 *)
Record result := mkresult { rs_accepted : accepted; rs_params : ext_request }.
(* the constructor from parameters drops them *)
Definition result_of_params (p : ext_request) : result := mkresult (AccBool true) [].
Definition result_valid (r : result) : res bool :=
  match rs_accepted r with
  | AccNone => Ret false
  | a => bind (acc_bool a) (fun b => Ret (negb b || match rs_params r with [] => true | _ => false end))
  end.
Definition results : Type := dict result.

(* ---------------------------------------------------------------- names with dots *)
Definition dot : byte := x2e.
(* boost::split (z, s, is_any_of (".")): as many parts as dots, and one *)
Fixpoint split_dots (s : bytes) : list bytes :=
  match s with
  | [] => [[]]
  | c :: r => if byte_eqb c dot then [] :: split_dots r else match split_dots r with p :: t => (c :: p) :: t | [] => [[c]] end
  end.
Definition dotted (a b : bytes) : bytes := a ++ dot :: b.

(* ---------------------------------------------------------------- mining_configure.cpp 14-63 *)
Record configure := mkconfigure { cf_supported : list bytes; cf_params : dict json }.
Fixpoint all_strings (l : list json) : option (list bytes) :=
  match l with
  | [] => Some []
  | JString s :: r => match all_strings r with Some t => Some (s :: t) | None => None end
  | _ :: _ => None
  end.
Fixpoint distinct (l : list bytes) : bool :=
  match l with [] => true | s :: r => negb (existsb (bytes_eqb s) r) && distinct r end.
Definition configure_valid (p : list json) : bool :=
  match p with
  | [JArray l; JObject _] => match all_strings l with Some ss => distinct ss | None => false end
  | _ => false
  end.
Definition configure_write (c : configure) : list json := [JArray (map JString (cf_supported c)); JObject (cf_params c)].
Definition configure_read (p : list json) : configure :=
  match p with
  | [JArray l; JObject o] => match all_strings l with Some ss => if distinct ss then mkconfigure ss o else mkconfigure [] [] | None => mkconfigure [] [] end
  | _ => mkconfigure [] []
  end.
(* mining_configure.cpp 57-63: the name of the parameter is put in front of itself *)
Definition add_params (q : ext_request) (o : dict json) : dict json := fold_left (fun o e => obj_set (dotted (fst e) (fst e)) (snd e) o) q o.
Definition configure_of (r : requests) : configure :=
  mkconfigure (map fst r) (fold_left (fun o e => add_params (snd e) o) r []).
(* mining_configure.cpp 65-84; for distinct names *)
Fixpoint take_params (ps : dict json) (m : requests) : res requests :=
  match ps with
  | [] => Ret m
  | (k, v) :: r =>
    match split_dots k with
    | [n; key] => match obj_find n m with Some q => take_params r (obj_set n (obj_set key v q) m) | None => Throw tt end
    | _ => Throw tt
    end
  end.
Definition requests_of (c : configure) : res requests :=
  take_params (cf_params c) (fold_left (fun m s => obj_set s [] m) (cf_supported c) []).

(* ---------------------------------------------------------------- mining_configure.cpp 86-129 *)
Fixpoint answer_of_from (r : results) (o : dict json) : res (dict json) :=
  match r with
  | [] => Ret o
  | (n, x) :: t =>
    bind (acc_json (rs_accepted x)) (fun a => bind (acc_bool (rs_accepted x)) (fun b =>
      let o := obj_set n a o in
      answer_of_from t (if b then fold_left (fun o e => obj_set (dotted n (fst e)) (snd e) o) (rs_params x) o else o)))
  end.
Definition answer_of (r : results) : res (dict json) := answer_of_from r [].
(* the loop over the object; both maps *)
Fixpoint sort_answers (o : dict json) (acc : dict accepted) (ps : dict ext_request) : res (dict accepted * dict ext_request) :=
  match o with
  | [] => Ret (acc, ps)
  | (k, v) :: r =>
    match split_dots k with
    | [n] => sort_answers r (obj_set n (acc_read v) acc) ps
    | [n; key] => sort_answers r acc (obj_set n (obj_set key v (match obj_find n ps with Some q => q | None => [] end)) ps)
    | _ => Throw tt
    end
  end.
Definition results_of (o : dict json) : res results :=
  bind (sort_answers o [] []) (fun m =>
    if forallb (fun e => match obj_find (fst e) (fst m) with Some _ => true | None => false end) (snd m)
    then Ret (map (fun e => (fst e, mkresult (snd e) (match obj_find (fst e) (snd m) with Some q => q | None => [] end))) (fst m))
    else Throw tt).
(* mining_configure.hpp 73-77: JSON j {r} is an array whose only element is the object *)
Definition answers_valid (o : dict json) (q : requests) : bool :=
  let j := init_list [JObject o] in
  forallb (fun e => match j_get (fst e) j with Some v => is_boolean v | None => false end) q.

(* ---------------------------------------------------------------- extensions.cpp 55-64, extensions.hpp 143-155, 239-251 *)
(* masks are int32; whether bit i is set is read from the two's complement *)
Definition mask_make (x : Z) (r : rolling) : option Z :=
  let m := Z.land x (vr_mask r) in
  if N.of_nat (length (filter (fun i => Z.testbit m (Z.of_nat i)) (List.seq 0 32))) <? vr_bits r then None else Some m.
Record masks := mkmasks { mk_local : Z; mk_requested : rolling }.
Definition masks_none : masks := mkmasks 0 (mkrolling 0 0).
Definition masks_get (p : masks) : option Z := mask_make (mk_local p) (mk_requested p).
Definition masks_configure (r : rolling) (p : masks) : masks := mkmasks (mk_local p) r.
Definition masks_set (x : Z) (p : masks) : masks := mkmasks x (mk_requested p).
