(* JSON values, as the library nlohmann::json holds them.
   Used by stratum/*.cpp and pay/envelope.cpp through data::JSON.  The text form (dump and parse) is
   external and is not modelled; floating point numbers are opaque. *)
From Verif Require Import Base.
Local Open Scope N_scope.

(* value_t: a number is held as signed, unsigned or floating; an object is a std::map, ordered by key *)
Inductive json :=
| JNull
| JBool (b : bool)
| JInt (z : Z)
| JUint (n : N)
| JFloat (f : N)
| JString (s : bytes)
| JArray (l : list json)
| JObject (o : list (bytes * json)).

(* std::string operator <: characters as unsigned bytes *)
Fixpoint text_lt (a b : bytes) : bool :=
  match a, b with
  | _, [] => false
  | [], _ :: _ => true
  | x :: a', y :: b' => (b2n x <? b2n y) || (byte_eqb x y && text_lt a' b')
  end.

(* std::map find *)
Fixpoint obj_find {A} (k : bytes) (o : list (bytes * A)) : option A :=
  match o with
  | [] => None
  | (k', v) :: r => if bytes_eqb k k' then Some v else obj_find k r
  end.
(* m[k] = v *)
Fixpoint obj_set {A} (k : bytes) (v : A) (o : list (bytes * A)) : list (bytes * A) :=
  match o with
  | [] => [(k, v)]
  | (k', v') :: r =>
    if bytes_eqb k k' then (k, v) :: r
    else if text_lt k k' then (k, v) :: (k', v') :: r
    else (k', v') :: obj_set k v r
  end.

(* contains (key): false unless the value is an object; j[key] after contains *)
Definition j_get (k : bytes) (j : json) : option json := match j with JObject o => obj_find k o | _ => None end.
Definition j_has (k : bytes) (j : json) : bool := match j_get k j with Some _ => true | None => false end.
(* j[key] = v on an object (other values throw) *)
Definition j_set (k : bytes) (v : json) (j : json) : json := match j with JObject o => JObject (obj_set k v o) | _ => j end.

Definition is_null (j : json) : bool := match j with JNull => true | _ => false end.
Definition is_boolean (j : json) : bool := match j with JBool _ => true | _ => false end.
Definition is_unsigned (j : json) : bool := match j with JUint _ => true | _ => false end.
Definition is_string (j : json) : bool := match j with JString _ => true | _ => false end.
Definition is_object (j : json) : bool := match j with JObject _ => true | _ => false end.

(* JSON {{..}, {..}, ..}: an initializer list is an object when every element is an array of two whose
   first element is a string, otherwise it is an array *)
Definition pair_of (j : json) : option (bytes * json) := match j with JArray [JString k; v] => Some (k, v) | _ => None end.
Fixpoint pairs_of (l : list json) : option (list (bytes * json)) :=
  match l with
  | [] => Some []
  | j :: r => match pair_of j, pairs_of r with Some p, Some q => Some (p :: q) | _, _ => None end
  end.
(* later elements with a key already present are dropped (std::map::emplace) *)
Definition obj_add {A} (o : list (bytes * A)) (p : bytes * A) : list (bytes * A) :=
  match obj_find (fst p) o with Some _ => o | None => obj_set (fst p) (snd p) o end.
Definition init_list (l : list json) : json :=
  match pairs_of l with Some q => JObject (fold_left obj_add q []) | None => JArray l end.
