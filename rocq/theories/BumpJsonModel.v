(* The JSON form of BUMPs.
   Source: merkle/BUMP.cpp 83-139 and 184-206.
   External and left as parameters: the case of the digits written [u2] and digests from other texts [odd]
   as in TscModel; a floating point number as an unsigned one [fl] (None: out of range, undefined) and
   whether it is below zero [below]; the ordered sequence [ins] as in BumpModel. *)
From Coq Require Import String.
From Verif Require Import Base WireModel MerkleModel TextModel TextSpec JsonModel TscModel BumpModel.
Local Open Scope list_scope.
Local Open Scope N_scope.

Definition k_offset := text "offset".
Definition k_duplicate := text "duplicate".
Definition k_hash := text "hash".
Definition k_txid := text "txid".
Definition k_height := text "blockHeight".
Definition k_path := text "path".

Section BumpJson.
Variable u2 : bool.
Variable odd : bytes -> option digest.
Variable fl : N -> option N.
Variable below : N -> bool.
Variable ins : forall A, (A -> N) -> A -> list A -> list A.

(* ---------------------------------------------------------------- writing *)
(* 83-98 *)
Definition node_json (n : node) : outcome unit json :=
  if negb (node_valid n) then Throw tt
  else
    let j := j_set k_offset (JUint (n_offset n)) (JObject []) in
    if is_duplicate n then Ret (j_set k_duplicate (JBool true) j)
    else match n_digest n with
    | None => Undef
    | Some d =>
      let j := j_set k_hash (JString (digest_text u2 d)) j in
      Ret (if is_client n then j_set k_txid (JBool true) j else j)
    end.
(* loops that push results back *)
Fixpoint each {A B} (f : A -> outcome unit B) (l : list A) : outcome unit (list B) :=
  match l with
  | [] => Ret []
  | x :: r => and_then (f x) (fun y => and_then (each f r) (fun ys => Ret (y :: ys)))
  end.
(* 116-126 *)
Definition level_json (l : level) : outcome unit json := and_then (each node_json l) (fun js => Ret (JArray js)).
(* 184-193 *)
Definition bump_json (b : bump) : outcome unit json :=
  and_then (each level_json (bp_path b)) (fun ls => Ret (j_set k_path (JArray ls) (j_set k_height (JUint (bp_height b)) (JObject [])))).

(* ---------------------------------------------------------------- reading *)
(* nlohmann get<uint64> and get<bool> *)
Definition as_u64 (j : json) : outcome unit N :=
  match j with
  | JUint n => Ret n
  | JInt z => Ret (Z.to_N (z mod 2 ^ 64))
  | JFloat f => match fl f with Some n => Ret n | None => Undef end
  | _ => Throw tt
  end.
Definition as_bool (j : json) : outcome unit bool := match j with JBool b => Ret b | _ => Throw tt end.
(* contains (k) && bool (j[k]) *)
Definition set_in (k : bytes) (j : json) : outcome unit bool := match j_get k j with Some v => as_bool v | None => Ret false end.
(* 100-113; j["hash"] on a constant object without it is undefined *)
Definition node_of_json (j : json) : outcome unit node :=
  match j_get k_offset j with
  | None => Throw tt
  | Some v =>
    and_then (as_u64 v) (fun o =>
    and_then (set_in k_duplicate j) (fun d =>
    if d then Ret (dup_node o)
    else and_then (and_then (and_then (at_key k_hash j) as_text) (read_digest odd)) (fun h =>
    and_then (set_in k_txid j) (fun c =>
    Ret (mknode o (if c then flag_client else flag_intermediate) (Some h))))))
  end.
(* what rbegin .. rend of a JSON value goes through, forwards: the members of an object, nothing of null,
   and any other value itself *)
Definition elements (j : json) : list json :=
  match j with JArray l => l | JObject o => map snd o | JNull => [] | _ => [j] end.
(* 132-136 *)
Definition level_of_json (j : json) : outcome unit level := and_then (each node_of_json (rev (elements j))) (fun ns => Ret (insert_all ins ns)).
(* 128-139 *)
Definition path_of_json (j : json) : outcome unit (list level) :=
  match j with JArray (x :: r) => each level_of_json (x :: r) | _ => Throw tt end.
(* is_number () and not below zero *)
Definition height_ok (j : json) : bool :=
  match j with JUint _ => true | JInt z => (0 <=? z)%Z | JFloat f => negb (below f) | _ => false end.
(* 197-206 *)
Definition bump_of_json (j : json) : outcome unit bump :=
  match j_get k_path j, j_get k_height j with
  | Some p, Some h =>
    if height_ok h then and_then (path_of_json p) (fun q => and_then (as_u64 h) (fun n => Ret (mkbump n q)))
    else Throw tt
  | _, _ => Throw tt
  end.
End BumpJson.
