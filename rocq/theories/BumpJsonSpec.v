(* What the JSON form of a BUMP says, without the functions that read and write it. *)
From Coq Require Import String.
From Verif Require Import Base WireModel MerkleModel TextModel TextSpec JsonModel TscModel TscSpec BumpModel BumpJsonModel.
Local Open Scope list_scope.
Local Open Scope N_scope.

Section BumpJson.
Variable odd : bytes -> option digest.
Variable fl : N -> option N.
Variable below : N -> bool.
Variable ins : forall A, (A -> N) -> A -> list A -> list A.

Definition number_says (v : json) (n : N) : Prop :=
  v = JUint n \/ (exists z, v = JInt z /\ n = Z.to_N (z mod 2 ^ 64)) \/ (exists f, v = JFloat f /\ fl f = Some n).
(* a member that is missing or false, or true *)
Definition says_no (k : bytes) (o : list (bytes * json)) : Prop := obj_find k o = None \/ obj_find k o = Some (JBool false).
Definition says_yes (k : bytes) (o : list (bytes * json)) : Prop := obj_find k o = Some (JBool true).

Definition node_says_json (j : json) (n : node) : Prop :=
  exists o v, j = JObject o /\ obj_find (text "offset") o = Some v /\ number_says v (n_offset n) /\
  ((says_yes (text "duplicate") o /\ n_flag n = flag_duplicate /\ n_digest n = None) \/
   (says_no (text "duplicate") o /\ exists s d, obj_find (text "hash") o = Some (JString s) /\ digest_says odd s d /\ n_digest n = Some d /\
    ((says_yes (text "txid") o /\ n_flag n = flag_client) \/ (says_no (text "txid") o /\ n_flag n = flag_intermediate)))).
(* a node without a hash that is not a duplicate, or an offset out of range *)
Definition node_bad (j : json) : Prop :=
  exists o v, j = JObject o /\ obj_find (text "offset") o = Some v /\
  ((exists f, v = JFloat f /\ fl f = None) \/ ((exists n, number_says v n) /\ says_no (text "duplicate") o /\ obj_find (text "hash") o = None)).

(* nodes, last to first, are put into the level *)
Definition level_says (j : json) (l : level) : Prop :=
  exists ns, Forall2 node_says_json (elements j) ns /\ l = fold_left (fun acc n => ins node n_offset n acc) (rev ns) [].
Definition bump_says (j : json) (b : bump) : Prop :=
  exists o p h, j = JObject o /\ obj_find (text "path") o = Some (JArray p) /\ p <> [] /\ Forall2 level_says p (bp_path b) /\
  obj_find (text "blockHeight") o = Some h /\ number_says h (bp_height b) /\
  (forall z, h = JInt z -> (0 <= z)%Z) /\ (forall f, h = JFloat f -> below f = false).

(* the nodes in the order in which they are read *)
Definition reading_order (p : list json) : list json := flat_map (fun k => rev (elements k)) p.
(* reading is undefined: the first node that is not read is bad, or all are read and the height is bad *)
Definition bump_bad (j : json) : Prop :=
  exists o p h, j = JObject o /\ obj_find (text "path") o = Some (JArray p) /\ p <> [] /\ obj_find (text "blockHeight") o = Some h /\
  height_ok below h = true /\
  ((exists l x r, reading_order p = l ++ x :: r /\ Forall (fun k => exists n, node_says_json k n) l /\ node_bad x) \/
   (Forall (fun k => exists n, node_says_json k n) (reading_order p) /\ exists f, h = JFloat f /\ fl f = None)).
End BumpJson.

(* flags other than the three are taken for intermediate nodes *)
Definition clean_flag (f : byte) : byte := if byte_eqb f flag_duplicate then f else if byte_eqb f flag_client then f else flag_intermediate.
Definition clean_node (n : node) : node := mknode (n_offset n) (clean_flag (n_flag n)) (n_digest n).
Definition clean (b : bump) : bump := mkbump (bp_height b) (map (map clean_node) (bp_path b)).
Definition known_flag (n : node) : Prop := n_flag n = flag_intermediate \/ n_flag n = flag_duplicate \/ n_flag n = flag_client.

(* the members of a node *)
Definition node_object (u2 : bool) (n : node) : json :=
  match n_digest n with
  | None => JObject [(text "duplicate", JBool true); (text "offset", JUint (n_offset n))]
  | Some d => JObject ([(text "hash", JString (digest_text u2 d)); (text "offset", JUint (n_offset n))] ++ (if is_client n then [(text "txid", JBool true)] else []))
  end.
