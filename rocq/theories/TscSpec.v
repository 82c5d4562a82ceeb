(* What records, bytes and JSON values of the TSC proof format are meant to say, without the functions of
   TscModel. *)
From Coq Require Import String.
From Verif Require Import Base WireModel WireSpec MerkleModel MerkleSpec TextModel TextSpec JsonModel SpvModel TscModel.
Local Open Scope list_scope.
Local Open Scope N_scope.

(* exactly one of the transaction and its id; exactly one of the three targets *)
Definition identified (p : tsc) : Prop :=
  (exists t, ts_tx p = Some t /\ ts_id p = None) \/ (exists d, ts_tx p = None /\ ts_id p = Some d).
Definition targeted (p : tsc) : Prop :=
  (exists d, ts_hash p = Some d /\ ts_root p = None /\ ts_header p = None) \/
  (exists d, ts_hash p = None /\ ts_root p = Some d /\ ts_header p = None) \/
  (exists h, ts_hash p = None /\ ts_root p = None /\ ts_header p = Some h).

Definition opt_wf {A} (P : A -> Prop) (x : option A) : Prop := match x with Some a => P a | None => True end.
(* fields of the sizes their types have *)
Definition tsc_wf (p : tsc) : Prop :=
  opt_wf (fun t => len t < 2 ^ 64) (ts_tx p) /\ opt_wf (fun d => length d = 32%nat) (ts_id p) /\
  opt_wf (fun d => length d = 32%nat) (ts_hash p) /\ opt_wf (fun d => length d = 32%nat) (ts_root p) /\ opt_wf header_wf (ts_header p) /\
  p_index (ts_path p) < 2 ^ 64 /\ N.of_nat (length (p_digests (ts_path p))) < 2 ^ 64 /\
  Forall (opt_wf (fun d => length d = 32%nat)) (p_digests (ts_path p)).

(* ---------------------------------------------------------------- bytes *)
Inductive node_form : option digest -> bytes -> Prop :=
| nf_missing : node_form None [x01]
| nf_digest d : length d = 32%nat -> node_form (Some d) (x00 :: d).
(* the lowest bit of the flags: a transaction, which is not kept, or an id *)
Inductive subject_form (f : N) : option digest -> bytes -> Prop :=
| sf_tx t c : N.odd f = true -> string_form t c -> subject_form f None c
| sf_id d : N.odd f = false -> length d = 32%nat -> subject_form f (Some d) d.
(* bits 1 and 2 of the flags *)
Inductive target_form (f : N) : option digest -> option digest -> option header -> bytes -> Prop :=
| tf_hash d : N.testbit f 1 = false -> N.testbit f 2 = false -> length d = 32%nat -> target_form f (Some d) None None d
| tf_header h c : N.testbit f 1 = true -> N.testbit f 2 = false -> header_form h c -> target_form f None None (Some h) c
| tf_root d : N.testbit f 1 = false -> N.testbit f 2 = true -> length d = 32%nat -> target_form f None (Some d) None d.
Inductive tsc_form : tsc -> bytes -> Prop :=
| form f i s h r b ds ci cs ct cn : count_form i ci -> subject_form (b2n f) s cs -> target_form (b2n f) h r b ct -> seq_form node_form ds cn ->
    tsc_form (mktsc None s (mkpath i ds) h r b) (f :: ci ++ cs ++ ct ++ cn).

(* the bytes of each part *)
Definition subject_bytes (p : tsc) : bytes :=
  match ts_tx p with Some t => var_int_write (len t) ++ t | None => match ts_id p with Some d => d | None => [] end end.
Definition target_bytes (p : tsc) : bytes :=
  match ts_header p, ts_hash p, ts_root p with
  | Some h, _, _ => header_write h
  | None, Some d, _ => d
  | None, None, Some d => d
  | None, None, None => []
  end.
Definition nodes_bytes (l : digests) : bytes :=
  var_int_write (N.of_nat (length l)) ++ flat_map (fun d => match d with Some x => x00 :: x | None => [x01] end) l.
Definition flags_of (p : tsc) : N :=
  match ts_header p, ts_hash p with Some _, _ => 2 | None, Some _ => 0 | None, None => 4 end + match ts_tx p with Some _ => 1 | None => 0 end.
(* the bytes written *)
Definition layout (p : tsc) : bytes :=
  n2b (flags_of p) :: var_int_write (p_index (ts_path p) mod 2 ^ 32) ++ subject_bytes p ++ target_bytes p ++ nodes_bytes (p_digests (ts_path p)).
(* zeros left at the end of the buffer *)
Definition left_over (i : N) : nat := N.to_nat (var_int_size i - var_int_size (i mod 2 ^ 32)).

(* what comes back *)
Definition without_tx (p : tsc) : tsc := mktsc None (ts_id p) (ts_path p) (ts_hash p) (ts_root p) (ts_header p).
Definition with_index32 (p : tsc) : tsc :=
  mktsc (ts_tx p) (ts_id p) (mkpath (p_index (ts_path p) mod 2 ^ 32) (p_digests (ts_path p))) (ts_hash p) (ts_root p) (ts_header p).

(* ---------------------------------------------------------------- JSON *)
Section Json.
Variable odd : bytes -> option digest.

(* a text for a digest: 64 hexadecimal digits for its bytes in reverse, other texts as the library has it *)
Definition digest_says (s : bytes) (d : digest) : Prop :=
  (length s = 64%nat /\ hex_read s = Some (rev d)) \/
  ((length s <> 64%nat \/ hex_read s = None) /\ odd s = Some d).
Definition node_says (j : json) (d : option digest) : Prop :=
  match d with
  | None => j = JString (text "*")
  | Some x => exists s, j = JString s /\ length s = 64%nat /\ hex_read s = Some (rev x)
  end.
(* 64 hexadecimal digits are an id, more are a transaction *)
Definition subject_says (s : bytes) (t : option bytes) (d : option digest) : Prop :=
  (length s = 64%nat /\ t = None /\ exists x, d = Some x /\ hex_read s = Some (rev x)) \/
  ((64 < length s)%nat /\ d = None /\ exists x, t = Some x /\ hex_read s = Some x).
Definition header_says (s : bytes) (h : header) : Prop :=
  (exists b, hex_read s = Some b /\ header_form h b) \/ ((forall b, hex_read s = Some b -> length b <> 80%nat) /\ h = header_default).
Definition target_says (o : list (bytes * json)) (p : tsc) : Prop :=
  exists s, obj_find (text "target") o = Some (JString s) /\
  ((obj_find (text "targetType") o = None /\ hex_read s <> None /\ exists d, digest_says s d /\ ts_hash p = Some d /\ ts_root p = None /\ ts_header p = None) \/
   (obj_find (text "targetType") o = Some (JString (text "hash")) /\ exists d, digest_says s d /\ ts_hash p = Some d /\ ts_root p = None /\ ts_header p = None) \/
   (obj_find (text "targetType") o = Some (JString (text "merkleRoot")) /\ exists d, digest_says s d /\ ts_hash p = None /\ ts_root p = Some d /\ ts_header p = None) \/
   (obj_find (text "targetType") o = Some (JString (text "header")) /\ exists h, header_says s h /\ ts_hash p = None /\ ts_root p = None /\ ts_header p = Some h)).
(* the members whatever the target is *)
Definition body_ok (o : list (bytes * json)) : Prop :=
  (obj_find (text "composite") o = None \/ obj_find (text "composite") o = Some (JBool false)) /\
  (obj_find (text "proofType") o = None \/ obj_find (text "proofType") o = Some (JString (text "branch"))).
Definition json_says (j : json) (p : tsc) : Prop :=
  exists o, j = JObject o /\ body_ok o /\
  obj_find (text "index") o = Some (JUint (p_index (ts_path p))) /\
  (exists s, obj_find (text "txOrId") o = Some (JString s) /\ subject_says s (ts_tx p) (ts_id p)) /\
  (exists l, obj_find (text "nodes") o = Some (JArray l) /\ Forall2 node_says l (p_digests (ts_path p))) /\
  target_says o p.

(* what valid (JSON) asks for: with a target type nothing is asked of the target *)
Definition json_acceptable (j : json) : Prop :=
  exists o, j = JObject o /\ body_ok o /\
  (exists i, obj_find (text "index") o = Some (JUint i)) /\
  (exists s, obj_find (text "txOrId") o = Some (JString s) /\ (64 <= length s)%nat /\ hex_read s <> None) /\
  (exists l, obj_find (text "nodes") o = Some (JArray l) /\ Forall (fun n => exists d, node_says n d) l) /\
  ((exists t, obj_find (text "targetType") o = Some (JString t) /\ In t [text "hash"; text "header"; text "merkleRoot"]) \/
   (obj_find (text "targetType") o = None /\ exists s, obj_find (text "target") o = Some (JString s) /\ hex_read s <> None)).
End Json.

(* the JSON form of a record comes back, but for short transactions *)
Definition json_back (p : tsc) : tsc :=
  match ts_tx p with
  | Some t => if (length t <? 32)%nat then tsc_none
              else if (length t =? 32)%nat then mktsc None (Some (rev t)) (ts_path p) (ts_hash p) (ts_root p) (ts_header p)
              else p
  | None => p
  end.
