(* Merkle proofs in the standardised format of the TSC.
   Source: merkle/serialize.cpp, include/gigamonkey/merkle/serialize.hpp.
   The double SHA-256 is the parameter [H].  A digest is its 32 bytes in memory order; its text is the
   hexadecimal of the reversed bytes.  External and left as parameters: the case of the hexadecimal digits
   written ([u1] for encoding::hex::write, [u2] for write_reverse_hex) and what the constructor of digest256
   from a text makes of "0x" followed by something other than 64 hexadecimal digits ([odd], None when it
   throws).  encoding::hex::valid holds where encoding::hex::read succeeds.  Counts of nodes are taken to
   be below 2^31 (the counter of serialize.cpp 172 is an int).  Not modelled: static functions of a slice
   that read it and call the function of the same name (serialize.hpp 329-429). *)
From Coq Require Import String.
From Verif Require Import Base WireModel MerkleModel TextModel TextSpec JsonModel SpvModel.
Local Open Scope list_scope.
Local Open Scope N_scope.

(* serialize.hpp 175-187 *)
Record tsc := mktsc {
  ts_tx : option bytes; ts_id : option digest; ts_path : path;
  ts_hash : option digest; ts_root : option digest; ts_header : option header }.
(* serialize.hpp 126 *)
Definition tsc_none : tsc := mktsc None None (mkpath 0 []) None None None.

Definition some {A} (x : option A) : bool := match x with Some _ => true | None => false end.
Definition and_then {A B} (x : outcome unit A) (f : A -> outcome unit B) : outcome unit B :=
  match x with Ret a => f a | Throw e => Throw e | Undef => Undef end.

(* serialize.hpp 231-258, 354-364; the first two have no target and are not valid *)
Definition tsc_of_branch (b : branch) : tsc :=
  mktsc None (Some (l_digest (b_leaf b))) (mkpath (l_index (b_leaf b)) (b_digests b)) None None None.
Definition tsc_of_tx (t : tx) (p : path) : tsc := mktsc (Some (tx_write t)) None p None None None.
Definition tsc_of_proof (p : proof) : tsc :=
  mktsc None (Some (l_digest (b_leaf (pr_branch p)))) (mkpath (l_index (b_leaf (pr_branch p))) (b_digests (pr_branch p))) None (Some (pr_root p)) None.
Definition tsc_of_branch_header (b : branch) (h : header) : tsc :=
  mktsc None (Some (l_digest (b_leaf b))) (mkpath (l_index (b_leaf b)) (b_digests b)) None None (Some h).
Definition tsc_of_branch_hash (b : branch) (d : digest) : tsc :=
  mktsc None (Some (l_digest (b_leaf b))) (mkpath (l_index (b_leaf b)) (b_digests b)) (Some d) None None.
Definition tsc_of_tx_header (t : tx) (p : path) (h : header) : tsc := mktsc (Some (tx_write t)) None p None None (Some h).
(* serialize.hpp 50-55 *)
Inductive target_kind := KHash | KHeader | KRoot | KInvalid.
Definition kind_flags (k : target_kind) : N := match k with KHash => 0 | KHeader => 2 | KRoot => 4 | KInvalid => 6 end.
(* serialize.cpp 340-347 *)
Definition tsc_of_tx_digest (t : tx) (p : path) (d : digest) (k : target_kind) : tsc :=
  match k with
  | KHash => mktsc (Some (tx_write t)) None p (Some d) None None
  | KRoot => mktsc (Some (tx_write t)) None p None (Some d) None
  | _ => tsc_none
  end.

(* serialize.cpp 42-48 *)
Definition tsc_valid (p : tsc) : bool :=
  if (some (ts_tx p) && some (ts_id p)) || (negb (some (ts_tx p)) && negb (some (ts_id p))) then false
  else if some (ts_hash p) then negb (some (ts_header p)) && negb (some (ts_root p))
  else if some (ts_header p) then negb (some (ts_hash p)) && negb (some (ts_root p))
  else if some (ts_root p) then negb (some (ts_header p)) && negb (some (ts_hash p))
  else false.

(* serialize.cpp 331-336 *)
Definition target_type (p : tsc) : target_kind :=
  if some (ts_header p) then KHeader else if some (ts_hash p) then KHash else if some (ts_root p) then KRoot else KInvalid.
(* serialize.hpp 203-205, 218-220, 255-257, 280-282: no composite proofs, only branches *)
Definition tsc_flags (p : tsc) : N := kind_flags (target_type p) + (if some (ts_tx p) then 1 else 0).

(* ---------------------------------------------------------------- the binary form *)
(* serialize.cpp 152-164; an unknown type throws *)
Definition node_read : reader (option digest) :=
  do t <- rd_byte;
  if b2n t =? 1 then rd_ret None
  else if b2n t =? 0 then do d <- rd_bytes 32; rd_ret (Some d)
  else fun _ => None.
(* serialize.cpp 256-262 *)
Definition node_write (d : option digest) : bytes := match d with Some x => x00 :: x | None => [x01] end.

(* serialize.cpp 213-222: a transaction is read and not stored *)
Definition read_subject (flags : N) : reader (option digest) :=
  if N.testbit flags 0 then do t <- var_string_read; rd_ret None
  else do t <- rd_bytes 32; rd_ret (Some t).
(* serialize.hpp 239-241: flags & 6 *)
Definition flags_kind (flags : N) : target_kind :=
  match N.land flags 6 with 0 => KHash | 2 => KHeader | 4 => KRoot | _ => KInvalid end.
(* serialize.cpp 224-246: block hash, Merkle root and header; the invalid type gives the empty record *)
Definition read_target (k : target_kind) : reader (option digest * option digest * option header) :=
  match k with
  | KHash => do d <- rd_bytes 32; rd_ret (Some d, None, None)
  | KHeader => do h <- rd_bytes 80; rd_ret (None, None, Some (header_of_slice h))
  | KRoot => do d <- rd_bytes 32; rd_ret (None, Some d, None)
  | KInvalid => fun _ => None
  end.
Definition tsc_reader : reader tsc :=
  do f <- rd_byte;
  do i <- var_int_read;
  do s <- read_subject (b2n f);
  do t <- read_target (flags_kind (b2n f));
  do n <- var_seq_read node_read;
  rd_ret (mktsc None s (mkpath i n) (fst (fst t)) (snd (fst t)) (snd t)).
(* serialize.cpp 205-252: an exception gives the empty record; bytes left over are ignored *)
Definition read_binary (b : bytes) : tsc := match tsc_reader b with Some (p, _) => p | None => tsc_none end.

(* serialize.cpp 291-298 *)
Definition subject_size (p : tsc) : N :=
  match ts_tx p with Some t => var_int_size (len t) + len t | None => 32 end.
Definition nodes_size (l : digests) : N := fold_left (fun n d => n + (if some d then 33 else 1)) l 0.
Definition kind_size (k : target_kind) : N := match k with KHash | KRoot => 32 | KHeader => 80 | KInvalid => 0 end.
(* the size takes the index as it is *)
Definition binary_size (p : tsc) : N :=
  1 + var_int_size (p_index (ts_path p)) + var_int_size (N.of_nat (length (p_digests (ts_path p)))) +
  subject_size p + nodes_size (p_digests (ts_path p)) + kind_size (target_type p).
(* serialize.hpp 345-347: uint32 index () *)
Definition index32 (p : tsc) : N := p_index (ts_path p) mod 2 ^ 32.
(* serialize.cpp 283-323.  Nothing checks that the record is valid.  The branch of 286 takes txid (),
   which dereferences an absent transaction; the test of 318 is a constant, so that without a target an
   absent header is dereferenced.  None in buffer_write: past the end of the buffer *)
Definition write_binary (p : tsc) : outcome unit bytes :=
  match match ts_tx p, ts_id p with Some t, _ => Some (var_string_write t) | None, Some d => Some d | None, None => None end,
        match target_type p with
        | KHash => ts_hash p
        | KRoot => ts_root p
        | _ => option_map header_write (ts_header p)
        end with
  | Some s, Some t =>
    match buffer_write (binary_size p) ([n2b (tsc_flags p)] ++ var_int_write (index32 p) ++ s ++ t ++ var_seq_write node_write (p_digests (ts_path p))) with
    | Some b => Ret b
    | None => Undef
    end
  | _, _ => Undef
  end.

(* ---------------------------------------------------------------- the JSON form *)
Definition k_composite := text "composite".
Definition k_proof_type := text "proofType".
Definition k_index := text "index".
Definition k_tx_or_id := text "txOrId".
Definition k_target := text "target".
Definition k_target_type := text "targetType".
Definition k_nodes := text "nodes".
Definition s_branch := text "branch".
Definition s_hash := text "hash".
Definition s_header := text "header".
Definition s_root := text "merkleRoot".
Definition s_star := text "*".

Definition hex_valid (s : bytes) : bool := some (hex_read s).
Definition is_text (j : json) (s : bytes) : bool := match j with JString t => bytes_eqb t s | _ => false end.

(* serialize.cpp 72-78 *)
Definition node_ok (j : json) : bool :=
  match j with JString s => bytes_eqb s s_star || (hex_valid s && (length s =? 64)%nat) | _ => false end.
(* serialize.cpp 50-81 *)
Definition json_ok (j : json) : bool :=
  is_object j &&
  match j_get k_composite j with None => true | Some (JBool b) => negb b | Some _ => false end &&
  match j_get k_proof_type j with None => true | Some v => is_text v s_branch end &&
  match j_get k_index j with Some v => is_unsigned v | None => false end &&
  match j_get k_tx_or_id j with Some (JString s) => (64 <=? length s)%nat && hex_valid s | _ => false end &&
  match j_get k_target_type j with
  | Some v => is_text v s_hash || is_text v s_header || is_text v s_root
  | None => match j_get k_target j with Some (JString s) => hex_valid s | _ => false end
  end &&
  match j_get k_nodes j with Some (JArray l) => forallb node_ok l | _ => false end.

Section Tsc.
Variable H : bytes -> bytes.
Variable u1 u2 : bool.
Variable odd : bytes -> option digest.

(* encoding::hex::write; hash.hpp write_reverse_hex; serialize.cpp 9-11, 19-21 *)
Definition hex_of (b : bytes) : bytes := if u1 then hex_write_upper b else hex_write b.
Definition digest_text (d : digest) : bytes := if u2 then hex_write_upper (rev d) else hex_write (rev d).
(* serialize.cpp 5-7 *)
Definition read_digest (s : bytes) : outcome unit digest :=
  match (if (length s =? 64)%nat then hex_read s else None) with
  | Some b => Ret (rev b)
  | None => match odd s with Some d => Ret d | None => Throw tt end
  end.
(* serialize.cpp 13-17 *)
Definition read_header (s : bytes) : header :=
  match hex_read s with
  | Some b => if (length b =? 80)%nat then header_of_slice b else header_default
  | None => header_default
  end.
(* the conversion of a JSON value to a text, which throws; j[key] on a constant object without the key is
   undefined, on another value it throws *)
Definition as_text (j : json) : outcome unit bytes := match j with JString s => Ret s | _ => Throw tt end.
Definition at_key (k : bytes) (j : json) : outcome unit json :=
  match j with JObject o => match obj_find k o with Some v => Ret v | None => Undef end | _ => Throw tt end.

(* serialize.cpp 23-29 *)
Definition read_node (j : json) : outcome unit (option digest) :=
  if is_text j s_star then Ret None else and_then (and_then (as_text j) read_digest) (fun d => Ret (Some d)).
Fixpoint read_nodes (l : list json) : outcome unit digests :=
  match l with
  | [] => Ret []
  | j :: r => and_then (read_node j) (fun d => and_then (read_nodes r) (fun ds => Ret (d :: ds)))
  end.
(* serialize.cpp 31-40 *)
Definition write_node (d : option digest) : json := JString (match d with Some x => digest_text x | None => s_star end).

Definition target_text (j : json) : outcome unit bytes := and_then (at_key k_target j) as_text.
Definition target_digest (j : json) : outcome unit digest := and_then (target_text j) read_digest.
Definition target_header (j : json) : outcome unit header := and_then (target_text j) (fun s => Ret (read_header s)).

(* serialize.cpp 121-149 *)
Definition read_json (j : json) : outcome unit tsc :=
  if negb (json_ok j) then Ret tsc_none
  else
    and_then (and_then (at_key k_tx_or_id j) as_text) (fun s =>
    and_then (if (length s =? 64)%nat then and_then (read_digest s) (fun d => Ret (None, Some d))
              else match hex_read s with Some b => Ret (Some b, None) | None => Undef end) (fun x =>
    and_then (at_key k_index j) (fun i =>
    and_then (at_key k_nodes j) (fun n =>
    match i, n with
    | JUint i, JArray l =>
      and_then (read_nodes l) (fun ds =>
      let p := fun h r b => mktsc (fst x) (snd x) (mkpath i ds) h r b in
      match j_get k_target_type j with
      | None => and_then (target_digest j) (fun d => Ret (p (Some d) None None))
      | Some v =>
        if is_text v s_hash then and_then (target_digest j) (fun d => Ret (p (Some d) None None))
        else if is_text v s_header then and_then (target_header j) (fun h => Ret (p None None (Some h)))
        else if is_text v s_root then and_then (target_digest j) (fun d => Ret (p None (Some d) None))
        else Ret tsc_none
      end)
    | _, _ => Throw tt
    end)))).

(* serialize.cpp 83-110 *)
Definition write_json (p : tsc) : json :=
  if negb (tsc_valid p) then JNull
  else
    let j := j_set k_nodes (JArray (map write_node (p_digests (ts_path p)))) (j_set k_index (JUint (p_index (ts_path p))) (JObject [])) in
    let j := match ts_id p, ts_tx p with
             | Some d, _ => j_set k_tx_or_id (JString (digest_text d)) j
             | None, Some t => j_set k_tx_or_id (JString (hex_of t)) j
             | None, None => j
             end in
    match ts_hash p, ts_header p, ts_root p with
    | Some d, _, _ => j_set k_target (JString (digest_text d)) j
    | None, Some h, _ => j_set k_target (JString (hex_of (header_write h))) (j_set k_target_type (JString s_header) j)
    | None, None, Some d => j_set k_target (JString (digest_text d)) (j_set k_target_type (JString s_root) j)
    | None, None, None => JNull
    end.

(* ---------------------------------------------------------------- functions of the JSON form *)
(* nlohmann size (): a text counts as one element *)
Definition j_size (j : json) : N :=
  match j with JNull => 0 | JArray l => N.of_nat (length l) | JObject o => N.of_nat (length o) | _ => 1 end.
(* serialize.hpp 226-228 *)
Definition json_tx_included (j : json) : outcome unit bool := and_then (at_key k_tx_or_id j) (fun v => Ret (64 <? j_size v)).
(* serialize.cpp 112-119; {} is the zero digest; transaction::id of a slice is Hash256 *)
Definition json_txid (j : json) : outcome unit digest :=
  if negb (json_ok j) then Ret zero_digest
  else and_then (at_key k_tx_or_id j) (fun v => and_then (as_text v) (fun s =>
    if j_size v =? 64 then read_digest s
    else match hex_read s with Some b => Ret (H b) | None => Undef end)).
(* serialize.cpp 324-329 *)
Definition json_target_type (j : json) : target_kind :=
  match j_get k_target_type j with
  | None => KHash
  | Some v => if is_text v s_hash then KHash else if is_text v s_header then KHeader else KRoot
  end.
(* serialize.hpp 317-320 *)
Definition json_block_hash (j : json) : outcome unit (option digest) :=
  match j_get k_target_type j with
  | Some v => if is_text v s_hash then and_then (target_digest j) (fun d => Ret (Some d)) else Ret None
  | None => Ret None
  end.
(* serialize.cpp 358-361 *)
Definition json_block_header (j : json) : outcome unit (option header) :=
  match j_get k_target_type j with
  | Some v => if is_text v s_header then and_then (target_header j) (fun h => Ret (Some h)) else Ret None
  | None => Ret None
  end.
(* serialize.cpp 350-355; target_type is the header only where block_header is given *)
Definition json_root (j : json) : outcome unit (option digest) :=
  match json_target_type j with
  | KRoot => and_then (target_digest j) (fun d => Ret (Some d))
  | KHeader => and_then (json_block_header j) (fun h => match h with Some h => Ret (Some (h_merkle_root h)) | None => Undef end)
  | _ => Ret None
  end.

(* ---------------------------------------------------------------- what a proof says *)
(* serialize.hpp 354-357: None dereferences an absent transaction *)
Definition tsc_txid (p : tsc) : option digest :=
  match ts_id p, ts_tx p with Some d, _ => Some d | None, Some t => Some (H t) | None, None => None end.
(* serialize.hpp 273-275, branch::root *)
Definition tsc_root (p : tsc) : option digest := option_map (derive_root H (ts_path p)) (tsc_txid p).
(* serialize.hpp 311-315 *)
Definition tsc_merkle_root (p : tsc) : option digest :=
  match ts_root p, ts_header p with Some d, _ => Some d | None, Some h => Some (h_merkle_root h) | None, None => None end.
(* serialize.cpp 364-381 *)
Definition tsc_validate (m : db) (p : tsc) : bool :=
  if negb (tsc_valid p) then false
  else match (match ts_tx p, ts_id p with Some t, _ => Some (H t) | None, Some d => Some d | None, None => None end) with
  | None => false
  | Some id =>
    let root := derive_root H (ts_path p) id in
    match header_by m root with
    | None => false
    | Some (_, h) =>
      match ts_root p with Some r => bytes_eqb root r | None => true end &&
      match ts_hash p with Some d => bytes_eqb (header_hash H h) d | None => true end &&
      match ts_header p with Some b => header_eqb h b | None => true end &&
      bytes_eqb root (h_merkle_root h)
    end
  end.
End Tsc.
