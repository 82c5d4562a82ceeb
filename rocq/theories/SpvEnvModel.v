(* SPV envelopes (https://tsc.bsvblockchain.org/standards/transaction-ancestors/).
   Source: pay/SPV_envelope.cpp, include/gigamonkey/pay/SPV_envelope.hpp.
   The double SHA-256 is [H].  A map from ids is the list of its entries in the order of the ids as numbers, and the
   keys in it are ids in the order in which they are written, which is the reverse of the order in memory.  Insertion of a
   key that is there already keeps or replaces what is there ([keep]).  Nodes are pointers, which may be null (None).
   Parameters as in TscModel and MapiModel: [u1] [u2] [odd] [dump] [parse]; the conversion of an answer of the Merchant
   API to JSON, for which the compiler has two ways, is [answer]. *)
From Coq Require Import String.
From Verif Require Import Base WireModel MerkleModel TextModel JsonModel SpvModel AncModel TscModel MapiModel.
Local Open Scope list_scope.
Local Open Scope N_scope.

(* SPV_envelope.hpp 24-38 *)
Inductive enode := mkenode (en_raw : bytes) (en_mapi : list (response tx_status)) (en_proof : option tsc) (en_inputs : list (bytes * option enode)).
Definition emap : Type := list (bytes * option enode).
(* SPV_envelope.hpp 15-22, 40 *)
Record envel := mkspv { sv_txid : option digest; sv_raw : bytes; sv_mapi : list (response tx_status); sv_inputs : list (bytes * enode) }.
(* what the constructor leaves when it returns early *)
Definition envel_none : envel := mkspv None [] [] [].

(* map insert *)
Definition ins_id {A} (keep : bool) (m : list (bytes * A)) (e : bytes * A) : list (bytes * A) :=
  if keep then obj_add m e else obj_set (fst e) (snd e) m.

Definition has {A} (l : list A) : bool := match l with [] => false | _ => true end.

Section Envelopes.
Variable H : bytes -> bytes.

(* ---------------------------------------------------------------- validity *)
(* SPV_envelope.cpp 10 *)
Inductive middle := Unknown | Known (b : bool).
(* SPV_envelope.cpp 24-27: None is failure *)
Definition middle_step (b : bool) (s : middle) : option middle :=
  match s with Unknown => Some (Known b) | Known c => if Bool.eqb b c then Some s else None end.
(* valid () of an answer is that of its value *)
Definition answers_valid (l : list (response tx_status)) : bool := forallb (fun r => tx_status_valid (rs_value _ r)) l.
(* SPV_envelope.cpp 12-38: None is false; h is null in None *)
Fixpoint validate_node (h : option db) (k : bytes) (n : enode) (s : middle) {struct n} : option middle :=
  match n with
  | mkenode raw mapi proof ins =>
      if Bool.eqb (some proof) (has ins) then None
      else if negb (bytes_eqb (rev (H raw)) k) then None
      else match middle_step (has mapi) s with
           | None => None
           | Some s =>
               if negb (answers_valid mapi) then None
               else match proof with
                    | Some p => if match h with Some m => tsc_validate H m p | None => tsc_valid p end then Some s else None
                    | None =>
                        (fix go (l : list (bytes * option enode)) (s : middle) : option middle :=
                           match l with
                           | [] => Some s
                           | (k, Some c) :: r => match validate_node h k c s with Some s => go r s | None => None end
                           | (_, None) :: _ => None
                           end) ins s
                    end
           end
  end.
Fixpoint validate_nodes (h : option db) (l : list (bytes * enode)) (s : middle) : option middle :=
  match l with
  | [] => Some s
  | (k, n) :: r => match validate_node h k n s with Some s => validate_nodes h r s | None => None end
  end.
(* SPV_envelope.cpp 40-53: the database is not used *)
Definition validate_top (e : envel) (h : option db) : bool :=
  if match sv_txid e with Some d => negb (bytes_eqb (H (sv_raw e)) d) | None => false end then false
  else if negb (answers_valid (sv_mapi e)) then false
  else some (validate_nodes None (sv_inputs e) Unknown).
(* SPV_envelope.cpp 71-79 *)
Definition envel_valid (e : envel) : bool := validate_top e None.
Definition envel_validate (m : db) (e : envel) : bool := validate_top e (Some m).

(* ---------------------------------------------------------------- from SPV proofs *)
Section Convert.
Variable keep : bool.
(* SPV_envelope.cpp 55-68: None dereferences a null pointer *)
Fixpoint envel_of_node (d : digest) (a : anode) {struct a} : option enode :=
  match a with
  | mkanode t (Confirmed c) => Some (mkenode (tx_write t) [] (Some (tsc_of_branch_header (mkbranch (mkleaf d (p_index (c_path c))) (p_digests (c_path c))) (c_header c))) [])
  | mkanode t (Antecedents m) =>
      match (fix go (l : list (bytes * option anode)) (acc : emap) : option emap :=
               match l with
               | [] => Some acc
               | (k, Some n) :: r => match envel_of_node k n with Some e => go r (ins_id keep acc (rev k, Some e)) | None => None end
               | (_, None) :: _ => None
               end) m [] with
      | Some ins => Some (mkenode (tx_write t) [] None ins)
      | None => None
      end
  end.
Fixpoint envel_of_map (l : amap) (acc : list (bytes * enode)) : option (list (bytes * enode)) :=
  match l with
  | [] => Some acc
  | (k, Some n) :: r => match envel_of_node k n with Some e => envel_of_map r (ins_id keep acc (rev k, e)) | None => None end
  | (_, None) :: _ => None
  end.
(* SPV_envelope.cpp 81-87 *)
Definition envel_of_proof (p : aproof) : outcome unit envel :=
  match ap_payment p with
  | [t] => match envel_of_map (ap_map p) [] with Some ins => Ret (mkspv None (tx_write t) [] ins) | None => Undef end
  | _ => Throw tt
  end.

(* ---------------------------------------------------------------- to SPV proofs *)
(* SPV_envelope.cpp 245-253; serialize.hpp 311-315, 369-371.  None: an absent value or a null pointer is dereferenced.
   A header that is given is kept, whatever the database has *)
Definition read_confirmation (m : db) (p : tsc) : option confirmation :=
  match tsc_txid H p with
  | None => None
  | Some _ =>
      match ts_header p with
      | Some h => match header_by m (h_merkle_root h) with Some (n, _) => Some (mkconf (ts_path p) n h) | None => None end
      | None =>
          match match ts_root p with Some r => Some r | None => ts_hash p end with
          | Some d => match header_by m d with Some (n, h) => Some (mkconf (ts_path p) n h) | None => None end
          | None => None
          end
      end
  end.
(* SPV_envelope.cpp 255-271: a transaction that cannot be read is the default one *)
Fixpoint spv_of_node (m : db) (n : enode) {struct n} : option anode :=
  match n with
  | mkenode raw _ (Some p) _ => option_map (fun c => mkanode (tx_of_slice raw) (Confirmed c)) (read_confirmation m p)
  | mkenode raw _ None ins =>
      option_map (fun l => mkanode (tx_of_slice raw) (Antecedents l))
        ((fix go (l : list (bytes * option enode)) : option amap :=
            match l with
            | [] => Some []
            | (k, Some c) :: r =>
                match spv_of_node m c, go r with Some a, Some s => Some ((rev k, Some a) :: s) | _, _ => None end
            | (_, None) :: _ => None
            end) ins)
  end.
Fixpoint spv_of_map (m : db) (l : list (bytes * enode)) : option amap :=
  match l with
  | [] => Some []
  | (k, c) :: r => match spv_of_node m c, spv_of_map m r with Some a, Some s => Some ((rev k, Some a) :: s) | _, _ => None end
  end.
(* SPV_envelope.cpp 236-241 *)
Definition spv_of_envel (m : db) (e : envel) : option aproof :=
  option_map (mkaproof [tx_of_slice (sv_raw e)]) (spv_of_map m (sv_inputs e)).
End Convert.

(* ---------------------------------------------------------------- JSON *)
Definition k_raw_tx := text "rawTx".
Definition k_mapi_responses := text "mapiResponses".
Definition k_proof := text "proof".
Definition k_inputs := text "inputs".

Section Json.
Variable keep : bool.
Variable u1 u2 : bool.
Variable odd : bytes -> option digest.
Variable dump : json -> bytes.
Variable parse : bytes -> option json.
Variable answer : response tx_status -> json.

(* SPV_envelope.cpp 90-92; the key is in the order of writing *)
Definition key_text (k : bytes) : bytes := digest_text u2 (rev k).
Definition with_answers (l : list (response tx_status)) (o : list (bytes * json)) : list (bytes * json) :=
  match l with [] => o | _ => obj_set k_mapi_responses (JArray (map answer l)) o end.
(* SPV_envelope.cpp 101-122 *)
Fixpoint enode_write (n : enode) : outcome unit json :=
  match n with
  | mkenode raw mapi proof ins =>
      let o := with_answers mapi (obj_set k_raw_tx (JString (hex_of u1 raw)) []) in
      match proof with
      | Some p => and_then (write_binary p) (fun b => Ret (JObject (obj_set k_proof (JString (hex_of u1 b)) o)))
      | None =>
          and_then ((fix go (l : list (bytes * option enode)) (acc : list (bytes * json)) : outcome unit (list (bytes * json)) :=
                       match l with
                       | [] => Ret acc
                       | (k, Some c) :: r => and_then (enode_write c) (fun j => go r (obj_set (key_text k) j acc))
                       | (_, None) :: _ => Undef
                       end) ins [])
                   (fun i => Ret (JObject (obj_set k_inputs (JObject i) o)))
      end
  end.
Fixpoint enodes_write (l : list (bytes * enode)) (acc : list (bytes * json)) : outcome unit (list (bytes * json)) :=
  match l with
  | [] => Ret acc
  | (k, c) :: r => and_then (enode_write c) (fun j => enodes_write r (obj_set (key_text k) j acc))
  end.
(* SPV_envelope.cpp 175-193 *)
Definition envel_write (e : envel) : outcome unit json :=
  let o := match sv_txid e with Some d => obj_set k_txid (JString (digest_text u2 d)) [] | None => [] end in
  let o := with_answers (sv_mapi e) (obj_set k_raw_tx (JString (hex_of u1 (sv_raw e))) o) in
  and_then (enodes_write (sv_inputs e) []) (fun i => Ret (JObject (obj_set k_inputs (JObject i) o))).

(* SPV_envelope.cpp 94-99 *)
Definition txid_read (j : json) : outcome unit (option digest) :=
  match j with
  | JString s => and_then (read_digest odd s) (fun d => Ret (if digest_valid d then Some d else None))
  | _ => Ret None
  end.
(* SPV_envelope.cpp 129-133 *)
Fixpoint answers_read (acc : list (response tx_status)) (l : list json) : outcome unit (option (list (response tx_status))) :=
  match l with
  | [] => Ret (Some acc)
  | j :: r => and_then (response_read dump parse tx_status_none (tx_status_read odd) j) (fun x =>
                if tx_status_valid (rs_value _ x) then answers_read (acc ++ [x]) r else Ret None)
  end.
(* SPV_envelope.cpp 124-136 *)
Definition mapi_read (j : json) : outcome unit (option (list (response tx_status))) :=
  match j_get k_mapi_responses j with
  | None => Ret (Some [])
  | Some (JArray l) => answers_read [] l
  | Some _ => Ret None
  end.
(* SPV_envelope.cpp 163-169 and 210-217: each entry is read before its key; None is a null pointer *)
Fixpoint inputs_read {A} (wrap : enode -> A) (acc : list (bytes * A)) (l : list (bytes * outcome unit (option enode))) : outcome unit (option (list (bytes * A))) :=
  match l with
  | [] => Ret (Some acc)
  | (k, x) :: r =>
      and_then x (fun n =>
      match n with
      | None => Ret None
      | Some n => and_then (txid_read (JString k)) (fun d =>
          match d with
          | None => Ret None
          | Some d => inputs_read wrap (ins_id keep acc (rev d, wrap n)) r
          end)
      end)
  end.
(* SPV_envelope.cpp 138-172, the nodes in "inputs" are already read in [subs] *)
Definition enode_of (j : json) (subs : option (list (bytes * outcome unit (option enode)))) : outcome unit (option enode) :=
  match get_text k_raw_tx j with
  | None => Ret None
  | Some r =>
      if Bool.eqb (j_has k_proof j) (j_has k_inputs j) then Ret None
      else match hex_read r with
           | None => Ret None
           | Some raw =>
               and_then (mapi_read j) (fun mapi =>
               match mapi with
               | None => Ret None
               | Some mapi =>
                   match j_get k_proof j with
                   | Some (JString s) =>
                       match hex_read s with
                       | None => Ret None
                       | Some b => if tsc_valid (read_binary b) then Ret (Some (mkenode raw mapi (Some (read_binary b)) [])) else Ret None
                       end
                   | Some _ => Ret None
                   | None =>
                       match subs with
                       | None => Ret None
                       | Some l => and_then (inputs_read (@Some enode) [] l) (fun ins => Ret (option_map (mkenode raw mapi None) ins))
                       end
                   end
               end)
           end
  end.
Fixpoint enode_read (j : json) : outcome unit (option enode) :=
  enode_of j
    match j with
    | JObject o =>
        match obj_find k_inputs (map (fun e => match e with (k, v) =>
                (k, match v with JObject i => Some (map (fun e => match e with (k, w) => (k, enode_read w) end) i) | _ => None end) end) o) with
        | Some (Some l) => Some l
        | _ => None
        end
    | _ => None
    end.
(* SPV_envelope.cpp 195-229 *)
Definition envel_read (j : json) : outcome unit envel :=
  match j_get k_raw_tx j, j_get k_inputs j with
  | Some (JString r), Some (JObject i) =>
      match hex_read r with
      | None => Ret envel_none
      | Some raw =>
          and_then (mapi_read j) (fun mapi =>
          match mapi with
          | None => Ret envel_none
          | Some mapi =>
              and_then (inputs_read (fun n => n) [] (map (fun e => (fst e, enode_read (snd e))) i)) (fun ins =>
              match ins with
              | None => Ret envel_none
              | Some ins =>
                  match j_get k_txid j with
                  | None => Ret (mkspv None raw mapi ins)
                  | Some t => and_then (txid_read t) (fun d =>
                                match d with Some d => Ret (mkspv (Some d) raw mapi ins) | None => Ret envel_none end)
                  end
              end)
          end)
      end
  | _, _ => Ret envel_none
  end.
End Json.
End Envelopes.
