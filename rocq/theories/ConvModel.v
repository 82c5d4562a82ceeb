(* SPV proofs from and to BEEF.
   Source: pay/BEEF.cpp 60-221. *)
From Verif Require Import Base WireModel MerkleModel BumpModel WorkModel SighashModel BeefModel SpvModel AncModel.
Local Open Scope N_scope.

Section Conv.
Variable H : bytes -> bytes.     (* the double SHA-256 *)
Variable ins : forall A, (A -> N) -> A -> list A -> list A.   (* see BumpModel *)
Variable dup : option (path -> path -> path).                 (* see MerkleModel *)

(* ---------------------------------------------------------------- reading *)
Variable miss : option path.               (* operator [] of the external map on a key that is not there; None: it throws *)
Variable by_height : N -> option header.   (* database::header (height) *)

(* BEEF.cpp 140-145; None is undefined *)
Fixpoint merks_of (l : list bump) : option (list (N * path_map)) :=
  match l with
  | [] => Some []
  | b :: r => match bump_paths H ins dup b, merks_of r with
              | Some m, Some s => Some ((bp_height b, m) :: s)
              | _, _ => None
              end
  end.
(* BEEF.cpp 109-125, 150: Ret None is a null pointer; an index out of range is undefined *)
Definition read_leaf (merks : list (N * path_map)) (t : tx) (i : N) : outcome unit (option anode) :=
  match at_index merks i with
  | None => Undef
  | Some (n, m) =>
    match by_height n with
    | None => Ret None
    | Some h =>
      match get bytes_eqb m (tx_id H t), miss with
      | Some p, _ | None, Some p => Ret (Some (mkanode t (Confirmed (mkconf p n h))))
      | None, None => Throw tt
      end
    end
  end.

(* BEEF.cpp 127-136 *)
Record rstate := mkrs { r_nodes : amap; r_txids : list bytes; r_roots : list bytes }.
(* BEEF.cpp 197-207: the antecedents and the remaining roots.  Both values for one key are the same, so it
   does not matter which of them is kept.  None is a null pointer *)
Fixpoint node_inputs (nodes prev : amap) (roots : list bytes) (l : list input) : option (amap * list bytes) :=
  match l with
  | [] => Some (prev, roots)
  | i :: r =>
    let d := op_digest (in_ref i) in
    match get bytes_eqb nodes d with
    | None => None
    | Some v => node_inputs nodes (amap_insert true prev d v) (set_del d roots) r
    end
  end.
(* BEEF.cpp 147-158 and 191-214.  Ret None: the constructor returns early and leaves the empty proof *)
Fixpoint read_txs (merks : list (N * path_map)) (s : rstate) (l : list btx) : outcome unit (option rstate) :=
  match l with
  | [] => Ret (Some s)
  | t :: r =>
    let d := tx_id H (bt_tx t) in
    match bt_index t with
    | Some i =>
      match read_leaf merks (bt_tx t) i with
      | Ret (Some a) =>
        if digest_in d (map fst (r_nodes s)) then Throw tt
        else read_txs merks (mkrs ((d, Some a) :: r_nodes s) (r_txids s) (r_roots s)) r
      | Ret None => Ret None
      | Throw e => Throw e
      | Undef => Undef
      end
    | None =>
      match node_inputs (r_nodes s) [] (r_roots s) (tx_inputs (bt_tx t)) with
      | None => Ret None
      | Some (m, roots) =>
        if digest_in d (map fst (r_nodes s)) then Throw tt
        else read_txs merks (mkrs ((d, Some (mkanode (bt_tx t) (Antecedents m))) :: r_nodes s) (r_txids s ++ [d]) (set_add d roots)) r
      end
    end
  end.
(* BEEF.cpp 176-182 *)
Definition merge (m : amap) (l : amap) : amap := fold_left (fun a e => amap_insert true a (fst e) (snd e)) l m.
(* BEEF.cpp 160-187.  The payment is put together in reverse.  Ret None: returned early.  A key that is not there
   or a null pointer would be undefined *)
Fixpoint read_payment (s : rstate) (p : aproof) (l : list bytes) : outcome unit (option aproof) :=
  match l with
  | [] => Ret (Some (mkaproof (rev (ap_payment p)) (ap_map p)))
  | d :: r =>
    if digest_in d (r_roots s) then
      match get bytes_eqb (r_nodes s) d with
      | Some (Some (mkanode t (Antecedents m))) => read_payment s (mkaproof (t :: ap_payment p) (merge (ap_map p) m)) r
      | Some (Some (mkanode _ (Confirmed _))) => Ret None
      | _ => Undef
      end
    else read_payment s p r
  end.
(* BEEF.cpp 138-189, 219-221 *)
Definition read_proof (b : beef) : outcome unit aproof :=
  match merks_of (bf_bumps b) with
  | None => Undef
  | Some merks =>
    match read_txs merks (mkrs [] [] []) (bf_txs b) with
    | Ret (Some s) =>
      match read_payment s empty_proof (r_txids s) with
      | Ret (Some p) => Ret p
      | Ret None => Ret empty_proof
      | Throw e => Throw e
      | Undef => Undef
      end
    | Ret None => Ret empty_proof
    | Throw e => Throw e
    | Undef => Undef
    end
  end.

(* ---------------------------------------------------------------- writing *)
(* BEEF.cpp 69-73; the transactions are the list as it is before it is reversed *)
Record wstate := mkws { w_ids : list bytes; w_roots : list (bytes * N); w_bumps : list bump; w_txs : list btx }.
(* BEEF.cpp 80-93.  Fewer than 2^32 BUMPs are written, so that the index is not cut off.  None is undefined *)
Definition write_leaf (s : wstate) (d : bytes) (t : tx) (c : confirmation) : option wstate :=
  match get bytes_eqb (w_roots s) (h_merkle_root (c_header c)) with
  | Some i =>
    match nth_error (w_bumps s) (N.to_nat i) with
    | None => None
    | Some b =>
      match bump_plus ins b (bump_of_branch ins (bp_height b) (path_branch (d, c_path c))) with
      | None => None
      | Some b' => Some (mkws (w_ids s) (w_roots s) (update (N.to_nat i) (fun _ => b') (w_bumps s)) (mkbtx t (Some i) :: w_txs s))
      end
    end
  | None =>
    let i := N.of_nat (length (w_bumps s)) in
    Some (mkws (w_ids s) ((h_merkle_root (c_header c), i) :: w_roots s)
      (w_bumps s ++ [bump_of_branch ins (w64 (c_height c)) (path_branch (d, c_path c))]) (mkbtx t (Some i) :: w_txs s))
  end.
(* BEEF.cpp 76-99, in the order of iteration.  None: undefined, or a null pointer *)
Fixpoint write_node (a : anode) (d : bytes) (s : wstate) {struct a} : option wstate :=
  if digest_in d (w_ids s) then Some s
  else
    let s1 := mkws (d :: w_ids s) (w_roots s) (w_bumps s) (w_txs s) in
    match a with
    | mkanode t p =>
      match p with
      | Confirmed c => write_leaf s1 d t c
      | Antecedents m =>
        match (fix go (l : list (bytes * option anode)) (s : wstate) : option wstate :=
          match l with
          | [] => Some s
          | (k, o) :: r => match o with
                           | None => None
                           | Some n => match write_node n k s with Some s' => go r s' | None => None end
                           end
          end) m s1 with
        | Some s2 => Some (mkws (w_ids s2) (w_roots s2) (w_bumps s2) (mkbtx t None :: w_txs s2))
        | None => None
        end
      end
    end.
Fixpoint write_nodes (l : amap) (s : wstate) : option wstate :=
  match l with
  | [] => Some s
  | (k, o) :: r => match o with
                   | None => None
                   | Some n => match write_node n k s with Some s' => write_nodes r s' | None => None end
                   end
  end.
(* BEEF.cpp 101-107, 217 *)
Definition write_proof (p : aproof) : option beef :=
  match write_nodes (ap_map p) (mkws [] [] [] []) with
  | None => None
  | Some s => Some (mkbeef beef_version_1 (w_bumps s) (rev (rev (map (fun t => mkbtx t None) (ap_payment p)) ++ w_txs s)))
  end.
End Conv.
