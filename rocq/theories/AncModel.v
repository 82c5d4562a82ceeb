(* SPV proofs: trees of transactions whose leaves are Merkle proofs.
   Source: SPV.cpp 111-270 and 355-380, include/gigamonkey/SPV.hpp 36-112, 242-255, 290-333. *)
From Verif Require Import Base WireModel MerkleModel WorkModel SighashModel BeefModel ExtModel SpvModel.
Local Open Scope N_scope.

(* ---------------------------------------------------------------- trees *)
(* SPV.hpp 46-81.  A node is a transaction with a confirmation or with a map from transaction ids to nodes.
   The nodes in a map are pointers, which may be null (None); sharing cannot be observed.
   A map is the list of its entries in the order of iteration *)
Inductive anode := mkanode (n_tx : tx) (n_proof : atree)
with atree := Confirmed (c : confirmation) | Antecedents (m : list (bytes * option anode)).
Definition amap : Type := list (bytes * option anode).
Definition n_tx (n : anode) : tx := match n with mkanode t _ => t end.
Definition n_proof (n : anode) : atree := match n with mkanode _ p => p end.
(* SPV.hpp 83-92 *)
Record aproof := mkaproof { ap_payment : list tx; ap_map : amap }.
Definition empty_proof : aproof := mkaproof [] [].

(* ---------------------------------------------------------------- validation *)
(* SPV.hpp 36: the limits of the external library, a time or an infinity *)
Inductive time_limit := NegInf | At (t : N) | PosInf.
Definition limit_gt (a b : time_limit) : bool :=
  match a, b with
  | PosInf, PosInf => false
  | PosInf, _ => true
  | At s, At t => t <? s
  | At _, NegInf => true
  | _, _ => false
  end.

Section Validate.
Variable H : bytes -> bytes.     (* the double SHA-256 *)
Variable ovf : Z -> Z.           (* what an overflow of satoshis yields, see ExtModel *)
(* Bitcoin::evaluate: the flag says whether the rules from before genesis are used; then come the unlocking script,
   the locking script, the incomplete transaction, the index of the input and the value of the previous output *)
Variable eval : bool -> bytes -> bytes -> itx -> N -> Z -> bool.
Variable known : bytes -> bool.  (* whether the database has a header for a digest *)
Variable unset : time_limit.     (* the value of a time limit that is not initialised *)
Variable upgrade : time_limit.   (* the parameter genesis_upgrade_time *)

(* timechain.hpp 261-265 *)
Definition tx_sent (t : tx) : Z := fold_left (fun x o => satoshi_add ovf x (out_value o)) (tx_outputs t) 0%Z.

(* the check of an antecedent, SPV.cpp 162-178: [chk] checks its proof when it is a map *)
Definition check_antecedent (d : bytes) (a : anode) (chk : list bytes -> run (option (list bytes))) (checked : list bytes)
  : run (option (list bytes * time_limit)) :=
  if digest_in d checked then Done (Some (checked, unset))
  else match n_proof a with
       | Confirmed c =>
         if known (h_merkle_root (c_header c)) && path_valid H (n_tx a) (c_path c) (c_header c)
         then Done (Some (checked, At (h_timestamp (c_header c)))) else Done None
       | Antecedents _ =>
         match chk checked with
         | Done (Some s) => Done (Some (set_add d s, PosInf))
         | Done None => Done None
         | Bad => Bad
         | More => More
         end
       end.

(* SPV.cpp 154-199: [m] has the checks of the antecedents.  None is failure *)
Fixpoint check_inputs (t : tx) (m : list (bytes * option (anode * (list bytes -> run (option (list bytes))))))
    (l : list input) (index : N) (spent : Z) (checked : list bytes) : run (option (list bytes)) :=
  match l with
  | [] => Done (if (tx_sent t <=? spent)%Z then Some checked else None)
  | i :: r =>
    let d := op_digest (in_ref i) in
    match get bytes_eqb m d with
    | None => Done None
    | Some None => Bad           (* a null pointer is dereferenced *)
    | Some (Some (a, chk)) =>
      match check_antecedent d a chk checked with
      | Bad => Bad
      | More => More
      | Done None => Done None
      | Done (Some (checked', time)) =>
        match at_index (tx_outputs (n_tx a)) (op_index (in_ref i)) with
        | None => Done None
        | Some o =>
          if eval (limit_gt upgrade time) (in_script i) (out_script o) (itx_of t) index (out_value o)
          then check_inputs t m r ((index + 1) mod 4294967296) (satoshi_add ovf spent (out_value o)) checked'
          else Done None
        end
      end
    end
  end.
(* SPV.cpp 141-203 *)
Fixpoint check_node (a : anode) (checked : list bytes) {struct a} : run (option (list bytes)) :=
  match a with
  | mkanode t p =>
    match p with
    | Confirmed _ => Done None   (* not called on confirmed nodes *)
    | Antecedents m =>
      check_inputs t (map (fun e => match e with
                                    | (k, o) => (k, match o with Some n => Some (n, check_node n) | None => None end)
                                    end) m)
        (tx_inputs t) 0 0%Z checked
    end
  end.
Definition check_sub_proof (checked : list bytes) (t : tx) (m : amap) : run (option (list bytes)) :=
  check_node (mkanode t (Antecedents m)) checked.

(* SPV.cpp 122-128 *)
Fixpoint all_unique (l : list tx) : bool :=
  match l with [] => true | t :: r => negb (existsb (tx_eqb t) r) && all_unique r end.
(* SPV.cpp 130-138 *)
Fixpoint check_payment (m : amap) (checked : list bytes) (l : list tx) : run bool :=
  match l with
  | [] => Done true
  | t :: r => match check_sub_proof checked t m with
              | Done (Some s) => check_payment m s r
              | Done None => Done false
              | Bad => Bad
              | More => More
              end
  end.
(* SPV.cpp 120-139, 205-208 *)
Definition validate (p : aproof) : run bool :=
  if all_unique (ap_payment p) then check_payment (ap_map p) [] (ap_payment p) else Done false.
End Validate.

(* ---------------------------------------------------------------- generation *)
(* insertion into a map of the library: what is there under the key is kept ([keep]) or replaced; without a
   function for duplicates the library may do either.  The place of a new entry is the end of the list: the
   order of iteration is not used below *)
Definition amap_insert (keep : bool) (m : amap) (k : bytes) (v : option anode) : amap :=
  match get bytes_eqb m k with
  | None => m ++ [(k, v)]
  | Some _ => if keep then m else map (fun e => if bytes_eqb k (fst e) then (k, v) else e) m
  end.

Section Generate.
Variable keep : bool.
Variable look : bytes -> dbtx.   (* database::transaction *)

(* SPV.cpp 224-228: Done None is a null pointer *)
Fixpoint generate_inputs (gen : bytes -> run (option anode)) (m : amap) (l : list input) : run (option amap) :=
  match l with
  | [] => Done (Some m)
  | i :: r =>
    match gen (op_digest (in_ref i)) with
    | Done (Some n) => generate_inputs gen (amap_insert keep m (op_digest (in_ref i)) (Some n)) r
    | Done None => Done None
    | Bad => Bad
    | More => More
    end
  end.
(* SPV.cpp 212-232 *)
Fixpoint generate_node (fuel : nat) (x : bytes) : run (option anode) :=
  match fuel with
  | O => More
  | S f =>
    let n := look x in
    match x_tx n with
    | None => Done None
    | Some t =>
      if dbtx_confirmed n then Done (Some (mkanode t (Confirmed (x_conf n))))
      else match generate_inputs (generate_node f) [] (tx_inputs t) with
           | Done (Some m) => Done (Some (mkanode t (Antecedents m)))
           | Done None => Done None
           | Bad => Bad
           | More => More
           end
    end
  end.
(* SPV.cpp 251-255 *)
Fixpoint generate_missing (fuel : nat) (m : amap) (l : list input) : run (option amap) :=
  match l with
  | [] => Done (Some m)
  | i :: r =>
    match get bytes_eqb m (op_digest (in_ref i)) with
    | Some _ => generate_missing fuel m r
    | None =>
      match generate_node fuel (op_digest (in_ref i)) with
      | Done (Some n) => generate_missing fuel (amap_insert keep m (op_digest (in_ref i)) (Some n)) r
      | Done None => Done None
      | Bad => Bad
      | More => More
      end
    end
  end.
(* SPV.cpp 237-259.  The payment is a stack: what comes last is on top *)
Fixpoint generate_from (H : bytes -> bytes) (fuel : nat) (p : aproof) (l : list tx) : run (option aproof) :=
  match l with
  | [] => Done (Some p)
  | t :: r =>
    if dbtx_confirmed (look (tx_id H t)) then Done None
    else match generate_missing fuel (ap_map p) (tx_inputs t) with
         | Done (Some m) => generate_from H fuel (mkaproof (t :: ap_payment p) m) r
         | Done None => Done None
         | Bad => Bad
         | More => More
         end
  end.
Definition generate_proof (H : bytes -> bytes) (fuel : nat) (payment : list tx) : run (option aproof) :=
  generate_from H fuel empty_proof payment.

(* SPV.cpp 261-270: >>= puts a new element at the front of a list, as in BEEF.cpp 86-107 and 171-186.
   Done None is the empty result; an output that does not exist is undefined behaviour *)
Fixpoint extend_inputs (acc : list xinput) (l : list input) : run (option (list xinput)) :=
  match l with
  | [] => Done (Some acc)
  | i :: r =>
    match x_tx (look (op_digest (in_ref i))) with
    | None => Done None
    | Some t => match at_index (tx_outputs t) (op_index (in_ref i)) with
                | None => Bad
                | Some o => extend_inputs ({| xi_input := i; xi_prevout := o |} :: acc) r
                end
    end
  end.
Definition extend (t : tx) : run (option xtx) :=
  match extend_inputs [] (tx_inputs t) with
  | Done (Some l) => Done (Some {| xt_version := tx_version t; xt_inputs := l; xt_outputs := tx_outputs t; xt_locktime := tx_locktime t |})
  | Done None => Done None
  | Bad => Bad
  | More => More
  end.
End Generate.

(* ---------------------------------------------------------------- extended transactions *)
(* SPV.hpp 242-255, 294-296.  None: a key that is not in the map (the external operator [] has nothing to return), a null
   pointer or an output that does not exist *)
Fixpoint extended_inputs (m : amap) (l : list input) : option (list xinput) :=
  match l with
  | [] => Some []
  | i :: r =>
    match get bytes_eqb m (op_digest (in_ref i)) with
    | Some (Some a) =>
      match at_index (tx_outputs (n_tx a)) (op_index (in_ref i)), extended_inputs m r with
      | Some o, Some s => Some ({| xi_input := i; xi_prevout := o |} :: s)
      | _, _ => None
      end
    | _ => None
    end
  end.
Definition extended_transaction (m : amap) (t : tx) : option xtx :=
  match extended_inputs m (tx_inputs t) with
  | Some l => Some {| xt_version := tx_version t; xt_inputs := l; xt_outputs := tx_outputs t; xt_locktime := tx_locktime t |}
  | None => None
  end.
Fixpoint extended_transactions (m : amap) (l : list tx) : option (list xtx) :=
  match l with
  | [] => Some []
  | t :: r => match extended_transaction m t, extended_transactions m r with
              | Some x, Some s => Some (x :: s)
              | _, _ => None
              end
  end.

(* ---------------------------------------------------------------- comparison *)
(* SPV.hpp 269-271 *)
Definition conf_eqb (a b : confirmation) : bool :=
  header_eqb (c_header a) (c_header b) && (c_height b =? c_height a) && (p_index (c_path a) =? p_index (c_path b)).
(* SPV.hpp 273-276: the header is compared with itself, by its time *)
Definition conf_compare (a b : confirmation) : comparison :=
  match h_timestamp (c_header a) ?= h_timestamp (c_header a) with
  | Eq => Eq
  | _ => p_index (c_path a) ?= p_index (c_path b)
  end.
(* SPV.cpp 372-379.  None dereferences a null pointer.  The order of the entries is the order of iteration *)
Fixpoint contains_branch (d : bytes) (p : atree) {struct p} : option bool :=
  match p with
  | Confirmed _ => Some false
  | Antecedents m =>
    (fix go (l : list (bytes * option anode)) : option bool :=
       match l with
       | [] => Some false
       | (k, o) :: r =>
         if bytes_eqb k d then Some true
         else match o with
              | None => None
              | Some (mkanode _ q) => match contains_branch d q with Some false => go r | x => x end
              end
       end) m
  end.
(* SPV.cpp 355-370; None is a null pointer.  The result: None is "unordered" *)
Definition ordering (a b : bytes * atree) : option (option comparison) :=
  if bytes_eqb (fst a) (fst b) then Some (Some Eq)
  else match snd a, snd b with
       | Confirmed x, Confirmed y => Some (Some (conf_compare x y))
       | Confirmed _, _ => Some (Some Lt)
       | _, Confirmed _ => Some (Some Gt)
       | _, _ =>
         match contains_branch (fst a) (snd b) with
         | None => None
         | Some true => Some (Some Lt)
         | Some false => match contains_branch (fst b) (snd a) with
                         | None => None
                         | Some true => Some (Some Gt)
                         | Some false => Some None
                         end
         end
       end.
