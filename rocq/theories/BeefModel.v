(* BEEF, the container for transactions and Merkle proofs.
   Source: pay/BEEF.cpp, include/gigamonkey/pay/BEEF.hpp. *)
From Verif Require Import Base WireModel MerkleModel BumpModel ScriptModel MachineModel SighashModel.
Local Open Scope N_scope.

(* BEEF.hpp 55-74: a transaction and the position of its BUMP *)
Record btx := mkbtx { bt_tx : tx; bt_index : option N }.
(* BEEF.hpp 47-76 *)
Record beef := mkbeef { bf_version : N; bf_bumps : list bump; bf_txs : list btx }.
Definition beef_version_1 : N := 0xEFBE0001.
Definition empty_beef : beef := mkbeef beef_version_1 [] [].

(* ---------------------------------------------------------------- binary form *)
(* BEEF.hpp 115-120 *)
Definition btx_write (t : btx) : bytes :=
  tx_write (bt_tx t) ++ match bt_index t with Some i => x01 :: var_int_write i | None => [x00] end.
(* BEEF.cpp 9-19 *)
Definition btx_read : reader btx :=
  do t <- tx_read;
  do f <- rd_byte;
  if byte_eqb f x00 then rd_ret (mkbtx t None)
  else do i <- var_int_read; rd_ret (mkbtx t (Some i)).
(* BEEF.hpp 111-113 (sums assumed below 2^64, here and in [beef_size]) *)
Definition btx_size (t : btx) : N :=
  tx_size (bt_tx t) + 1 + match bt_index t with Some i => var_int_size i | None => 0 end.

(* BEEF.hpp 87-89 *)
Definition beef_write (b : beef) : bytes :=
  le 4 (bf_version b) ++ var_seq_write bump_write (bf_bumps b) ++ var_seq_write btx_write (bf_txs b).
(* BEEF.hpp 102-104 *)
Definition beef_size (b : beef) : N :=
  4 + var_seq_size bump_size (bf_bumps b) + var_seq_size btx_size (bf_txs b).
(* BEEF.cpp 21-26: None is a buffer overrun *)
Definition beef_bytes (b : beef) : option bytes := buffer_write (beef_size b) (beef_write b).

(* == on the parts: timechain.hpp 339-353; BUMP.hpp has == on nodes and the external sequences compare
   element by element *)
Definition input_eqb (a b : input) : bool :=
  outpoint_eqb (in_ref a) (in_ref b) && bytes_eqb (in_script a) (in_script b) && (in_seq a =? in_seq b).
Definition output_eqb (a b : output) : bool :=
  (out_value a =? out_value b)%Z && bytes_eqb (out_script a) (out_script b).
Fixpoint list_eqb {A} (eqb : A -> A -> bool) (a b : list A) : bool :=
  match a, b with
  | [], [] => true
  | x :: r, y :: s => eqb x y && list_eqb eqb r s
  | _, _ => false
  end.
Definition tx_eqb (a b : tx) : bool :=
  (tx_version a =? tx_version b)%Z && list_eqb input_eqb (tx_inputs a) (tx_inputs b) &&
  list_eqb output_eqb (tx_outputs a) (tx_outputs b) && (tx_locktime a =? tx_locktime b).
(* BEEF.hpp 71-73 *)
Definition index_eqb (a b : option N) : bool :=
  match a, b with Some x, Some y => x =? y | None, None => true | _, _ => false end.
Definition btx_eqb (a b : btx) : bool := tx_eqb (bt_tx a) (bt_tx b) && index_eqb (bt_index a) (bt_index b).
(* BEEF.hpp 78-80; [bump_eqb] is the comparison of BUMPs.  The version is not compared *)
Definition beef_eqb (bump_eqb : bump -> bump -> bool) (a b : beef) : bool :=
  list_eqb bump_eqb (bf_bumps a) (bf_bumps b) && list_eqb btx_eqb (bf_txs a) (bf_txs b).

Section Beef.
Variable H : bytes -> bytes.     (* the double SHA-256 *)
Variable ins : forall A, (A -> N) -> A -> list A -> list A.

(* BEEF.hpp 91-94 *)
Definition beef_read : reader beef :=
  do v <- rd_le 4;
  do b <- var_seq_read (bump_read ins);
  do t <- var_seq_read btx_read;
  rd_ret (mkbeef v b t).
(* BEEF.hpp 106-109: the end of the stream throws (None) *)
Definition beef_of_bytes (b : bytes) : option beef := option_map fst (beef_read b).

(* timechain.hpp 450-453; the cached value is taken to be up to date *)
Definition tx_id (t : tx) : bytes := H (tx_write t).

(* ---------------------------------------------------------------- validity *)
Definition digest_in (d : bytes) (l : list bytes) : bool := existsb (bytes_eqb d) l.

(* data::valid on a list of transactions, from the front *)
Fixpoint txs_valid (l : list btx) : outcome ixn bool :=
  match l with
  | [] => Ret true
  | t :: r => match tx_valid (bt_tx t) with Ret true => txs_valid r | x => x end
  end.
(* BEEF.cpp 32-47 *)
Fixpoint order_valid (read : list bytes) (l : list btx) : bool :=
  match l with
  | [] => true
  | t :: r =>
    negb (digest_in (tx_id (bt_tx t)) read) &&
    match bt_index t with
    | Some _ => true
    | None => forallb (fun i => digest_in (op_digest (in_ref i)) read) (tx_inputs (bt_tx t))
    end && order_valid (tx_id (bt_tx t) :: read) r
  end.
(* BEEF.cpp 28-48 *)
Definition beef_valid (b : beef) : outcome ixn bool :=
  if (bf_version b <=? 0xEFBE0000) || match bf_txs b with [] => true | _ => false end then Ret false
  else match txs_valid (bf_txs b) with
       | Ret true => Ret (forallb bump_valid (bf_bumps b) && order_valid [] (bf_txs b))
       | x => x
       end.

(* BEEF.cpp 50-58: exceptions of BUMP::root are let through *)
Fixpoint roots_from (acc : list bytes) (l : list bump) : outcome unit (list bytes) :=
  match l with
  | [] => Ret acc
  | b :: r => match bump_root H ins b with
              | Ret d => if digest_valid d then roots_from (acc ++ [d]) r else Ret []
              | Throw e => Throw e
              | Undef => Undef
              end
  end.
Definition beef_roots (b : beef) : outcome unit (list bytes) := roots_from [] (bf_bumps b).

(* BEEF.hpp 96-100: [known d] says whether the database has a header under the digest d.
   Exceptions of either part are just "thrown" *)
Definition beef_validate (known : bytes -> bool) (b : beef) : outcome unit bool :=
  match beef_valid b with
  | Ret false => Ret false
  | Ret true => match beef_roots b with
                | Ret l => Ret (forallb known l)
                | Throw e => Throw e
                | Undef => Undef
                end
  | Throw _ => Throw tt
  | Undef => Undef
  end.
End Beef.
