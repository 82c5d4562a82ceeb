(* Raw outputs, inputs, outpoints and blocks; validity of blocks; cached ids; the genesis block.
   Source: timechain.cpp 81-106, 131-149, 235-268, 288-305, include/gigamonkey/timechain.hpp 134-168,
   196-203, 268-324, 441-453, SPV.cpp 9-21. *)
From Coq Require Import String.
From Verif Require Import Base WireModel ScriptModel MerkleModel WorkModel SighashModel TextModel.
Local Open Scope N_scope.

(* ---------------------------------------------------------------- outpoints *)
(* timechain.cpp 288-298: digest and index of a slice of 36 bytes *)
Definition outpoint_slice_digest (x : bytes) : bytes := range 0 32 x.
Definition outpoint_slice_index (x : bytes) : N := le_val (range 32 36 x).
(* timechain.hpp 154-156, 164: outpoint (slice), outpoint::read *)
Definition outpoint_of_slice (x : bytes) : outpoint :=
  {| op_digest := outpoint_slice_digest x; op_index := outpoint_slice_index x |}.
(* timechain.cpp 300-305: outpoint::write copies the digest and the four bytes of the index *)
Definition outpoint_bytes (o : outpoint) : bytes := op_digest o ++ le 4 (op_index o).
(* timechain.hpp 158-160 *)
Definition outpoint_valid (o : outpoint) : bool := digest_valid (op_digest o).
(* timechain.hpp 147-150: outpoint::coinbase *)
Definition outpoint_coinbase : outpoint := {| op_digest := zero_digest; op_index := 0xffffffff |}.

(* ---------------------------------------------------------------- inputs and outputs *)
(* timechain.hpp 187 *)
Definition input_default : input := {| in_ref := outpoint_zero; in_script := []; in_seq := 0 |}.
(* timechain.cpp 81-88 *)
Definition input_of_slice (b : bytes) : input :=
  match input_read b with Some (i, _) => i | None => input_default end.

(* timechain.hpp 208 and timechain.cpp 239-242 *)
Definition output_default : output := {| out_value := -1; out_script := [] |}.
(* timechain.cpp 235-243 *)
Definition output_of_slice (b : bytes) : output :=
  match output_read b with Some (o, _) => o | None => output_default end.
(* timechain.cpp 245-256 *)
Definition output_slice_value (b : bytes) : Z :=
  match rd_sle 8 b with Some (v, _) => v | None => (-1)%Z end.
(* timechain.cpp 258-268: the slice is made without asking whether so many bytes are left *)
Definition output_slice_script (b : bytes) : outcome unit bytes :=
  match (do v <- rd_sle 8; var_int_read) b with
  | None => Ret []
  | Some (n, r) => match mk_slice r n with Some s => Ret s | None => Undef end
  end.
(* timechain.hpp 198-200 *)
Definition output_slice_valid (b : bytes) : bool := output_valid (output_of_slice b).

(* ---------------------------------------------------------------- blocks *)
(* timechain.hpp 98, 298 *)
Definition header_default : header :=
  {| h_version := 0; h_previous := zero_digest; h_merkle_root := zero_digest; h_timestamp := 0; h_target := 0; h_nonce := 0 |}.
Definition block_default : block := {| bl_header := header_default; bl_txs := [] |}.
(* timechain.cpp 99-108; std::bad_alloc is not modelled *)
Definition block_of_slice (b : bytes) : block :=
  match block_read b with Some (x, _) => x | None => block_default end.

(* timechain.hpp 303-307: the loop of block::valid *)
Fixpoint txs_valid (l : list tx) : outcome ixn bool :=
  match l with
  | [] => Ret true
  | t :: r => match tx_valid t with Ret true => txs_valid r | x => x end
  end.

Section Hashed.
(* Hash256 *)
Variable H : bytes -> bytes.

(* timechain.hpp 301-309: block::valid *)
Definition block_valid (b : block) : outcome ixn bool :=
  if header_valid H (bl_header b) then txs_valid (bl_txs b) else Ret false.
(* timechain.hpp 283-285 *)
Definition block_slice_valid (b : bytes) : outcome ixn bool := block_valid (block_of_slice b).

(* timechain.hpp 273-275: id (transaction) *)
Definition tx_id (t : tx) : bytes := H (tx_write t).
(* timechain.hpp 277-279: merkle_root (list<transaction>); [None] never happens *)
Definition txs_root (l : list tx) : option digest := root_list H (map tx_id l).
(* timechain.hpp 290-294: block::merkle_root (slice); the outer [None] is the exception end_of_stream *)
Definition block_slice_root (b : bytes) : option (option digest) :=
  option_map (fun l => root_list H (map H l)) (block_transactions b).

(* ---------------------------------------------------------------- cached ids *)
(* timechain.hpp 268-269: a transaction with the pointer Hash.  The hash behind a pointer is never
   changed, so that sharing it between copies cannot be seen, and it is kept by value. *)
Record object := { ob_tx : tx; ob_hash : option bytes }.
(* timechain.hpp 239-246: the constructors leave Hash null *)
Definition object_of (t : tx) : object := {| ob_tx := t; ob_hash := None |}.
(* timechain.hpp 450-453: transaction::id () *)
Definition object_id (o : object) : bytes * object :=
  match ob_hash o with
  | None => let h := tx_id (ob_tx o) in (h, {| ob_tx := ob_tx o; ob_hash := Some h |})
  | Some h => (h, o)
  end.
(* timechain.hpp 321-323: chain_loader::set_hash *)
Definition set_hash (o : object) (h : bytes) : object :=
  match ob_hash o with None => o | Some _ => {| ob_tx := ob_tx o; ob_hash := Some h |} end.
(* the fields are public *)
Definition set_fields (o : object) (t : tx) : object := {| ob_tx := t; ob_hash := ob_hash o |}.

(* what may happen to one object; a copy (the implicit copy constructor) has the same fields and
   pointer and the same life from then on *)
Inductive happening := Ask | Fields (t : tx) | Load (h : bytes).
Definition happen (o : object) (x : happening) : object :=
  match x with Ask => snd (object_id o) | Fields t => set_fields o t | Load h => set_hash o h end.
Definition life (o : object) (l : list happening) : object := fold_left happen l o.
End Hashed.

(* ---------------------------------------------------------------- the genesis block *)
(* SPV.cpp 10-19 *)
Definition genesis_text : bytes := text (
  "0100000000000000000000000000000000000000000000000000000000000000" ++
  "000000003BA3EDFD7A7B12B27AC72C3E67768F617FC81BC3888A51323A9FB8AA" ++
  "4B1E5E4A29AB5F49FFFF001D1DAC2B7C01010000000100000000000000000000" ++
  "00000000000000000000000000000000000000000000FFFFFFFF4D04FFFF001D" ++
  "0104455468652054696D65732030332F4A616E2F32303039204368616E63656C" ++
  "6C6F72206F6E206272696E6B206F66207365636F6E64206261696C6F75742066" ++
  "6F722062616E6B73FFFFFFFF0100F2052A01000000434104678AFDB0FE554827" ++
  "1967F1A67130B7105CD6A828E03909A67962E0EA1F61DEB649F6BC3F4CEF38C4" ++
  "F35504E51EC112DE5C384DF7BA0B8D578A4C702B6BF11D5FAC00000000")%string.
Definition genesis : option block := option_map block_of_slice (hex_read genesis_text).
