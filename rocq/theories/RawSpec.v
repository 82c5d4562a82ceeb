(* What raw outputs, inputs and outpoints, blocks and cached ids should be. *)
From Coq Require Import String.
From Verif Require Import Base WireModel WireSpec ScriptModel MerkleModel SighashModel TextModel RawModel.
Local Open Scope N_scope.

(* b begins with a form of x *)
Definition begins {X} (F : X -> bytes -> Prop) (x : X) (b : bytes) : Prop := exists c r, b = c ++ r /\ F x c.
(* b begins with a form of x, or with no form at all and x is the given default *)
Definition taken {X} (F : X -> bytes -> Prop) (default : X) (b : bytes) (x : X) : Prop :=
  begins F x b \/ ((forall y, ~ begins F y b) /\ x = default).

(* eight bytes of value, a count and so many bytes, then anything *)
Inductive raw_script (s : bytes) : bytes -> Prop :=
| raw_script_i v c r : length v = 8%nat -> count_form (len s) c -> raw_script s (v ++ c ++ s ++ r).
(* the same, with fewer bytes left than the count says *)
Inductive raw_short : bytes -> Prop :=
| raw_short_i v c n r : length v = 8%nat -> count_form n c -> len r < n -> raw_short (v ++ c ++ r).
(* not even a value and a count *)
Definition raw_cut (b : bytes) : Prop :=
  forall v c n r, length v = 8%nat -> count_form n c -> b <> v ++ c ++ r.

(* the count of the script is written in the shortest form *)
Definition tight_count (i : input) (c : bytes) : Prop := length c = length (input_write i).

(* ---- transactions in blocks ---- *)
(* a coinbase of the Bitcoin protocol: one input that refers to nothing, with 2 to 100 bytes of anything *)
Definition is_coinbase (t : tx) : Prop :=
  exists i, tx_inputs t = [i] /\ in_ref i = outpoint_coinbase /\ 2 <= len (in_script i) <= 100.

(* ---- cached ids ---- *)
(* the fields after what has happened *)
Fixpoint fields_after (t : tx) (l : list happening) : tx :=
  match l with
  | [] => t
  | Fields u :: r => fields_after u r
  | _ :: r => fields_after t r
  end.
(* the last hash that was loaded *)
Fixpoint loaded (l : list happening) (h : bytes) : bytes :=
  match l with [] => h | Load g :: r => loaded r g | _ :: r => loaded r h end.
Definition no_question (l : list happening) : Prop := ~ In Ask l.
Definition quiet (x : happening) : Prop := x = Ask.

(* ---- the genesis block, as known from elsewhere ---- *)
Definition genesis_key : bytes :=
  match hex_read (text "04678AFDB0FE5548271967F1A67130B7105CD6A828E03909A67962E0EA1F61DEB649F6BC3F4CEF38C4F35504E51EC112DE5C384DF7BA0B8D578A4C702B6BF11D5F") with
  | Some b => b | None => [] end.
Definition genesis_tx : tx :=
  {| tx_version := 1;
     tx_inputs := [{| in_ref := outpoint_coinbase;
                      in_script := [x04; xff; xff; x00; x1d; x01; x04; x45] ++
                        text "The Times 03/Jan/2009 Chancellor on brink of second bailout for banks";
                      in_seq := 0xffffffff |}];
     tx_outputs := [{| out_value := 50 * 100000000; out_script := x41 :: genesis_key ++ [xac] |}];
     tx_locktime := 0 |}.
Definition genesis_block : block :=
  {| bl_header := {| h_version := 1; h_previous := zero_digest;
                     h_merkle_root := match hex_read (text "3ba3edfd7a7b12b27ac72c3e67768f617fc81bc3888a51323a9fb8aa4b1e5e4a") with Some b => b | None => [] end;
                     h_timestamp := 1231006505; h_target := 0x1d00ffff; h_nonce := 2083236893 |};
     bl_txs := [genesis_tx] |}.
Definition genesis_hash_text : bytes := text "000000000019d6689c085ae165831e934ff763ae46a2a6c172b3f1b60a8ce26f".
