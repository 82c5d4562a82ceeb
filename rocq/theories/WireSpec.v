(* Independent description of the wire formats: which byte strings denote which objects.
   Nothing here mentions the readers, writers or size functions of WireModel. *)
From Verif Require Import Base WireModel.
Local Open Scope N_scope.

(* what the C++ types enforce *)
Definition u32 (n : N) : Prop := n < 2 ^ 32.
Definition u64 (n : N) : Prop := n < 2 ^ 64.
Definition i32 (z : Z) : Prop := (- 2 ^ 31 <= z < 2 ^ 31)%Z.
Definition i64 (z : Z) : Prop := (- 2 ^ 63 <= z < 2 ^ 63)%Z.

Definition seq_wf {X} (wf : X -> Prop) (l : list X) : Prop := u64 (N.of_nat (length l)) /\ Forall wf l.
Definition outpoint_wf (o : outpoint) : Prop := length (op_digest o) = 32%nat /\ u32 (op_index o).
Definition input_wf (i : input) : Prop := outpoint_wf (in_ref i) /\ u64 (len (in_script i)) /\ u32 (in_seq i).
Definition output_wf (o : output) : Prop := i64 (out_value o) /\ u64 (len (out_script o)).
Definition tx_wf (t : tx) : Prop :=
  i32 (tx_version t) /\ seq_wf input_wf (tx_inputs t) /\ seq_wf output_wf (tx_outputs t) /\ u32 (tx_locktime t).
Definition header_wf (h : header) : Prop :=
  i32 (h_version h) /\ length (h_previous h) = 32%nat /\ length (h_merkle_root h) = 32%nat /\
  u32 (h_timestamp h) /\ u32 (h_target h) /\ u32 (h_nonce h).
Definition block_wf (b : block) : Prop := header_wf (bl_header b) /\ seq_wf tx_wf (bl_txs b).

(* c is k bytes long and is the little-endian (two's complement) form of the number *)
Definition le_form (k : nat) (n : N) (c : bytes) : Prop := length c = k /\ le_val c = n.
Definition sle_form (k : nat) (z : Z) (c : bytes) : Prop := length c = k /\ sle_val c = z.

(* the four forms of a count *)
Inductive count_form (n : N) : bytes -> Prop :=
| cf_1 b : b2n b = n -> n < 0xfd -> count_form n [b]
| cf_3 c : le_form 2 n c -> count_form n (xfd :: c)
| cf_5 c : le_form 4 n c -> count_form n (xfe :: c)
| cf_9 c : le_form 8 n c -> count_form n (xff :: c).

(* a count followed by that many bytes / objects *)
Inductive string_form (s : bytes) : bytes -> Prop :=
| sf c : count_form (len s) c -> string_form s (c ++ s).
Inductive seq_form {X} (F : X -> bytes -> Prop) (l : list X) : bytes -> Prop :=
| qf c parts : count_form (N.of_nat (length l)) c -> Forall2 F l parts -> seq_form F l (c ++ concat parts).

Inductive outpoint_form (o : outpoint) : bytes -> Prop :=
| opf i : length (op_digest o) = 32%nat -> le_form 4 (op_index o) i -> outpoint_form o (op_digest o ++ i).
Inductive input_form (i : input) : bytes -> Prop :=
| inf o s q : outpoint_form (in_ref i) o -> string_form (in_script i) s -> le_form 4 (in_seq i) q ->
    input_form i (o ++ s ++ q).
Inductive output_form (o : output) : bytes -> Prop :=
| ouf v s : sle_form 8 (out_value o) v -> string_form (out_script o) s -> output_form o (v ++ s).
Inductive tx_form (t : tx) : bytes -> Prop :=
| txf v i o l : sle_form 4 (tx_version t) v -> seq_form input_form (tx_inputs t) i ->
    seq_form output_form (tx_outputs t) o -> le_form 4 (tx_locktime t) l ->
    tx_form t (v ++ i ++ o ++ l).
Inductive header_form (h : header) : bytes -> Prop :=
| hf v t g n : sle_form 4 (h_version h) v -> length (h_previous h) = 32%nat -> length (h_merkle_root h) = 32%nat ->
    le_form 4 (h_timestamp h) t -> le_form 4 (h_target h) g -> le_form 4 (h_nonce h) n ->
    header_form h (v ++ h_previous h ++ h_merkle_root h ++ t ++ g ++ n).
Inductive block_form (b : block) : bytes -> Prop :=
| bf h t : header_form (bl_header b) h -> seq_form tx_form (bl_txs b) t -> block_form b (h ++ t).

(* version numbers the slice scanner of transaction inputs accepts: 1, or 2 up to ASICBoost bits *)
Definition version_scannable (v : Z) : Prop := v = 1%Z \/ Z.land v (Z.of_N 0xE0001FFF) = 2%Z.
