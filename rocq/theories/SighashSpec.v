(* What the two signature-hash preimages should be, in terms of the forms of WireSpec and
   ScriptSpec; nothing here mentions the writers of the model. *)
From Verif Require Import Base WireModel WireSpec ScriptModel ScriptSpec MachineModel SighashModel.
Local Open Scope N_scope.

(* ---- the parts of a directive, by arithmetic ---- *)
Definition kind (d : byte) : N := b2n d mod 32.
Definition fork_bit (d : byte) : Prop := exists q r, b2n d = 128 * q + 64 + r /\ r < 64.
Definition acp_bit (d : byte) : Prop := 128 <= b2n d.

(* ---- what the C++ types guarantee ---- *)
Definition iinput_wf (i : iinput) : Prop := outpoint_wf (ii_ref i) /\ u32 (ii_seq i).
Definition itx_wf (t : itx) : Prop :=
  i32 (it_version t) /\ seq_wf iinput_wf (it_inputs t) /\ seq_wf output_wf (it_outputs t) /\ u32 (it_locktime t).
(* the script code was parsed from fewer than 2^32 bytes *)
Definition code_form (p : program) (b : bytes) : Prop := exists s, segments p s /\ b = concat s /\ len b < 2 ^ 32.
Definition sdoc_wf (doc : sdoc) : Prop :=
  itx_wf (sd_tx doc) /\ i64 (sd_value doc) /\ exists b, code_form (sd_code doc) b.

(* ---- the shortest byte string in a set ---- *)
Definition shortest (F : bytes -> Prop) (c : bytes) : Prop := F c /\ forall c', F c' -> (length c <= length c')%nat.

(* every element of l in its shortest form, one after another *)
Definition all_forms {X} (F : X -> bytes -> Prop) (l : list X) (c : bytes) : Prop :=
  exists parts, Forall2 (fun x => shortest (F x)) l parts /\ c = concat parts.

(* c is the hash of something in the set *)
Definition hash_of (H : bytes -> bytes) (F : bytes -> Prop) (c : bytes) : Prop := exists m, F m /\ c = H m.
Definition zeros (c : bytes) : Prop := c = repeat x00 32.

(* ---- the fork-id preimage (BIP 143 with the fork id), for SIGHASH_ALL, NONE, SINGLE ---- *)
Inductive fork_layout (H : bytes -> bytes) (doc : sdoc) (d : byte) : bytes -> Prop :=
| fork_layout_i x version prevouts sequences ref script code value sequence outputs lock type :
    nth_error (it_inputs (sd_tx doc)) (N.to_nat (sd_index doc)) = Some x ->
    sle_form 4 (it_version (sd_tx doc)) version ->
    (acp_bit d -> zeros prevouts) ->
    (~ acp_bit d -> hash_of H (all_forms (fun i => outpoint_form (ii_ref i)) (it_inputs (sd_tx doc))) prevouts) ->
    (acp_bit d \/ kind d = 2 \/ kind d = 3 -> zeros sequences) ->
    (~ acp_bit d -> kind d <> 2 -> kind d <> 3 ->
       hash_of H (all_forms (fun i => le_form 4 (ii_seq i)) (it_inputs (sd_tx doc))) sequences) ->
    outpoint_form (ii_ref x) ref ->
    code_form (sd_code doc) code -> shortest (string_form code) script ->
    sle_form 8 (sd_value doc) value ->
    le_form 4 (ii_seq x) sequence ->
    (kind d = 1 -> hash_of H (all_forms output_form (it_outputs (sd_tx doc))) outputs) ->
    (kind d = 3 -> exists o, nth_error (it_outputs (sd_tx doc)) (N.to_nat (sd_index doc)) = Some o /\
       hash_of H (shortest (output_form o)) outputs) ->
    (kind d <> 1 -> kind d <> 3 -> zeros outputs) ->
    le_form 4 (it_locktime (sd_tx doc)) lock ->
    le_form 4 (b2n d) type ->
    fork_layout H doc d
      (version ++ prevouts ++ sequences ++ ref ++ script ++ value ++ sequence ++ outputs ++ lock ++ type).

(* ---- the original preimage: a modified transaction followed by the directive ---- *)
(* the script code without separators *)
Definition stripped (p : program) (b : bytes) : Prop :=
  code_form (filter (fun i => negb (byte_eqb (i_op i) OP_CODESEPARATOR)) p) b.

(* one input of the modified transaction; k is its position in the real one *)
Definition seen_input (doc : sdoc) (d : byte) (code : bytes) (k : N) (i : iinput) (j : input) : Prop :=
  in_ref j = ii_ref i /\
  (k = sd_index doc -> in_script j = code /\ in_seq j = ii_seq i) /\
  (k <> sd_index doc -> in_script j = [] /\ (kind d = 1 -> in_seq j = ii_seq i) /\ (kind d <> 1 -> in_seq j = 0)).

Record seen (doc : sdoc) (d : byte) (code : bytes) (t : tx) : Prop := {
  seen_version : tx_version t = it_version (sd_tx doc);
  seen_locktime : tx_locktime t = it_locktime (sd_tx doc);
  seen_acp : acp_bit d -> exists i j, nth_error (it_inputs (sd_tx doc)) (N.to_nat (sd_index doc)) = Some i /\
     tx_inputs t = [j] /\ seen_input doc d code (sd_index doc) i j;
  seen_all_inputs : ~ acp_bit d -> length (tx_inputs t) = length (it_inputs (sd_tx doc)) /\
     forall k i j, nth_error (it_inputs (sd_tx doc)) k = Some i -> nth_error (tx_inputs t) k = Some j ->
       seen_input doc d code (N.of_nat k) i j;
  seen_all : kind d = 1 -> tx_outputs t = it_outputs (sd_tx doc);
  seen_single : kind d = 3 -> exists o, nth_error (it_outputs (sd_tx doc)) (N.to_nat (sd_index doc)) = Some o /\
     tx_outputs t = [o];
  seen_none : kind d <> 1 -> kind d <> 3 -> tx_outputs t = [] }.

Inductive original_layout (doc : sdoc) (d : byte) : bytes -> Prop :=
| original_layout_i code t b type : stripped (sd_code doc) code -> seen doc d code t ->
    shortest (tx_form t) b -> le_form 4 (b2n d) type -> original_layout doc d (b ++ type).

(* ---- what two documents must share for their fork-id preimages to coincide ---- *)
Record same_commitment (d : byte) (a b : sdoc) : Prop := {
  sc_version : it_version (sd_tx a) = it_version (sd_tx b);
  sc_locktime : it_locktime (sd_tx a) = it_locktime (sd_tx b);
  sc_value : sd_value a = sd_value b;
  sc_code : sd_code a = sd_code b;
  sc_input : nth_error (it_inputs (sd_tx a)) (N.to_nat (sd_index a)) =
             nth_error (it_inputs (sd_tx b)) (N.to_nat (sd_index b));
  sc_refs : ~ acp_bit d -> map ii_ref (it_inputs (sd_tx a)) = map ii_ref (it_inputs (sd_tx b));
  sc_seqs : ~ acp_bit d -> kind d <> 2 -> kind d <> 3 ->
            map ii_seq (it_inputs (sd_tx a)) = map ii_seq (it_inputs (sd_tx b));
  sc_outputs : kind d = 1 -> it_outputs (sd_tx a) = it_outputs (sd_tx b);
  sc_single : kind d = 3 -> nth_error (it_outputs (sd_tx a)) (N.to_nat (sd_index a)) =
                            nth_error (it_outputs (sd_tx b)) (N.to_nat (sd_index b)) }.

(* the preimage is defined: the input exists, and for SIGHASH_SINGLE so does the output *)
Definition in_range (d : byte) (doc : sdoc) : Prop :=
  sd_index doc < N.of_nat (length (it_inputs (sd_tx doc))) /\
  (kind d = 3 -> sd_index doc < N.of_nat (length (it_outputs (sd_tx doc)))).

(* the messages that one preimage hashes *)
Inductive hashed (d : byte) (doc : sdoc) : bytes -> Prop :=
| hashed_refs m : ~ acp_bit d -> all_forms (fun i => outpoint_form (ii_ref i)) (it_inputs (sd_tx doc)) m -> hashed d doc m
| hashed_seqs m : ~ acp_bit d -> kind d <> 2 -> kind d <> 3 -> all_forms (fun i => le_form 4 (ii_seq i)) (it_inputs (sd_tx doc)) m -> hashed d doc m
| hashed_outs m : kind d = 1 -> all_forms output_form (it_outputs (sd_tx doc)) m -> hashed d doc m
| hashed_out o m : kind d = 3 -> nth_error (it_outputs (sd_tx doc)) (N.to_nat (sd_index doc)) = Some o ->
    shortest (output_form o) m -> hashed d doc m.

Definition no_collision (H : bytes -> bytes) (d : byte) (a b : sdoc) : Prop :=
  forall m n, hashed d a m -> hashed d b n -> H m = H n -> m = n.

(* ---- the consensus rule for the original preimage (SignatureHash of the reference client), as a
   description of the modified transaction; only the parts where the library differs are spelled out ---- *)
Definition blank_output : output := {| out_value := -1; out_script := [] |}.
Definition consensus_outputs (d : byte) (doc : sdoc) : list output :=
  if kind d =? 2 then []
  else if kind d =? 3 then
    repeat blank_output (N.to_nat (sd_index doc)) ++
    match nth_error (it_outputs (sd_tx doc)) (N.to_nat (sd_index doc)) with Some o => [o] | None => [] end
  else it_outputs (sd_tx doc).
(* sequence numbers of the other inputs survive unless the kind is NONE or SINGLE *)
Definition consensus_sequence (d : byte) (doc : sdoc) (k : N) (i : iinput) : N :=
  if negb (k =? sd_index doc) && ((kind d =? 2) || (kind d =? 3)) then 0 else ii_seq i.
(* BIP 143: all outputs are hashed unless the kind is NONE or SINGLE *)
Definition consensus_hashes_outputs (d : byte) : Prop := kind d <> 2 /\ kind d <> 3.

(* ---- a transaction with its input scripts replaced ---- *)
Definition with_scripts (t : tx) (scripts : list bytes) : tx :=
  {| tx_version := tx_version t; tx_inputs := map2 iinput_complete (map iinput_of (tx_inputs t)) scripts;
     tx_outputs := tx_outputs t; tx_locktime := tx_locktime t |}.

(* ---- caches hold the hashes of their transaction; one request of a session ---- *)
Definition coherent (H : bytes -> bytes) (t : itx) (c : cache) : Prop :=
  (forall h, c_prevouts c = Some h -> h = hash_prevouts H t) /\
  (forall h, c_sequence c = Some h -> h = hash_sequence H t) /\
  (forall h, c_outputs c = Some h -> h = hash_outputs H t).

Definition request_doc (t : itx) (q : N * Z * program * byte) : sdoc :=
  match q with (i, v, p, _) => {| sd_tx := t; sd_index := i; sd_value := v; sd_code := p |} end.

(* ---- every cached hash has one owner and is live ---- *)
Definition heap_inv (h : heap) : Prop :=
  (forall i p, nth_error (hp_objects h) i = Some (Some p) -> In p (hp_live h)) /\
  (forall i j p, nth_error (hp_objects h) i = Some (Some p) -> nth_error (hp_objects h) j = Some (Some p) -> i = j) /\
  (forall p, In p (hp_live h) -> (p < hp_fresh h)%nat).

(* copying an object is harmless as long as its cache is still empty *)
Definition harmless (h : heap) (o : hop) : Prop :=
  match o with
  | HNew => True
  | HFill i | HDestroy i => (i < length (hp_objects h))%nat
  | HCopy i => nth_error (hp_objects h) i = Some None
  end.

(* a run all of whose steps are harmless *)
Inductive harmless_run : heap -> list hop -> Prop :=
| hr_nil h : harmless_run h []
| hr_cons h o l : harmless h o -> (forall h', hstep h o = Some h' -> harmless_run h' l) -> harmless_run h (o :: l).
