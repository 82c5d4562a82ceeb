(* C42, C85, C86, C87: SPV proofs. *)
From Coq Require Import Sorting.Permutation.
From Verif Require Import Base BaseProofs WireModel MerkleModel MerkleSpec MerkleExamples WorkModel ScriptModel MachineModel SighashModel BeefModel BeefExamples ExtModel ExtSpec
  SpvModel SpvSpec SpvExamples AncModel AncSpec AncProofs AncGenerate AncDb AncExamples.
Local Open Scope N_scope.

(* C42 *)
Theorem C42_sound : forall H ovf eval known unset upgrade p, well_keyed H (ap_map p) -> ~ confused H (ap_map p) -> limit_gt upgrade unset = false ->
  validate H ovf eval known unset upgrade p = Done true ->
  NoDup (ap_payment p) /\ forall t, In t (ap_payment p) -> genuine H ovf eval known upgrade t PosInf.
Proof. exact validate_sound. Qed.
Print Assumptions C42_sound.
Theorem C42_exact : forall H ovf eval known unset upgrade p, coherent (ap_map p) -> limit_gt upgrade unset = false ->
  (validate H ovf eval known unset upgrade p = Done true <->
   NoDup (ap_payment p) /\ forall t, In t (ap_payment p) -> spends H ovf eval known upgrade t (ap_map p)).
Proof. exact validate_exact. Qed.
Print Assumptions C42_exact.
(* the roots that a database knows are those of valid headers in it, and hashes of headers *)
Theorem C42_known_roots : forall H ins ord dup fuel h0 l m d, header_valid H h0 = true -> throughout H ins ord dup fuel (keeps_chain H) (new_db H h0) l ->
  history H ins ord dup fuel (new_db H h0) l = Done m -> db_knows m d = true ->
  exists n h, header_at m n = Some (n, h) /\ header_valid H h = true /\ (header_hash H h = d \/ h_merkle_root h = d).
Proof. exact db_knows_sound. Qed.
Print Assumptions C42_known_roots.
(* for amounts that can exist, a transaction is funded when no more goes out than comes in *)
Theorem C42_funded : forall ovf t os, Forall amount (map out_value (tx_outputs t)) -> Forall amount (map out_value os) ->
  N.of_nat (length (tx_outputs t)) <= 4392 -> N.of_nat (length os) <= 4392 ->
  (funded ovf t os <-> (total (map out_value (tx_outputs t)) <= total (map out_value os))%Z).
Proof. exact funded_exact. Qed.
Print Assumptions C42_funded.
Example C42_example : well_keyed ex_hash32 (ap_map ex_spv_proof) /\ ~ confused ex_hash32 (ap_map ex_spv_proof) /\ coherent (ap_map ex_spv_proof) /\
  validate ex_hash32 wrap64 ex_eval ex_roots NegInf NegInf ex_spv_proof = Done true /\ ap_payment ex_spv_proof = [ex_pay].
Proof. split; [exact ex_spv_keyed|]. split; [exact ex_spv_clear|]. split; [exact ex_spv_coherent|]. split; [exact ex_spv_valid|reflexivity]. Qed.
Example C42_funded_example : Forall amount (map out_value (tx_outputs ex_pay)) /\ Forall amount (map out_value (tx_outputs ex_tx_b)) /\ funded wrap64 ex_pay (tx_outputs ex_tx_b).
Proof. split; [repeat constructor; discriminate|]. split; [repeat constructor; discriminate|]. vm_compute. discriminate. Qed.
(* ids of transactions are not compared with the keys: a payment from a transaction that does not exist *)
Theorem C42_keys_refuted : ~ forall H ovf eval known upgrade p t, validate H ovf eval known NegInf upgrade p = Done true -> coherent (ap_map p) -> limit_gt upgrade NegInf = false ->
  In t (ap_payment p) -> genuine H ovf eval known upgrade t PosInf.
Proof. intros A. destruct forged as (p & t & V & I0 & C & N0). exact (N0 (A _ _ _ _ _ p t V C eq_refl I0)). Qed.
Print Assumptions C42_keys_refuted.
(* an output can be spent twice, in one transaction or by two *)
Theorem C42_double_spend_refuted :
  validate ex_hash32 wrap64 ex_eval ex_roots NegInf NegInf (mkaproof [ex_double] [(ex_id_a, Some ex_node_a)]) = Done true /\
  map in_ref (tx_inputs ex_double) = [{| op_digest := ex_id_a; op_index := 0 |}; {| op_digest := ex_id_a; op_index := 0 |}] /\
  map out_value (tx_outputs ex_tx_a) = [5000%Z] /\ map out_value (tx_outputs ex_double) = [9000%Z] /\ tx_valid ex_double = Ret true /\
  validate ex_hash32 wrap64 ex_eval ex_roots NegInf NegInf (mkaproof [ex_spend ex_id_a 4000; ex_spend ex_id_a 4001] [(ex_id_a, Some ex_node_a)]) = Done true.
Proof. exact double_spend. Qed.
Print Assumptions C42_double_spend_refuted.
Theorem C42_empty_refuted : validate ex_hash32 wrap64 ex_eval ex_roots NegInf NegInf empty_proof = Done true /\
  (let t := {| tx_version := 2; tx_inputs := []; tx_outputs := []; tx_locktime := 0 |} in
   tx_valid t = Ret false /\ validate ex_hash32 wrap64 ex_eval ex_roots NegInf NegInf (mkaproof [t] []) = Done true).
Proof. exact nothing. Qed.
Print Assumptions C42_empty_refuted.
Theorem C42_amounts_refuted : validate ex_hash32 wrap64 ex_eval ex_roots NegInf NegInf (mkaproof [ex_huge] [(ex_id_a, Some ex_node_a)]) = Done true /\
  (total (map out_value (tx_outputs ex_huge)) = 9223372036854775808)%Z /\ total (map out_value (tx_outputs ex_tx_a)) = 5000%Z.
Proof. exact overflow. Qed.
Print Assumptions C42_amounts_refuted.
(* with a time that compares below the upgrade, the second input from an unconfirmed transaction is run by the old rules *)
Theorem C42_rules_refuted : validate ex_hash32 wrap64 ex_eval ex_roots (At 0) (At 1) ex_join_proof = Done false /\
  validate ex_hash32 wrap64 ex_eval ex_roots PosInf (At 1) ex_join_proof = Done true.
Proof. exact rules. Qed.
Print Assumptions C42_rules_refuted.
(* the header in a confirmation need not be the one in the database *)
Theorem C42_header_refuted : exists m, ex_run ex_db ex_spv_history = Done m /\ header_by m (h_merkle_root ex_later) = Some (1, ex_block) /\
  h_timestamp ex_block = 1 /\ h_timestamp ex_later = 9 /\
  validate ex_hash32 wrap64 ex_eval (db_knows m) NegInf (At 5) (mkaproof [ex_tx_b] [(ex_id_a, Some (mkanode ex_tx_a (Confirmed (mkconf ex_path_a 1 ex_block))))]) = Done false /\
  validate ex_hash32 wrap64 ex_eval (db_knows m) NegInf (At 5) (mkaproof [ex_tx_b] [(ex_id_a, Some (mkanode ex_tx_a (Confirmed (mkconf ex_path_a 7 ex_later))))]) = Done true.
Proof. exact other_header. Qed.
Print Assumptions C42_header_refuted.
(* what is checked in one place of an incoherent proof is not checked in another, and null pointers are undefined *)
Theorem C42_incoherent_refuted : validate ex_hash32 wrap64 ex_eval ex_roots NegInf NegInf ex_unchecked = Done true /\
  validate ex_hash32 wrap64 ex_eval ex_roots NegInf NegInf (mkaproof [ex_spend (ex_digest 9) 3000] (ap_map ex_unchecked)) = Done false.
Proof. exact unchecked. Qed.
Print Assumptions C42_incoherent_refuted.
Theorem C42_null_refuted : validate ex_hash32 wrap64 ex_eval ex_roots NegInf NegInf (mkaproof [ex_pay] [(ex_id_b, None)]) = Bad.
Proof. exact null_pointer. Qed.
Print Assumptions C42_null_refuted.

(* C85 *)
Theorem C85_shape : forall keep look H f payment p, generate_proof keep look H f payment = Done (Some p) ->
  ap_payment p = rev payment /\ coherent (ap_map p) /\ (look_keyed look H -> well_keyed H (ap_map p)) /\
  (forall k a, node_in (ap_map p) k a -> x_tx (look k) = Some (n_tx a)) /\
  (forall t, In t payment -> dbtx_confirmed (look (tx_id H t)) = false).
Proof. exact generated_shape. Qed.
Print Assumptions C85_shape.
Theorem C85_exists : forall keep look H f payment, ranked look f ->
  (exists r, generate_proof keep look H f payment = Done r) /\
  ((exists p, generate_proof keep look H f payment = Done (Some p)) <->
   (forall t, In t payment -> dbtx_confirmed (look (tx_id H t)) = false) /\ known_inputs look payment).
Proof. exact generate_exact. Qed.
Print Assumptions C85_exists.
Theorem C85_validates : forall keep look H ovf eval known upgrade, look_mined look H known -> forall unset f payment p, limit_gt upgrade unset = false ->
  generate_proof keep look H f payment = Done (Some p) ->
  (validate H ovf eval known unset upgrade p = Done true <->
   NoDup payment /\ forall t, unproved look payment t -> spends_known look ovf eval upgrade t).
Proof. exact generated_validates. Qed.
Print Assumptions C85_validates.
Theorem C85_database : forall H ins ord dup fuel U L, (forall m, length (H m) = 32%nat) -> inserts ins -> (forall l, Permutation (ord l) l) -> universe H U L -> (32 <= fuel)%nat ->
  forall h0 l m keep ovf eval unset upgrade f payment p, header_valid H h0 = true ->
  throughout H ins ord dup fuel (fun m o => from_universe H U o /\ no_removal o /\ no_clash H m o) (new_db H h0) l ->
  history H ins ord dup fuel (new_db H h0) l = Done m -> limit_gt upgrade unset = false ->
  generate_proof keep (transaction m) H f payment = Done (Some p) ->
  (validate H ovf eval (db_knows m) unset upgrade p = Done true <->
   NoDup payment /\ forall t, unproved (transaction m) payment t -> spends_known (transaction m) ovf eval upgrade t).
Proof. exact db_generated. Qed.
Print Assumptions C85_database.
Theorem C85_database_keyed : forall H ins ord dup fuel h0 l m, history H ins ord dup fuel (new_db H h0) l = Done m -> look_keyed (transaction m) H.
Proof. exact db_keyed. Qed.
Print Assumptions C85_database_keyed.
Example C85_example : throughout ex_hash32 cons (fun l => l) None 40
    (fun m o => from_universe ex_hash32 ex_universe o /\ no_removal o /\ no_clash ex_hash32 m o) ex_db ex_spv_history /\
  (exists m, ex_run ex_db ex_spv_history = Done m /\ ranked (transaction m) 10) /\
  exists m, ex_run ex_db ex_spv_history = Done m /\
  generate_proof true (transaction m) ex_hash32 10 [ex_pay] = Done (Some ex_spv_proof) /\
  validate ex_hash32 wrap64 ex_eval (db_knows m) NegInf NegInf ex_spv_proof = Done true /\
  generate_proof true (transaction m) ex_hash32 10 [ex_tx_a] = Done None /\
  generate_proof true (transaction m) ex_hash32 10 [ex_spend (ex_digest 200) 3000] = Done None.
Proof. split; [exact ex_spv_through|]. split; [exact ex_spv_ranked|exact ex_spv_generated]. Qed.

(* C86 *)
Theorem C86_proof_exact : forall m t x, extended_transaction m t = Some x <->
  exists os, prevouts (tx_under m) (tx_inputs t) os /\ x = xtx_of t (with_prevouts (tx_inputs t) os).
Proof. exact extended_exact. Qed.
Print Assumptions C86_proof_exact.
Theorem C86_proof_plain : forall m t x, extended_transaction m t = Some x -> xtx_plain x = t.
Proof. exact extended_plain. Qed.
Print Assumptions C86_proof_plain.
Theorem C86_validated : forall H ovf eval known unset upgrade p, validate H ovf eval known unset upgrade p = Done true ->
  exists xs, extended_transactions (ap_map p) (ap_payment p) = Some xs /\ map xtx_plain xs = ap_payment p /\
    forall x, In x xs -> (xtx_sent ovf x <= xtx_spent ovf x)%Z.
Proof. exact validated_extends. Qed.
Print Assumptions C86_validated.
Theorem C86_database_exact : forall look t x, extend look t = Done (Some x) <->
  exists os, prevouts (fun d => x_tx (look d)) (tx_inputs t) os /\ x = xtx_of t (rev (with_prevouts (tx_inputs t) os)).
Proof. exact extend_exact. Qed.
Print Assumptions C86_database_exact.
Theorem C86_database_fails : forall look t,
  (extend look t = Done None <-> exists l1 i l2 os, tx_inputs t = l1 ++ i :: l2 /\ prevouts (fun d => x_tx (look d)) l1 os /\ x_tx (look (op_digest (in_ref i))) = None) /\
  (extend look t = Bad <-> exists l1 i l2 os a, tx_inputs t = l1 ++ i :: l2 /\ prevouts (fun d => x_tx (look d)) l1 os /\
     x_tx (look (op_digest (in_ref i))) = Some a /\ at_index (tx_outputs a) (op_index (in_ref i)) = None) /\
  extend look t <> More.
Proof. exact extend_fails. Qed.
Print Assumptions C86_database_fails.
Theorem C86_database_plain : forall look t x, extend look t = Done (Some x) ->
  xtx_plain x = {| tx_version := tx_version t; tx_inputs := rev (tx_inputs t); tx_outputs := tx_outputs t; tx_locktime := tx_locktime t |}.
Proof. exact extend_plain. Qed.
Print Assumptions C86_database_plain.
(* the inputs are reversed, so a transaction of two inputs becomes another one *)
Theorem C86_database_refuted : exists m x, ex_run ex_db ex_spv_history = Done m /\ extend (transaction m) ex_two = Done (Some x) /\
  map xi_input (xt_inputs x) = rev (tx_inputs ex_two) /\ xtx_plain x <> ex_two /\ tx_id ex_hash32 (xtx_plain x) <> tx_id ex_hash32 ex_two.
Proof. exact extend_reverses. Qed.
Print Assumptions C86_database_refuted.
Example C86_example : exists m x, ex_run ex_db ex_spv_history = Done m /\ extend (transaction m) ex_tx_b = Done (Some x) /\ xtx_plain x = ex_tx_b /\
  extend (transaction m) ex_tx_a = Done None /\
  extend (transaction m) {| tx_version := 2; tx_inputs := [{| in_ref := {| op_digest := ex_id_a; op_index := 1 |}; in_script := []; in_seq := 7 |}]; tx_outputs := []; tx_locktime := 0 |} = Bad.
Proof. exact extend_example. Qed.

(* C87 *)
Theorem C87_equal_exact : forall a b, conf_eqb a b = true <-> c_header a = c_header b /\ c_height a = c_height b /\ p_index (c_path a) = p_index (c_path b).
Proof. exact conf_eqb_exact. Qed.
Print Assumptions C87_equal_exact.
(* one proves that the transaction is in the block and the other does not *)
Theorem C87_equal_refuted : let c := mkconf (mkpath 0 []) 1 ex_block in
  conf_eqb ex_conf_a c = true /\ path_valid ex_hash32 ex_tx_a (c_path ex_conf_a) ex_block = true /\ path_valid ex_hash32 ex_tx_a (c_path c) ex_block = false.
Proof. exact equal_confirmations. Qed.
Print Assumptions C87_equal_refuted.
Theorem C87_compare_refuted : forall a b, conf_compare a b = Eq.
Proof. exact conf_compare_always. Qed.
Print Assumptions C87_compare_refuted.
Theorem C87_contains_exact : forall d p, (contains_branch d p = Some true -> mentions d p) /\ (contains_branch d p = Some false -> ~ mentions d p) /\
  (contains_branch d p = None -> has_null p).
Proof. exact contains_exact. Qed.
Print Assumptions C87_contains_exact.
Theorem C87_ordering_exact : forall (a b : bytes * atree) m m', snd a = Antecedents m -> snd b = Antecedents m' -> fst a <> fst b ->
  ~ has_null (snd a) -> ~ has_null (snd b) -> ~ (mentions (fst a) (snd b) /\ mentions (fst b) (snd a)) ->
  (ordering a b = Some (Some Lt) <-> mentions (fst a) (snd b)) /\ (ordering a b = Some (Some Gt) <-> mentions (fst b) (snd a)) /\
  (ordering a b = Some None <-> ~ mentions (fst a) (snd b) /\ ~ mentions (fst b) (snd a)).
Proof. exact ordering_exact. Qed.
Print Assumptions C87_ordering_exact.
Example C87_example : let a := (ex_id_a, Antecedents []) in let b := (ex_id_b, Antecedents [(ex_id_a, Some ex_node_a)]) in
  ordering a b = Some (Some Lt) /\ ordering b a = Some (Some Gt) /\ ordering a (ex_digest 9, Antecedents []) = Some None.
Proof. exact ordering_example. Qed.
