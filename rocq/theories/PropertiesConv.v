(* C88, C89: conversions between BEEF and SPV proofs. *)
From Verif Require Import Base WireModel MerkleModel MerkleExamples BumpModel BumpSpec BumpFacts WorkModel SighashModel BeefModel BeefSpec BeefExamples ExtModel
  SpvModel SpvExamples AncModel AncSpec AncExamples ConvModel ConvSpec ConvProofs ConvWrite ConvExamples.
Local Open Scope N_scope.

(* C88 *)
(* for every BEEF at all *)
Theorem C88_sound : forall H ins dup miss by_height ovf eval known upgrade unset b p, limit_gt upgrade unset = false ->
  read_proof H ins dup miss by_height b = Ret p -> validate H ovf eval known unset upgrade p = Done true ->
  forall t, In t (ap_payment p) -> genuine H ovf eval known upgrade t PosInf.
Proof. exact read_sound. Qed.
Print Assumptions C88_sound.
Theorem C88_exists : forall H ins dup miss by_height b, readable H ins dup miss by_height b -> exists p, read_proof H ins dup miss by_height b = Ret p.
Proof. exact read_exists. Qed.
Print Assumptions C88_exists.
Theorem C88_exact : forall H ins dup miss by_height b p, readable H ins dup miss by_height b -> read_proof H ins dup miss by_height b = Ret p ->
  ap_payment p = payments H b /\ NoDup (payments H b) /\ coherent (ap_map p) /\ well_keyed H (ap_map p) /\ ~ confused H (ap_map p) /\
  (forall k a, AncSpec.node_in (ap_map p) k a -> exists u, In u (bf_txs b) /\ n_tx a = bt_tx u /\
     match bt_index u with
     | None => exists m, n_proof a = Antecedents m
     | Some i => exists c, n_proof a = Confirmed c /\ leaf_conf H ins dup miss by_height b (bt_tx u) i c
     end).
Proof. exact read_shape. Qed.
Print Assumptions C88_exact.
Theorem C88_validates_exact : forall H ins dup miss by_height ovf eval known upgrade unset b p, limit_gt upgrade unset = false ->
  readable H ins dup miss by_height b -> read_proof H ins dup miss by_height b = Ret p ->
  (validate H ovf eval known unset upgrade p = Done true <->
   forall u, In u (bf_txs b) -> bt_index u = None -> beef_spends H ins dup miss by_height ovf eval known upgrade b (bt_tx u)).
Proof. exact read_validates. Qed.
Print Assumptions C88_validates_exact.
Theorem C88_otherwise : forall H ins dup miss by_height b p, ~ readable H ins dup miss by_height b -> read_proof H ins dup miss by_height b = Ret p -> p = empty_proof.
Proof. exact read_fails. Qed.
Print Assumptions C88_otherwise.
Example C88_example : readable ex_hash32 keep_both None None ex_heights ex_conv_beef /\ read_proof ex_hash32 keep_both None None ex_heights ex_conv_beef = Ret ex_spv_proof /\
  payments ex_hash32 ex_conv_beef = [ex_pay] /\ validate ex_hash32 wrap64 ex_eval ex_roots NegInf NegInf ex_spv_proof = Done true.
Proof. split; [exact ex_conv_readable|]. split; [exact (proj1 ex_conv_reads)|]. split; [reflexivity|exact ex_spv_valid]. Qed.
(* what is returned when the BEEF cannot be read is a valid proof *)
Theorem C88_failure_refuted : forall unset upgrade, let valid p := validate ex_hash32 wrap64 ex_eval ex_roots unset upgrade p in
  read_proof ex_hash32 keep_both None None (fun _ => None) ex_conv_beef = Ret empty_proof /\
  read_proof ex_hash32 keep_both None None ex_heights (mkbeef beef_version_1 [ex_bump_block] [mkbtx ex_tx_a (Some 0); mkbtx ex_pay None]) = Ret empty_proof /\
  valid empty_proof = Done true.
Proof. exact failed_read. Qed.
Print Assumptions C88_failure_refuted.
(* a valid BEEF can refer to a BUMP that is not there *)
Theorem C88_index_refuted : read_proof ex_hash32 keep_both None None ex_heights (mkbeef beef_version_1 [ex_bump_block] [mkbtx ex_tx_a (Some 1)]) = Undef /\
  beef_valid ex_hash32 (mkbeef beef_version_1 [ex_bump_block] [mkbtx ex_tx_a (Some 1)]) = Ret true.
Proof. exact wild_index. Qed.
Print Assumptions C88_index_refuted.

(* C89 *)
Theorem C89_order : forall H ins p, well_keyed H (ap_map p) -> coherent (ap_map p) -> tight p -> separate H p -> forall b, write_proof ins p = Some b ->
  NoDup (ids H (bf_txs b)) /\ supported_by_earlier H (bf_txs b) /\
  (forall k a, AncSpec.node_in (ap_map p) k a -> exists u, In u (bf_txs b) /\ bt_tx u = n_tx a) /\
  (forall t, In t (ap_payment p) -> In (mkbtx t None) (bf_txs b)) /\
  (forall u, In u (bf_txs b) -> u = mkbtx (bt_tx u) None /\ In (bt_tx u) (ap_payment p) \/
     exists a, AncSpec.node_in (ap_map p) (tx_id H (bt_tx u)) a /\ n_tx a = bt_tx u /\
       match n_proof a with Confirmed _ => bt_index u <> None | Antecedents _ => bt_index u = None end).
Proof. exact written_order. Qed.
Print Assumptions C89_order.
Theorem C89_round_trip : forall H ins dup miss by_height p, well_keyed H (ap_map p) -> coherent (ap_map p) -> tight p -> separate H p ->
  forall b, write_proof ins p = Some b -> faithful H ins dup miss by_height b p ->
  exists q, read_proof H ins dup miss by_height b = Ret q /\ same_proof p q.
Proof. exact round_trip. Qed.
Print Assumptions C89_round_trip.
(* one transaction of every block *)
Theorem C89_round_trip_lone : forall H ins dup miss by_height p, well_keyed H (ap_map p) -> coherent (ap_map p) -> tight p -> separate H p ->
  ordered_insert ins -> lone_confirmations by_height p ->
  exists b q, write_proof ins p = Some b /\ read_proof H ins dup miss by_height b = Ret q /\ same_proof p q.
Proof. exact round_trip_lone. Qed.
Print Assumptions C89_round_trip_lone.
Theorem C89_validates : forall H ins dup miss by_height ovf eval known upgrade unset p, limit_gt upgrade unset = false ->
  well_keyed H (ap_map p) -> coherent (ap_map p) -> tight p -> separate H p -> ordered_insert ins -> lone_confirmations by_height p ->
  exists b q, write_proof ins p = Some b /\ read_proof H ins dup miss by_height b = Ret q /\ ap_payment q = ap_payment p /\
    (validate H ovf eval known unset upgrade q = Done true <-> validate H ovf eval known unset upgrade p = Done true).
Proof. exact round_trip_validates. Qed.
Print Assumptions C89_validates.
Theorem C89_same : forall H ovf eval known upgrade unset p q, limit_gt upgrade unset = false -> coherent (ap_map p) -> coherent (ap_map q) -> tight p -> same_proof p q ->
  (validate H ovf eval known unset upgrade p = Done true <-> validate H ovf eval known unset upgrade q = Done true).
Proof. exact same_validates. Qed.
Print Assumptions C89_same.
Theorem C89_generated : forall keep look H f payment p, generate_proof keep look H f payment = Done (Some p) -> tight p.
Proof. exact generated_tight. Qed.
Print Assumptions C89_generated.
Example C89_example : well_keyed ex_hash32 (ap_map ex_spv_proof) /\ coherent (ap_map ex_spv_proof) /\ tight ex_spv_proof /\ separate ex_hash32 ex_spv_proof /\
  ordered_insert keep_both /\ lone_confirmations ex_heights ex_spv_proof /\ write_proof keep_both ex_spv_proof = Some ex_conv_beef /\
  faithful ex_hash32 keep_both None None ex_heights ex_conv_beef ex_spv_proof.
Proof.
  split; [exact ex_spv_keyed|]. split; [exact ex_spv_coherent|]. split; [exact ex_spv_tight|]. split; [exact ex_spv_separate|]. split; [exact keep_both_ordered|].
  split; [exact ex_spv_lone|]. split; [exact (proj2 ex_conv_reads)|exact ex_spv_faithful].
Qed.
(* payments that spend from each other, as the database makes them *)
Theorem C89_chain_refuted : (exists m, ex_run ex_db ex_spv_history = Done m /\ generate_proof true (transaction m) ex_hash32 10 [ex_pay; ex_tx_b] =
    Done (Some (mkaproof [ex_tx_b; ex_pay] [(ex_id_b, Some ex_node_b); (ex_id_a, Some ex_node_a)]))) /\
  validate ex_hash32 wrap64 ex_eval ex_roots NegInf NegInf ex_chain = Done true /\
  exists b, write_proof keep_both ex_chain = Some b /\ map bt_tx (bf_txs b) = [ex_tx_a; ex_tx_b; ex_tx_b; ex_pay] /\
    beef_valid ex_hash32 b = Ret false /\ read_proof ex_hash32 keep_both None None ex_heights b = Throw tt.
Proof. exact (conj chain_generated chain_lost). Qed.
Print Assumptions C89_chain_refuted.
(* the only transaction of a block *)
Theorem C89_alone_refuted : validate ex_hash32 wrap64 ex_eval (bytes_eqb ex_id_a) NegInf NegInf ex_alone = Done true /\
  exists b, write_proof keep_both ex_alone = Some b /\ bf_bumps b = [mkbump 1 []] /\
    read_proof ex_hash32 keep_both None None (fun _ => Some (ex_header ex_id_a 1)) b = Undef.
Proof. exact alone_lost. Qed.
Print Assumptions C89_alone_refuted.
(* three transactions of one block *)
Theorem C89_three_refuted : validate ex_hash32 wrap64 ex_eval (bytes_eqb ex_three_root) NegInf NegInf ex_three_proof = Done true /\
  ex_three_read keep_both = Undef /\ ex_three_read keep_old = Throw tt /\ ex_three_read keep_new = Throw tt.
Proof. exact three_lost. Qed.
Print Assumptions C89_three_refuted.
