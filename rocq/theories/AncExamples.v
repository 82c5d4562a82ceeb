(* Sample data and counterexamples for SPV proofs. *)
From Coq Require Import Lia ZifyBool ZifyNat ZifyN Sorting.Permutation.
From Verif Require Import Base BaseProofs WireModel MerkleModel MerkleSpec MerkleExamples WorkModel ScriptModel MachineModel SighashModel BeefModel BeefExamples ExtModel ExtSpec ExtProofs
  SpvModel SpvSpec SpvExamples AncModel AncSpec AncProofs AncGenerate AncDb.
Local Open Scope N_scope.

(* scripts: the unlocking script must be a single OP_1, and the old rules are not met *)
Definition ex_eval (pre : bool) (u l : bytes) (t : itx) (n : N) (v : Z) : bool := negb pre && bytes_eqb u [x51].
Definition ex_any (pre : bool) (u l : bytes) (t : itx) (n : N) (v : Z) : bool := bytes_eqb u [x51].
Definition ex_conf_a : confirmation := mkconf ex_path_a 1 ex_block.
Definition ex_node_a : anode := mkanode ex_tx_a (Confirmed ex_conf_a).
Definition ex_node_b : anode := mkanode ex_tx_b (Antecedents [(ex_id_a, Some ex_node_a)]).
Definition ex_pay : tx := ex_spend ex_id_b 3000.
Definition ex_spv_proof : aproof := mkaproof [ex_pay] [(ex_id_b, Some ex_node_b)].
Definition ex_roots (d : bytes) : bool := bytes_eqb d ex_root_ab.
(* transaction a is mined, transaction b is not *)
Definition ex_spv_history : list op := [InsertHeader 1 ex_block; InsertTx ex_tx_a; InsertDual ex_proof_a; InsertTx ex_tx_b].
Notation ex_validate eval := (validate ex_hash32 wrap64 eval ex_roots NegInf NegInf).

Lemma ex_spv_valid : ex_validate ex_eval ex_spv_proof = Done true.
Proof. vm_compute. reflexivity. Qed.
Lemma ex_node_in k a : node_in (ap_map ex_spv_proof) k a -> k = ex_id_b /\ a = ex_node_b \/ k = ex_id_a /\ a = ex_node_a.
Proof.
  assert (S0 : forall s, submap (ap_map ex_spv_proof) s -> s = ap_map ex_spv_proof \/ s = [(ex_id_a, Some ex_node_a)]).
  { intros s SU. induction SU as [|k' t s m' SU IH I0]; [left; reflexivity|]. right. destruct IH as [-> | ->]; destruct I0 as [E|[]].
    - unfold ex_node_b in E. congruence.
    - unfold ex_node_a in E. congruence. }
  intros (s & SU & I0). destruct (S0 s SU) as [-> | ->]; destruct I0 as [E|[]]; [left|right]; split; congruence.
Qed.
Lemma ex_spv_keyed : well_keyed ex_hash32 (ap_map ex_spv_proof).
Proof. intros k a N0. destruct (ex_node_in k a N0) as [[-> ->]|[-> ->]]; reflexivity. Qed.
Lemma ex_ids_differ : ex_id_a <> ex_id_b.
Proof. vm_compute. discriminate. Qed.
Lemma ex_spv_coherent : coherent (ap_map ex_spv_proof).
Proof.
  intros k a b A B. destruct (ex_node_in k a A) as [[-> ->]|[-> ->]], (ex_node_in _ b B) as [[E ->]|[E ->]]; try reflexivity; exfalso; apply ex_ids_differ; congruence.
Qed.
Lemma ex_spv_clear : ~ confused ex_hash32 (ap_map ex_spv_proof).
Proof.
  intros (k & a & l & b & A & B & NE & ID). destruct (ex_node_in k a A) as [[-> ->]|[-> ->]], (ex_node_in l b B) as [[-> ->]|[-> ->]]; try (apply NE; reflexivity);
    vm_compute in ID; discriminate ID.
Qed.
Lemma ex_spv_through : throughout ex_hash32 cons (fun l => l) None 40
  (fun m o => from_universe ex_hash32 ex_universe o /\ no_removal o /\ no_clash ex_hash32 m o) ex_db ex_spv_history.
Proof.
  unfold ex_spv_history.
  repeat (cbn [throughout]; split; [split; [first [exact I|exact ex_proof_a_from]|split; [exact I|first [exact I|apply no_clash_ok; vm_compute; reflexivity]]]
    | match goal with |- match ?a with _ => _ end => let v := eval vm_compute in a in change a with v; cbv beta iota end]).
  exact I.
Qed.
Lemma ex_spv_generated : exists m, ex_run ex_db ex_spv_history = Done m /\
  generate_proof true (transaction m) ex_hash32 10 [ex_pay] = Done (Some ex_spv_proof) /\
  validate ex_hash32 wrap64 ex_eval (db_knows m) NegInf NegInf ex_spv_proof = Done true /\
  generate_proof true (transaction m) ex_hash32 10 [ex_tx_a] = Done None /\
  generate_proof true (transaction m) ex_hash32 10 [ex_spend (ex_digest 200) 3000] = Done None.
Proof. eexists. split; [vm_compute; reflexivity|]. repeat (split; [vm_compute; reflexivity|]); vm_compute; reflexivity. Qed.
Lemma ex_spv_ranked : exists m, ex_run ex_db ex_spv_history = Done m /\ ranked (transaction m) 10.
Proof.
  assert (E : exists m, ex_run ex_db ex_spv_history = Done m) by (eexists; vm_compute; reflexivity). destruct E as [m E]. exists m. split; [exact E|].
  assert (T : m_txs m = [(ex_id_b, ex_tx_b); (ex_id_a, ex_tx_a)] /\ dbtx_confirmed (transaction m ex_id_a) = true).
  { vm_compute in E. assert (X : forall y, Done y = Done m -> y = m) by (intros; congruence). apply X in E. subst m. split; vm_compute; reflexivity. }
  exists (fun x => if bytes_eqb x ex_id_b then 1%nat else 0%nat). split; [intros x; destruct (bytes_eqb x ex_id_b); lia|].
  destruct T as [T CA]. intros x t i X C I0. rewrite SpvFacts.x_tx_transaction, T in X. cbn [get] in X.
  destruct (bytes_eqb x ex_id_b) eqn:B.
  - assert (t = ex_tx_b) as -> by congruence. destruct I0 as [<-|[]]. replace (bytes_eqb _ ex_id_b) with false by (vm_compute; reflexivity). lia.
  - destruct (bytes_eqb x ex_id_a) eqn:A; [|discriminate]. apply bytes_eqb_eq in A. subst x. congruence.
Qed.

(* ---------------------------------------------------------------- counterexamples *)
(* the key is not compared with the transaction: a payment that spends an output of no transaction at all *)
Definition ex_nowhere : bytes := repeat xff 32.
Lemma ex_nowhere_no_id t : tx_id ex_hash32 t <> ex_nowhere.
Proof.
  unfold tx_id, ex_hash32, ex_nowhere. intros E. assert (Q : n2b (fold_left (fun a b => (a * 33 + b2n b + 1) mod 251) (tx_write t) 7) = xff) by (cbn [repeat] in E; congruence).
  assert (L : fold_left (fun a b => (a * 33 + b2n b + 1) mod 251) (tx_write t) 7 < 251).
  { assert (G : forall l z, z < 251 -> fold_left (fun a b => (a * 33 + b2n b + 1) mod 251) l z < 251).
    { induction l as [|b l IH]; intros z Z; [exact Z|]. cbn [fold_left]. apply IH, N.mod_lt. discriminate. }
    apply G. reflexivity. }
  apply (f_equal b2n) in Q. rewrite b2n_n2b, N.mod_small in Q by lia. rewrite Q in L. vm_compute in L. discriminate L.
Qed.
Lemma forged : exists p t, ex_validate ex_eval p = Done true /\ In t (ap_payment p) /\ coherent (ap_map p) /\
  ~ genuine ex_hash32 wrap64 ex_eval ex_roots NegInf t PosInf.
Proof.
  exists (mkaproof [ex_spend ex_nowhere 5000] [(ex_nowhere, Some ex_node_a)]), (ex_spend ex_nowhere 5000).
  split; [vm_compute; reflexivity|]. split; [left; reflexivity|]. split.
  - assert (S0 : forall s, submap [(ex_nowhere, Some ex_node_a)] s -> s = [(ex_nowhere, Some ex_node_a)]).
    { intros s SU. induction SU as [|k' t s m' SU IH I0]; [reflexivity|]. subst s. destruct I0 as [E|[]]. unfold ex_node_a in E. congruence. }
    intros k a b (s & SA & A) (s' & SB & B). cbn [ap_map] in *. rewrite (S0 _ SA) in A. rewrite (S0 _ SB) in B. destruct A as [A|[]], B as [B|[]]. congruence.
  - intros G. inversion G as [|? os L F A]; subst. destruct (A 0%nat _ eq_refl) as (a & time & o & _ & ID & _). exact (ex_nowhere_no_id _ ID).
Qed.
(* one output is spent twice, by one transaction and by two *)
Definition ex_twice_input : input := {| in_ref := {| op_digest := ex_id_a; op_index := 0 |}; in_script := [x51]; in_seq := 7 |}.
Definition ex_double : tx := {| tx_version := 2; tx_inputs := [ex_twice_input; ex_twice_input]; tx_outputs := [{| out_value := 9000; out_script := [x51] |}]; tx_locktime := 0 |}.
Lemma double_spend : ex_validate ex_eval (mkaproof [ex_double] [(ex_id_a, Some ex_node_a)]) = Done true /\
  map in_ref (tx_inputs ex_double) = [{| op_digest := ex_id_a; op_index := 0 |}; {| op_digest := ex_id_a; op_index := 0 |}] /\
  map out_value (tx_outputs ex_tx_a) = [5000%Z] /\ map out_value (tx_outputs ex_double) = [9000%Z] /\ tx_valid ex_double = Ret true /\
  ex_validate ex_eval (mkaproof [ex_spend ex_id_a 4000; ex_spend ex_id_a 4001] [(ex_id_a, Some ex_node_a)]) = Done true.
Proof. repeat (split; [vm_compute; reflexivity|]); vm_compute; reflexivity. Qed.
(* proofs of nothing and of transactions that are not valid *)
Lemma nothing : ex_validate ex_eval empty_proof = Done true /\
  (let t := {| tx_version := 2; tx_inputs := []; tx_outputs := []; tx_locktime := 0 |} in tx_valid t = Ret false /\ ex_validate ex_eval (mkaproof [t] []) = Done true).
Proof. repeat (split; [vm_compute; reflexivity|]); vm_compute; reflexivity. Qed.
(* amounts that overflow *)
Definition ex_huge : tx :=
  {| tx_version := 2; tx_inputs := [ex_twice_input];
     tx_outputs := [{| out_value := 4611686018427387904; out_script := [x51] |}; {| out_value := 4611686018427387904; out_script := [x51] |}]; tx_locktime := 0 |}.
Lemma overflow : ex_validate ex_eval (mkaproof [ex_huge] [(ex_id_a, Some ex_node_a)]) = Done true /\
  (total (map out_value (tx_outputs ex_huge)) = 9223372036854775808)%Z /\ total (map out_value (tx_outputs ex_tx_a)) = 5000%Z.
Proof. repeat (split; [vm_compute; reflexivity|]); vm_compute; reflexivity. Qed.
(* the second input from an unconfirmed transaction is checked by the old rules *)
Definition ex_out (v : Z) : output := {| out_value := v; out_script := [x51] |}.
Definition ex_split : tx := {| tx_version := 2; tx_inputs := [ex_twice_input]; tx_outputs := [ex_out 2000; ex_out 2000]; tx_locktime := 0 |}.
Definition ex_id_split : bytes := tx_id ex_hash32 ex_split.
Definition ex_join : tx :=
  {| tx_version := 2; tx_inputs := [{| in_ref := {| op_digest := ex_id_split; op_index := 0 |}; in_script := [x51]; in_seq := 7 |};
                                    {| in_ref := {| op_digest := ex_id_split; op_index := 1 |}; in_script := [x51]; in_seq := 7 |}];
     tx_outputs := [ex_out 3000]; tx_locktime := 0 |}.
Definition ex_join_proof : aproof := mkaproof [ex_join] [(ex_id_split, Some (mkanode ex_split (Antecedents [(ex_id_a, Some ex_node_a)])))].
Lemma rules : validate ex_hash32 wrap64 ex_eval ex_roots (At 0) (At 1) ex_join_proof = Done false /\
  validate ex_hash32 wrap64 ex_eval ex_roots PosInf (At 1) ex_join_proof = Done true.
Proof. split; vm_compute; reflexivity. Qed.
(* a confirmation with another header than the one in the database; it decides which rules are used *)
Definition ex_later : header :=
  {| h_version := 1; h_previous := zero_digest; h_merkle_root := ex_root_ab; h_timestamp := 9; h_target := compact_max; h_nonce := 1 |}.
Lemma other_header : exists m, ex_run ex_db ex_spv_history = Done m /\ header_by m (h_merkle_root ex_later) = Some (1, ex_block) /\ h_timestamp ex_block = 1 /\ h_timestamp ex_later = 9 /\
  validate ex_hash32 wrap64 ex_eval (db_knows m) NegInf (At 5) (mkaproof [ex_tx_b] [(ex_id_a, Some (mkanode ex_tx_a (Confirmed (mkconf ex_path_a 1 ex_block))))]) = Done false /\
  validate ex_hash32 wrap64 ex_eval (db_knows m) NegInf (At 5) (mkaproof [ex_tx_b] [(ex_id_a, Some (mkanode ex_tx_a (Confirmed (mkconf ex_path_a 7 ex_later))))]) = Done true.
Proof. eexists. split; [vm_compute; reflexivity|]. repeat (split; [vm_compute; reflexivity|]); vm_compute; reflexivity. Qed.
(* a null pointer *)
Lemma null_pointer : ex_validate ex_eval (mkaproof [ex_pay] [(ex_id_b, None)]) = Bad.
Proof. vm_compute. reflexivity. Qed.
(* an antecedent that is checked in one place is not checked in another *)
Definition ex_unchecked : aproof :=
  mkaproof [ex_pay; ex_spend (ex_digest 9) 3000] [(ex_id_b, Some ex_node_b); (ex_digest 9, Some (mkanode (ex_spend ex_id_b 3500) (Antecedents [(ex_id_b, Some (mkanode ex_tx_b (Antecedents [])))])))].
Lemma unchecked : ex_validate ex_eval ex_unchecked = Done true /\
  ex_validate ex_eval (mkaproof [ex_spend (ex_digest 9) 3000] (ap_map ex_unchecked)) = Done false.
Proof. split; vm_compute; reflexivity. Qed.

(* ---------------------------------------------------------------- extended transactions *)
Definition ex_two : tx :=
  {| tx_version := 2; tx_inputs := [ex_twice_input; {| in_ref := {| op_digest := ex_id_b; op_index := 0 |}; in_script := [x51; x51]; in_seq := 8 |}];
     tx_outputs := [ex_out 8000]; tx_locktime := 0 |}.
Lemma extend_reverses : exists m x, ex_run ex_db ex_spv_history = Done m /\ extend (transaction m) ex_two = Done (Some x) /\
  map xi_input (xt_inputs x) = rev (tx_inputs ex_two) /\ xtx_plain x <> ex_two /\ tx_id ex_hash32 (xtx_plain x) <> tx_id ex_hash32 ex_two.
Proof.
  do 2 eexists. split; [vm_compute; reflexivity|]. split; [vm_compute; reflexivity|]. split; [vm_compute; reflexivity|]. split; [|vm_compute; discriminate].
  intros E. apply (f_equal (fun t => map in_seq (tx_inputs t))) in E. vm_compute in E. discriminate E.
Qed.
Lemma extend_example : exists m x, ex_run ex_db ex_spv_history = Done m /\ extend (transaction m) ex_tx_b = Done (Some x) /\ xtx_plain x = ex_tx_b /\
  extend (transaction m) ex_tx_a = Done None /\
  extend (transaction m) {| tx_version := 2; tx_inputs := [{| in_ref := {| op_digest := ex_id_a; op_index := 1 |}; in_script := []; in_seq := 7 |}]; tx_outputs := []; tx_locktime := 0 |} = Bad.
Proof. do 2 eexists. split; [vm_compute; reflexivity|]. repeat (split; [vm_compute; reflexivity|]); vm_compute; reflexivity. Qed.
(* ---------------------------------------------------------------- comparison *)
Lemma equal_confirmations : let c := mkconf (mkpath 0 []) 1 ex_block in
  conf_eqb ex_conf_a c = true /\ path_valid ex_hash32 ex_tx_a (c_path ex_conf_a) ex_block = true /\ path_valid ex_hash32 ex_tx_a (c_path c) ex_block = false.
Proof. cbv zeta. repeat (split; [vm_compute; reflexivity|]); vm_compute; reflexivity. Qed.
Lemma ordering_example : let a := (ex_id_a, Antecedents []) in let b := (ex_id_b, Antecedents [(ex_id_a, Some ex_node_a)]) in
  ordering a b = Some (Some Lt) /\ ordering b a = Some (Some Gt) /\ ordering a (ex_digest 9, Antecedents []) = Some None.
Proof. cbv zeta. repeat (split; [vm_compute; reflexivity|]); vm_compute; reflexivity. Qed.

(* ---------------------------------------------------------------- amounts *)
Lemma funded_exact ovf t os : Forall amount (map out_value (tx_outputs t)) -> Forall amount (map out_value os) ->
  N.of_nat (length (tx_outputs t)) <= 4392 -> N.of_nat (length os) <= 4392 ->
  (funded ovf t os <-> (total (map out_value (tx_outputs t)) <= total (map out_value os))%Z).
Proof.
  intros A B LA LB. unfold funded.
  assert (X : forall l z, fold_left (satoshi_add ovf) l z = fold_left (fun x v => satoshi_add ovf v x) l z).
  { induction l as [|v l IH]; intros z; [reflexivity|]. cbn [fold_left]. rewrite satoshi_comm. apply IH. }
  rewrite !X. destruct (sum_exact ovf _ A) as [-> _]; [rewrite map_length; exact LA|]. destruct (sum_exact ovf _ B) as [-> _]; [rewrite map_length; exact LB|]. reflexivity.
Qed.
