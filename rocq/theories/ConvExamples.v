(* Sample data and counterexamples for conversions between BEEF and SPV proofs. *)
From Coq Require Import Lia ZifyBool ZifyNat ZifyN.
From Verif Require Import Base BaseProofs WireModel MerkleModel MerkleSpec MerkleExamples BumpModel BumpFacts BumpSpec WorkModel ScriptModel MachineModel SighashModel BeefModel BeefSpec BeefExamples ExtModel
  SpvModel SpvSpec SpvProofs SpvExamples AncModel AncSpec AncProofs AncGenerate AncDb AncExamples ConvModel ConvSpec ConvProofs ConvWrite.
Local Open Scope N_scope.

Definition ex_heights (n : N) : option header := if n =? 1 then Some ex_block else None.
(* the BEEF with the transactions a, b and one that spends from b *)
Definition ex_bump_block : bump := mkbump 1 [[mknode 0 flag_client (Some ex_id_a); mknode 1 flag_intermediate (Some ex_id_b)]].
Definition ex_conv_beef : beef := mkbeef beef_version_1 [ex_bump_block] [mkbtx ex_tx_a (Some 0); mkbtx ex_tx_b None; mkbtx ex_pay None].
Lemma ex_conv_reads : read_proof ex_hash32 keep_both None None ex_heights ex_conv_beef = Ret ex_spv_proof /\ write_proof keep_both ex_spv_proof = Some ex_conv_beef.
Proof. split; vm_compute; reflexivity. Qed.
Lemma ex_conv_readable : readable ex_hash32 keep_both None None ex_heights ex_conv_beef.
Proof.
  split; [|split; [|split]].
  - intros x [<-|[]]. eexists. vm_compute. reflexivity.
  - vm_compute. repeat constructor; cbn [In]; intuition discriminate.
  - intros x t y E K i I0. destruct x as [|u [|v [|w [|]]]]; cbn [app ex_conv_beef bf_txs] in E.
    + assert (t = mkbtx ex_tx_a (Some 0)) as -> by congruence. discriminate K.
    + assert (u = mkbtx ex_tx_a (Some 0) /\ t = mkbtx ex_tx_b None) as [-> ->] by (split; congruence). destruct I0 as [<-|[]]. exists (mkbtx ex_tx_a (Some 0)). split; [left; reflexivity|reflexivity].
    + assert (v = mkbtx ex_tx_b None /\ t = mkbtx ex_pay None) as [-> ->] by (split; congruence). destruct I0 as [<-|[]]. exists (mkbtx ex_tx_b None). split; [right; left; reflexivity|reflexivity].
    + discriminate E.
    + discriminate E.
  - intros t i [<-|[<-|[<-|[]]]] K; try discriminate K. assert (i = 0) as -> by (cbn [bt_index] in K; congruence). exists ex_conf_a.
    exists ex_bump_block. eexists. exists ex_block, ex_path_a. split; [reflexivity|]. split; [vm_compute; reflexivity|]. split; [reflexivity|]. split; [left; vm_compute; reflexivity|reflexivity].
Qed.
Lemma ex_spv_submap s : submap (ap_map ex_spv_proof) s -> s = ap_map ex_spv_proof \/ s = [(ex_id_a, Some ex_node_a)].
Proof.
  intros SU. induction SU as [|k' t s m' SU IH I0]; [left; reflexivity|]. right. destruct IH as [-> | ->]; destruct I0 as [E|[]].
  - unfold ex_node_b in E. congruence.
  - unfold ex_node_a in E. congruence.
Qed.
Lemma one_key k v l : (forall x, (exists i, In i l /\ op_digest (in_ref i) = x) <-> x = k) -> keys_match [(k, v)] l.
Proof.
  intros A x. cbn [get]. rewrite A. destruct (bytes_eqb x k) eqn:E.
  - apply bytes_eqb_eq in E. split; [intros _; exact E|discriminate].
  - split; [congruence|]. intros ->. rewrite (proj2 (bytes_eqb_eq k k) eq_refl) in E. discriminate.
Qed.
Lemma ex_spv_tight : tight ex_spv_proof.
Proof.
  split; [|split].
  - apply one_key. intros x. split; [intros (i & [<-|[]] & E); symmetry; exact E|]. intros ->. eexists. split; [left; reflexivity|reflexivity].
  - intros k t m NA. destruct (ex_node_in _ _ NA) as [[_ E]|[_ E]]; unfold ex_node_a, ex_node_b in E; [|discriminate].
    assert (t = ex_tx_b /\ m = [(ex_id_a, Some ex_node_a)]) as [-> ->] by (split; congruence).
    apply one_key. intros x. split; [intros (i & [<-|[]] & E0); symmetry; exact E0|]. intros ->. eexists. split; [left; reflexivity|reflexivity].
  - intros s k v SU I0. destruct (ex_spv_submap s SU) as [-> | ->]; destruct I0 as [E|[]]; congruence.
Qed.
Lemma ex_spv_separate : separate ex_hash32 ex_spv_proof.
Proof.
  split; [repeat constructor; intros []|]. intros t a [<-|[]] NA. destruct (ex_node_in _ _ NA) as [[E _]|[E _]]; vm_compute in E; discriminate E.
Qed.
Lemma ex_spv_lone : lone_confirmations ex_heights ex_spv_proof.
Proof.
  split.
  - intros k t c NA. destruct (ex_node_in _ _ NA) as [[_ E]|[_ E]]; unfold ex_node_a, ex_node_b in E; [discriminate|].
    assert (c = ex_conf_a) as -> by congruence. split; [reflexivity|]. split; [discriminate|]. split; [repeat constructor; discriminate|]. split; reflexivity.
  - intros k t c k' t' c' A B _. destruct (ex_node_in _ _ A) as [[-> E]|[-> E]], (ex_node_in _ _ B) as [[-> E']|[-> E']]; unfold ex_node_b in *; try reflexivity; discriminate.
Qed.
Lemma ex_spv_faithful : faithful ex_hash32 keep_both None None ex_heights ex_conv_beef ex_spv_proof.
Proof.
  split; [exact (proj1 ex_conv_readable)|]. intros k t c i NA U. destruct (ex_node_in _ _ NA) as [[_ E]|[_ E]]; unfold ex_node_a, ex_node_b in E; [discriminate|].
  assert (c = ex_conf_a /\ t = ex_tx_a) as [-> ->] by (split; congruence).
  assert (i = 0) as -> by (destruct U as [U|[U|[U|[]]]]; apply (f_equal bt_index) in U; cbn [bt_index] in U; congruence). clear U. exists ex_bump_block. eexists. exists ex_block, ex_path_a.
  split; [reflexivity|]. split; [vm_compute; reflexivity|]. split; [reflexivity|]. split; [left; vm_compute; reflexivity|reflexivity].
Qed.

(* ---------------------------------------------------------------- counterexamples *)
(* a BEEF that cannot be read gives a proof that is valid: a block that is not known, an input that is not there *)
Lemma failed_read : forall unset upgrade, let valid p := validate ex_hash32 wrap64 ex_eval ex_roots unset upgrade p in
  read_proof ex_hash32 keep_both None None (fun _ => None) ex_conv_beef = Ret empty_proof /\
  read_proof ex_hash32 keep_both None None ex_heights (mkbeef beef_version_1 [ex_bump_block] [mkbtx ex_tx_a (Some 0); mkbtx ex_pay None]) = Ret empty_proof /\
  valid empty_proof = Done true.
Proof. intros unset upgrade. split; [vm_compute; reflexivity|]. split; vm_compute; reflexivity. Qed.
(* an index that is out of range *)
Lemma wild_index : read_proof ex_hash32 keep_both None None ex_heights (mkbeef beef_version_1 [ex_bump_block] [mkbtx ex_tx_a (Some 1)]) = Undef /\
  beef_valid ex_hash32 (mkbeef beef_version_1 [ex_bump_block] [mkbtx ex_tx_a (Some 1)]) = Ret true.
Proof. split; vm_compute; reflexivity. Qed.
(* payments that spend from each other *)
Definition ex_chain : aproof := mkaproof [ex_tx_b; ex_pay] [(ex_id_a, Some ex_node_a); (ex_id_b, Some ex_node_b)].
Lemma chain_lost : validate ex_hash32 wrap64 ex_eval ex_roots NegInf NegInf ex_chain = Done true /\
  exists b, write_proof keep_both ex_chain = Some b /\ map bt_tx (bf_txs b) = [ex_tx_a; ex_tx_b; ex_tx_b; ex_pay] /\
    beef_valid ex_hash32 b = Ret false /\ read_proof ex_hash32 keep_both None None ex_heights b = Throw tt.
Proof. split; [vm_compute; reflexivity|]. eexists. split; [vm_compute; reflexivity|]. split; [reflexivity|]. split; vm_compute; reflexivity. Qed.
Lemma chain_generated : exists m, ex_run ex_db ex_spv_history = Done m /\ generate_proof true (transaction m) ex_hash32 10 [ex_pay; ex_tx_b] =
  Done (Some (mkaproof [ex_tx_b; ex_pay] [(ex_id_b, Some ex_node_b); (ex_id_a, Some ex_node_a)])).
Proof. eexists. split; [vm_compute; reflexivity|]. vm_compute. reflexivity. Qed.
(* a block with one transaction *)
Definition ex_alone : aproof := mkaproof [ex_tx_b] [(ex_id_a, Some (mkanode ex_tx_a (Confirmed (mkconf (mkpath 0 []) 1 (ex_header ex_id_a 1)))))].
Lemma alone_lost : validate ex_hash32 wrap64 ex_eval (bytes_eqb ex_id_a) NegInf NegInf ex_alone = Done true /\
  exists b, write_proof keep_both ex_alone = Some b /\ bf_bumps b = [mkbump 1 []] /\
    read_proof ex_hash32 keep_both None None (fun _ => Some (ex_header ex_id_a 1)) b = Undef.
Proof. split; [vm_compute; reflexivity|]. eexists. split; [vm_compute; reflexivity|]. split; vm_compute; reflexivity. Qed.
(* three transactions of one block *)
Definition ex_leaf_tx (n : N) : tx := ex_spend (ex_digest n) 5000.
Definition ex_leaf_id (n : N) : bytes := BeefModel.tx_id ex_hash32 (ex_leaf_tx n).
Definition ex_three_root : bytes := ex_hash32 (ex_hash32 (ex_leaf_id 1 ++ ex_leaf_id 2) ++ ex_hash32 (ex_leaf_id 3 ++ ex_leaf_id 4)).
Definition ex_three_header : header := ex_header ex_three_root 1.
Definition ex_three_tx : tx :=
  {| tx_version := 2; tx_inputs := map (fun n => {| in_ref := {| op_digest := ex_leaf_id n; op_index := 0 |}; in_script := [x51]; in_seq := 7 |}) [3; 1; 2];
     tx_outputs := [{| out_value := 9000; out_script := [x51] |}]; tx_locktime := 0 |}.
Definition ex_three_node (n : N) (p : path) : bytes * option anode := (ex_leaf_id n, Some (mkanode (ex_leaf_tx n) (Confirmed (mkconf p 1 ex_three_header)))).
Definition ex_three_proof : aproof := mkaproof [ex_three_tx]
  [ex_three_node 3 (mkpath 2 [Some (ex_leaf_id 4); Some (ex_hash32 (ex_leaf_id 1 ++ ex_leaf_id 2))]);
   ex_three_node 1 (mkpath 0 [Some (ex_leaf_id 2); Some (ex_hash32 (ex_leaf_id 3 ++ ex_leaf_id 4))]);
   ex_three_node 2 (mkpath 1 [Some (ex_leaf_id 1); Some (ex_hash32 (ex_leaf_id 3 ++ ex_leaf_id 4))])].
Notation ex_three_read ins := (match write_proof ins ex_three_proof with Some b => read_proof ex_hash32 ins None None (fun _ => Some ex_three_header) b | None => Ret ex_three_proof end).
Lemma three_lost : validate ex_hash32 wrap64 ex_eval (bytes_eqb ex_three_root) NegInf NegInf ex_three_proof = Done true /\
  ex_three_read keep_both = Undef /\ ex_three_read keep_old = Throw tt /\ ex_three_read keep_new = Throw tt.
Proof. repeat (split; [vm_compute; reflexivity|]); vm_compute; reflexivity. Qed.
