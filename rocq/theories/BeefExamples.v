(* Sample data and counterexamples for BEEF. *)
From Coq Require Import Lia ZifyBool ZifyNat ZifyN.
From Verif Require Import Base BaseProofs WireModel WireSpec MerkleModel MerkleSpec MerkleExamples BumpModel BumpSpec BumpFacts BumpExamples
  ScriptModel MachineModel SighashModel BeefModel BeefSpec BeefProofs.
Local Open Scope N_scope.

Definition ex_spend (d : bytes) (v : Z) : tx :=
  {| tx_version := 2; tx_inputs := [{| in_ref := {| op_digest := d; op_index := 0 |}; in_script := [x51]; in_seq := 7 |}];
     tx_outputs := [{| out_value := v; out_script := [x51] |}]; tx_locktime := 0 |}.
Definition ex_tx_a : tx := ex_spend (repeat x11 32) 5000.
Definition ex_id_a : bytes := tx_id ex_hash32 ex_tx_a.
Definition ex_tx_b : tx := ex_spend ex_id_a 4000.
Definition ex_bump_a : bump := mkbump 9 [[mknode 0 flag_client (Some ex_id_a); mknode 1 flag_intermediate (Some (ex_digest 4))]].
Definition ex_root_a : bytes := ex_hash32 (ex_id_a ++ ex_digest 4).
Definition ex_beef : beef := mkbeef beef_version_1 [ex_bump_a] [mkbtx ex_tx_a (Some 0); mkbtx ex_tx_b None].
Definition ex_known (d : bytes) : bool := bytes_eqb d ex_root_a.

Lemma ex_bump_a_sorted : Forall sorted (bp_path ex_bump_a).
Proof. constructor; [asc|constructor]. Qed.
Lemma ex_beef_wf : beef_wf ex_beef.
Proof.
  split; [reflexivity|]. split.
  - split; [reflexivity|]. constructor; [|constructor]. split; [|exact ex_bump_a_sorted].
    split; [reflexivity|]. split; [reflexivity|]. constructor; [|constructor]. split; [reflexivity|].
    constructor; [|constructor; [|constructor]]; (split; [reflexivity|]); (split; [vm_compute; reflexivity|discriminate]).
  - split; [reflexivity|]. constructor; [|constructor; [|constructor]]; repeat (constructor; try easy).
Qed.
Lemma ex_beef_validates : beef_validate ex_hash32 keep_both ex_known ex_beef = Ret true /\
  beef_validate ex_hash32 keep_both (fun _ => false) ex_beef = Ret false.
Proof. split; vm_compute; reflexivity. Qed.
Lemma ex_beef_placed : placed ex_hash32 keep_both None ex_beef.
Proof.
  split.
  - intros x [<-|[]]. split.
    + unfold tidy. cbn [ex_bump_a bp_path tidy_from]. pose proof ex_bump_a_sorted as F. inversion F; subst.
      split; [assumption|]. split; [intros ? _ []|exact I].
    + exists ex_root_a. split; [vm_compute; reflexivity|vm_compute; discriminate].
  - intros t i [<-|[<-|[]]] E; [|discriminate]. assert (i = 0) as -> by (cbn in E; congruence). exists ex_bump_a.
    eexists. exists (mkpath 0 [Some (ex_digest 4)]). split; [reflexivity|]. split; [vm_compute; reflexivity|]. left. vm_compute. reflexivity.
Qed.
Lemma keep_none_picks : @dup_picks path None.
Proof. exact I. Qed.

(* the flag byte 2 reads like 1 *)
Lemma flag_two : forall ins t i, tx_wf t -> u64 i -> exists b c, b <> c /\
  beef_of_bytes ins b = beef_of_bytes ins c /\ beef_of_bytes ins b = Some (mkbeef beef_version_1 [] [mkbtx t (Some i)]).
Proof.
  intros ins t i W U.
  exists (le 4 beef_version_1 ++ [x00] ++ [x01] ++ (tx_write t ++ x01 :: var_int_write i)), (le 4 beef_version_1 ++ [x00] ++ [x01] ++ (tx_write t ++ x02 :: var_int_write i)).
  assert (R : forall f, f <> x00 -> beef_of_bytes ins (le 4 beef_version_1 ++ [x00] ++ [x01] ++ (tx_write t ++ f :: var_int_write i)) =
    Some (mkbeef beef_version_1 [] [mkbtx t (Some i)])).
  { intros f F. apply beef_reads_exact. eexists. exists []. split; [rewrite app_nil_r; reflexivity|]. constructor; cbn [bf_version bf_bumps bf_txs].
    - split; reflexivity.
    - apply (qf _ [] [x00] []); [apply cf_1; [reflexivity|reflexivity]|constructor].
    - rewrite <- (app_nil_r (tx_write t ++ f :: var_int_write i)). apply (qf _ [mkbtx t (Some i)] [x01] [tx_write t ++ f :: var_int_write i]).
      + apply cf_1; [reflexivity|reflexivity].
      + constructor; [|constructor]. apply bt_with with i; [reflexivity|exact F| |].
        * cbn [bt_tx]. apply (WireProofs.parses_write _ _ _ _ WireProofs.parses_tx WireProofs.codec_tx). exact W.
        * apply (WireProofs.parses_write _ _ _ _ WireProofs.parses_count WireProofs.codec_var_int). exact U. }
  split; [|split].
  - intros E. apply app_inv_head in E. apply app_inv_head in E. apply app_inv_head in E. apply app_inv_head in E. discriminate E.
  - rewrite !R by discriminate. reflexivity.
  - apply R. discriminate.
Qed.

Lemma list_eqb_refl {A} (eqb : A -> A -> bool) l : (forall x, eqb x x = true) -> list_eqb eqb l l = true.
Proof. intros R. induction l as [|x l IH]; [reflexivity|]. cbn. rewrite R. exact IH. Qed.
Lemma btx_eqb_refl : forall t, btx_eqb t t = true.
Proof.
  intros [[v i o l] x]. unfold btx_eqb, tx_eqb. cbn. rewrite Z.eqb_refl, N.eqb_refl.
  rewrite (list_eqb_refl input_eqb); [|intros [[d k] s q]; unfold input_eqb, outpoint_eqb; cbn; rewrite !N.eqb_refl, !(proj2 (bytes_eqb_eq _ _) eq_refl); reflexivity].
  rewrite (list_eqb_refl output_eqb); [|intros [w s]; unfold output_eqb; cbn; rewrite Z.eqb_refl, (proj2 (bytes_eqb_eq _ _) eq_refl); reflexivity].
  destruct x; cbn; [apply N.eqb_refl|reflexivity].
Qed.
Lemma version_not_compared : forall eqb, (forall x, eqb x x = true) -> forall v w b t, beef_eqb eqb (mkbeef v b t) (mkbeef w b t) = true.
Proof. intros eqb R v w b t. unfold beef_eqb. cbn. rewrite (list_eqb_refl eqb), (list_eqb_refl btx_eqb); [reflexivity|exact btx_eqb_refl|exact R]. Qed.

(* no BUMP at all *)
Lemma forged : forall H ins known t i, tx_valid t = Ret true -> beef_validate H ins known (mkbeef beef_version_1 [] [mkbtx t (Some i)]) = Ret true.
Proof. intros H ins known t i V. unfold beef_validate, beef_valid. cbn. rewrite V. reflexivity. Qed.
(* nor does it matter which BUMP is named *)
Lemma index_ignored : forall H ins known v b l f, beef_validate H ins known (mkbeef v b (map (reindex f) l)) = beef_validate H ins known (mkbeef v b l).
Proof.
  intros H ins known v b l f.
  assert (V : beef_valid H (mkbeef v b (map (reindex f) l)) = beef_valid H (mkbeef v b l)).
  { unfold beef_valid. cbn [bf_version bf_bumps bf_txs].
    assert (T : txs_valid (map (reindex f) l) = txs_valid l) by (induction l as [|t r IH]; cbn; [reflexivity|]; rewrite IH; reflexivity).
    assert (O : forall seen, order_valid H seen (map (reindex f) l) = order_valid H seen l).
    { clear. induction l as [|t r IH]; intros seen; cbn; [reflexivity|]. rewrite IH. destruct (bt_index t); reflexivity. }
    rewrite T, O. destruct l; reflexivity. }
  unfold beef_validate. rewrite V. reflexivity.
Qed.
(* a BUMP without a root switches the check of all others off *)
Lemma rootless : forall H ins known v before after t,
  (forall x, In x before -> exists d, bump_root H ins x = Ret d /\ d <> zero_digest) ->
  beef_valid H (mkbeef v (before ++ after) t) = Ret true ->
  exists x, bump_valid x = true /\ beef_validate H ins known (mkbeef v (before ++ x :: after) t) = Ret true.
Proof.
  intros H ins known v before after t R V. exists (mkbump 1 [[]]). split; [reflexivity|]. apply validate_exact. split.
  - apply beef_valid_iff in V as (A & B & C & D & E). cbn [bf_version bf_bumps bf_txs] in *. apply beef_valid_iff. cbn [bf_version bf_bumps bf_txs].
    split; [exact A|]. split; [exact B|]. split; [exact C|]. split; [|exact E].
    intros x I. apply in_app_or in I as [I|[<-|I]]; [apply D; apply in_or_app; auto|reflexivity|apply D; apply in_or_app; auto].
  - right. exists before, (mkbump 1 [[]]), after. split; [reflexivity|]. split; [reflexivity|exact R].
Qed.
