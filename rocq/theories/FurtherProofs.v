(* Lemmas on functions that are only called by users of the library. *)
From Verif Require Import Base BaseProofs.
From Verif Require HdModel HdSpec HdKeyProofs TextSpec MerkleModel MerkleServerProofs MerkleSpec PatternModel PatternProofs.
From Verif Require SighashModel RawModel RawSpec RawProofs BeefModel BeefSpec BeefProofs WireModel ExtModel ExtSpec ExtProofs WorkModel TextModel.
From Coq Require Import Lia ZifyBool ZifyNat ZifyN.
Local Open Scope N_scope.

(* ---- targets ---- *)
Theorem success_exact :
  2 * WorkModel.expand WorkModel.success_half = 2 ^ 256 /\ 4 * WorkModel.expand WorkModel.success_quarter = 2 ^ 256 /\
  8 * WorkModel.expand WorkModel.success_eighth = 2 ^ 256 /\ 16 * WorkModel.expand WorkModel.success_sixteenth = 2 ^ 256.
Proof. repeat split; vm_compute; reflexivity. Qed.

(* ---- Merkle servers ---- *)
Theorem server_root_exact H dup l s : l <> [] -> MerkleSpec.count l <= 2147483600 ->
  MerkleModel.server_make H dup l = Some s -> MerkleModel.server_root s = Some (MerkleSpec.merkle_root H l).
Proof.
  intros Ne B E. rewrite (MerkleServerProofs.server_make_exact H dup l Ne (MerkleServerProofs.total_nodes_bound _ B)) in E.
  destruct (MerkleModel.index_all dup [] l 0) as [m|]; [|discriminate E]. cbn [option_map] in E.
  assert (s = MerkleModel.mkserver (MerkleSpec.all_nodes H l) m (MerkleSpec.count l) (N.of_nat (MerkleSpec.depth (MerkleSpec.count l)) + 1)) by congruence.
  subst s. exact (MerkleServerProofs.all_nodes_last H l Ne).
Qed.

(* ---- keys from a seed ---- *)
Theorem seed_commutes hmac h160 pub tweak : HdSpec.tweak_adds pub tweak -> HdSpec.hmac_sized hmac ->
  forall fuel l seed n, let x := HdModel.secret_from_seed hmac seed n in
  TextSpec.usable (be_val (HdModel.x_key x)) -> HdSpec.plain_path hmac h160 pub x l ->
  exists y, HdModel.derive_secret_path hmac h160 pub fuel x l = MerkleModel.Done y /\
    HdModel.derive_pubkey_path hmac h160 tweak fuel (HdModel.pubkey_from_seed hmac pub seed n) l =
    MerkleModel.Done (HdModel.to_public pub y).
Proof.
  intros T S fuel l seed n x U P. apply (HdKeyProofs.commute_path hmac h160 pub tweak T S); auto.
  unfold x, HdModel.secret_from_seed. cbv zeta. cbn [HdModel.x_key]. rewrite firstn_length, S. reflexivity.
Qed.

(* ---- patterns ---- *)
Theorem alternatives_exact neg1 fuel p v :
  PatternModel.scan neg1 fuel (PatternModel.alternatives_of []) p v = (v, PatternModel.Fail) /\
  forall a l, PatternModel.scan neg1 fuel (PatternModel.alternatives_of (a :: l)) p v =
    match PatternModel.scan neg1 fuel (PatternModel.construct a) p v with
    | (w, PatternModel.Fail) => PatternModel.scan neg1 fuel (PatternModel.alternatives_of l) p w
    | y => y
    end.
Proof.
  split; [apply PatternProofs.alt_nil|]. intros a l. unfold PatternModel.alternatives_of. cbn [map].
  rewrite PatternProofs.alt_cons. destruct (PatternModel.scan neg1 fuel (PatternModel.construct a) p v) as [w []]; reflexivity.
Qed.

(* ---- blocks in bytes ---- *)
Theorem slice_valid_exact H b : RawModel.block_slice_valid H b = Ret true <->
  exists x, RawSpec.begins WireSpec.block_form x b /\ RawModel.block_valid H x = Ret true.
Proof.
  unfold RawModel.block_slice_valid. split.
  - intros V. exists (RawModel.block_of_slice b). split; [|exact V].
    destruct (proj1 (RawProofs.block_taken b _) eq_refl) as [G|(_ & D)]; [exact G|].
    rewrite D in V. rewrite (proj2 (proj2 RawProofs.defaults_invalid)) in V. discriminate V.
  - intros (x & G & V). rewrite (proj2 (RawProofs.block_taken b x) (or_introl G)). exact V.
Qed.

(* ---- BEEF ---- *)
Theorem empty_beef_exact H ins : BeefModel.beef_valid H BeefModel.empty_beef = Ret false /\
  BeefModel.beef_of_bytes ins (BeefModel.beef_write BeefModel.empty_beef) = Some BeefModel.empty_beef.
Proof. split; vm_compute; reflexivity. Qed.

(* ---- fees ---- *)
Lemma sizes_positive l : forall s, s + 9 * N.of_nat (length l) <= fold_left (fun s o => s + WireModel.output_size o) l s.
Proof.
  induction l as [|o l IH]; intros s; cbn [fold_left length]; [lia|].
  specialize (IH (s + WireModel.output_size o)).
  assert (9 <= WireModel.output_size o).
  { unfold WireModel.output_size, WireModel.var_int_size. repeat match goal with |- context [if ?b then _ else _] => destruct b end; lia. }
  lia.
Qed.

Theorem rate_exact ovf d scripts t : ExtSpec.as_expected d scripts -> ExtModel.design_complete d scripts = Ret t ->
  ExtModel.rt_satoshis (ExtModel.xtx_rate ovf t) = ExtModel.rt_satoshis (ExtModel.design_rate ovf d) /\
  ExtModel.rt_bytes (ExtModel.xtx_rate ovf t) + WireModel.var_int_size (N.of_nat (length (ExtModel.ds_inputs d))) =
  ExtModel.rt_bytes (ExtModel.design_rate ovf d) + WireModel.var_int_size (N.of_nat (length (ExtModel.ds_outputs d))) + 6 +
    fold_left (fun s o => s + WireModel.output_size o) (map ExtModel.xi_prevout (ExtModel.xt_inputs t)) 0 /\
  ExtModel.rt_bytes (ExtModel.design_rate ovf d) < ExtModel.rt_bytes (ExtModel.xtx_rate ovf t).
Proof.
  intros A C. destruct (ExtProofs.design_sums ovf d scripts t C) as (_ & _ & F).
  pose proof (ExtProofs.design_size_exact d scripts t A C) as Z. pose proof (ExtProofs.xtx_size_plain t) as P.
  cbn [ExtModel.xtx_rate ExtModel.design_rate ExtModel.rt_satoshis ExtModel.rt_bytes].
  split; [exact F|].
  pose proof (sizes_positive (map ExtModel.xi_prevout (ExtModel.xt_inputs t)) 0) as Q.
  assert (L : length (map ExtModel.xi_prevout (ExtModel.xt_inputs t)) = length (ExtModel.ds_inputs d)).
  { rewrite map_length. unfold ExtModel.design_complete in C. destruct (Nat.eqb_spec (length scripts) (length (ExtModel.ds_inputs d))) as [E|E]; [|discriminate C].
    assert (t = {| ExtModel.xt_version := ExtModel.ds_version d; ExtModel.xt_inputs := SighashModel.map2 ExtModel.dinput_complete (ExtModel.ds_inputs d) scripts;
           ExtModel.xt_outputs := ExtModel.ds_outputs d; ExtModel.xt_locktime := ExtModel.ds_locktime d |}) by congruence.
    subst t. cbn [ExtModel.xt_inputs]. clear -E. revert scripts E.
    induction (ExtModel.ds_inputs d) as [|i l IH]; intros [|s scripts] E; try discriminate E; cbn [SighashModel.map2 length] in *; auto. }
  rewrite L in Q. set (sum := fold_left _ _ _) in *.
  assert (V : forall n, 1 <= WireModel.var_int_size n /\ WireModel.var_int_size n <= 9 /\ (n = 0 -> WireModel.var_int_size n = 1)).
  { intros n. unfold WireModel.var_int_size. repeat match goal with |- context [if ?b then _ else _] => destruct b eqn:? end; lia. }
  pose proof (V (N.of_nat (length (ExtModel.ds_inputs d)))) as (V1 & V2 & V3). pose proof (V (N.of_nat (length (ExtModel.ds_outputs d)))) as (W1 & W2 & _).
  split; [lia|]. destruct (N.eq_dec (N.of_nat (length (ExtModel.ds_inputs d))) 0) as [E|E]; [specialize (V3 E)|]; lia.
Qed.
