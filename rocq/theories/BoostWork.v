From Coq Require Import Lia ZifyBool ZifyNat ZifyN.
From Verif Require Import Base BaseProofs ScriptModel ScriptSpec WireModel WireSpec WireProofs ScriptProofs NumModel NumSpec NumProofs MerkleModel WorkModel.
From Verif Require Import PatternModel PatternSpec PatternProofs PatternTemplates BoostModel BoostSpec BoostProofs BoostWrite BoostInput.
Local Open Scope N_scope.

Lemma btype_eqb_eq a b : btype_eqb a b = true <-> a = b.
Proof. destruct a, b; cbn; split; congruence. Qed.
Lemma differ a b : a <> b -> bytes_eqb a b = false.
Proof. intros D. destruct (bytes_eqb a b) eqn:E; [apply bytes_eqb_eq in E; contradiction|reflexivity]. Qed.
Lemma land_neg1 z : Z.land z (-1) = z.
Proof. apply Z.land_m1_r. Qed.

Definition full_proof (o : output) (i : input) : bproof :=
  {| bp_work := proof_of_job {| jb_puzzle := puzzle_of o (miner_hash o i); jb_extra1 := bi_extra1 i |}
       {| sh_timestamp := bi_timestamp i; sh_nonce := bi_nonce i; sh_extra2 := bi_extra2 i; sh_bits := bi_bits i |};
     bp_type := bo_type o; bp_sig := bi_sig i; bp_key := bi_key i |}.
Lemma proof_paired o i : paired o i -> proof_of o i = full_proof o i.
Proof.
  intros (T & E & B). unfold proof_of, full_proof, miner_hash. rewrite (proj2 (btype_eqb_eq _ _) E). unfold has_bits in B.
  replace (is_invalid (bo_type o)) with false by (destruct (bo_type o); [contradiction|reflexivity|reflexivity]). cbn [orb negb]. rewrite B.
  destruct (bi_bits i); reflexivity.
Qed.
Lemma proof_unpaired o i : ~ paired o i -> proof_of o i = no_proof.
Proof.
  intros N. unfold proof_of, paired, has_bits in *. destruct (bo_type o); [reflexivity| |]; cbn [is_invalid orb]; destruct (bi_type i); cbn [btype_eqb negb]; try reflexivity;
    destruct (bo_bits o), (bi_bits i); try reflexivity; exfalso; apply N; repeat split; congruence.
Qed.
Lemma paired_dec o i : paired o i \/ ~ paired o i.
Proof.
  unfold paired. destruct (bo_type o), (bi_type i); try (right; intros (A & B & C); congruence);
    destruct (bo_bits o), (has_bits i); try (right; intros (A & B & C); congruence); left; repeat split; congruence.
Qed.

Section Hashes.
Variable H : bytes -> bytes.
Variable H160 : bytes -> bytes.

Lemma no_proof_invalid : bproof_valid H no_proof = false.
Proof.
  unfold bproof_valid, wproof_valid, string_valid. change (expand (h_target (wproof_string H (bp_work no_proof)))) with 0.
  replace (string_hash H _ <? 0) with false by lia. apply andb_false_r.
Qed.
Theorem work_header o i : paired o i ->
  meta (bp_work (proof_of o i)) = boost_document o i (miner_hash o i) /\
  header_write (wproof_string H (bp_work (proof_of o i))) = boost_header_bytes H o i (miner_hash o i).
Proof.
  intros P. rewrite proof_paired by assumption. assert (M : meta (bp_work (full_proof o i)) = boost_document o i (miner_hash o i)).
  { unfold meta, full_proof, boost_document, boost_header, boost_body. cbn [bp_work proof_of_job wp_puzzle wp_solution jb_puzzle jb_extra1 so_extra1 so_share sh_extra2 puzzle_of pz_header pz_body boost_header boost_body].
    unfold boost_header. now rewrite <- !app_assoc. }
  split; [exact M|]. unfold header_write, boost_header_bytes, wproof_string, wproof_root. rewrite M.
  unfold full_proof. cbn [bp_work proof_of_job wp_puzzle wp_solution jb_puzzle jb_extra1 so_extra1 so_share sh_extra2 sh_timestamp sh_nonce puzzle_of pz_header pz_body pz_candidate pz_mask ca_category ca_digest ca_target ca_path h_version h_previous h_merkle_root h_timestamp h_target h_nonce].
  change (derive_root H (mkpath 0 []) (H (boost_document o i (miner_hash o i)))) with (H (boost_document o i (miner_hash o i))).
  f_equal. f_equal. unfold share_bits, boost_version_field. cbn [sh_bits]. destruct P as (_ & _ & B). unfold has_bits in B. destruct (bi_bits i) as [g|]; rewrite B.
  - reflexivity.
  - rewrite land_neg1. apply Z.lor_0_r.
Qed.
Theorem work_valid o i : bproof_valid H (proof_of o i) = true <->
  paired o i /\ le_val (H (boost_header_bytes H o i (miner_hash o i))) < expand (bo_target o).
Proof.
  destruct (paired_dec o i) as [P|P].
  - unfold bproof_valid, wproof_valid, string_valid, string_hash. rewrite (proj2 (work_header o i P)), proof_paired by assumption.
    unfold full_proof. cbn [bp_work proof_of_job wp_puzzle jb_puzzle puzzle_of pz_mask pz_candidate wproof_string h_target ca_target].
    replace (((if bo_bits o then boost_mask else -1) =? -1)%Z || ((if bo_bits o then boost_mask else -1) =? boost_mask)%Z) with true by (destruct (bo_bits o); reflexivity).
    cbn [andb]. rewrite N.ltb_lt. tauto.
  - rewrite proof_unpaired, no_proof_invalid by assumption. split; [discriminate|tauto].
Qed.
Theorem work_puzzles o i : paired o i -> miner_hash o i <> zero20 -> wp_puzzle (bp_work (proof_of o i)) = work_puzzle o (bi_hash i).
Proof.
  intros P Z. rewrite proof_paired by assumption. unfold full_proof, work_puzzle, miner_hash, output_valid in *. cbn [bp_work proof_of_job wp_puzzle jb_puzzle].
  destruct P as (T & _). destruct (bo_type o); [contradiction| |]; cbn [is_invalid negb]; rewrite differ by assumption; reflexivity.
Qed.

(* an input made from a solution *)
Theorem mined o key sig x : (bo_type o <> Invalid) -> (match bo_type o with Contract => bo_hash o | _ => H160 key end) <> zero20 ->
  sh_timestamp (so_share x) <> 0 -> (bo_bits o = false -> sh_bits (so_share x) = None) ->
  bproof_valid H (proof_of o (from_solution H160 sig key x (bo_type o) (bo_bits o))) =
  wproof_valid H {| wp_puzzle := work_puzzle o (H160 key); wp_solution := x |}.
Proof.
  intros T Z Ts B. set (i := from_solution _ _ _ _ _ _).
  assert (I : i = {| bi_type := bo_type o; bi_sig := sig; bi_key := key; bi_nonce := sh_nonce (so_share x); bi_timestamp := sh_timestamp (so_share x);
    bi_extra2 := sh_extra2 (so_share x); bi_extra1 := so_extra1 x;
    bi_bits := if bo_bits o then Some (match sh_bits (so_share x) with Some g => g | None => 0%Z end) else None;
    bi_hash := match bo_type o with Contract => zero20 | _ => H160 key end |}).
  { unfold i, from_solution. replace (sh_timestamp (so_share x) =? 0) with false by lia.
    destruct (bo_type o); [contradiction| |]; cbn [is_invalid orb]; destruct (bo_bits o); cbn [negb andb]; try reflexivity; rewrite B by reflexivity; reflexivity. }
  assert (P : paired o i) by (rewrite I; unfold paired, has_bits; cbn [bi_type bi_bits]; destruct (bo_bits o); auto).
  assert (M : miner_hash o i = match bo_type o with Contract => bo_hash o | _ => H160 key end).
  { rewrite I. unfold miner_hash. destruct (bo_type o); [contradiction|reflexivity|reflexivity]. }
  assert (W : wproof_string H {| wp_puzzle := work_puzzle o (H160 key); wp_solution := x |} = wproof_string H (bp_work (proof_of o i))).
  { rewrite proof_paired by assumption. unfold full_proof. cbn [bp_work]. unfold proof_of_job. cbn [jb_puzzle jb_extra1].
    replace (work_puzzle o (H160 key)) with (puzzle_of o (miner_hash o i)).
    - rewrite I. unfold wproof_string, wproof_root, meta, share_bits. cbn [wp_puzzle wp_solution so_share so_extra1 sh_timestamp sh_nonce sh_extra2 sh_bits bi_nonce bi_timestamp bi_extra2 bi_extra1 bi_bits].
      f_equal. f_equal. destruct (bo_bits o); [|now rewrite B]. destruct (sh_bits (so_share x)); [reflexivity|now rewrite Z.land_0_l].
    - rewrite M. unfold work_puzzle, output_valid. destruct (bo_type o); [contradiction| |]; cbn [is_invalid negb]; rewrite differ by assumption; reflexivity. }
  unfold wproof_valid. rewrite W. unfold bproof_valid. rewrite proof_paired by assumption.
  unfold full_proof at 1 2. cbn [bp_work proof_of_job wp_puzzle jb_puzzle puzzle_of pz_mask].
  replace (((if bo_bits o then boost_mask else -1) =? -1)%Z || ((if bo_bits o then boost_mask else -1) =? boost_mask)%Z) with true by (destruct (bo_bits o); reflexivity).
  reflexivity.
Qed.

(* the way back *)
Theorem proof_input_exact o i : agreed H160 o i ->
  proof_input H160 (proof_of o i) = match bi_bits i with Some _ => i | None => with_bits i 0 end.
Proof.
  intros (P & Ts & Hh). rewrite proof_paired by assumption. assert (Q := P). destruct Q as (T & E & B). unfold proof_input, full_proof.
  cbn [bp_work proof_of_job wp_puzzle jb_puzzle puzzle_of pz_mask bp_sig bp_key bp_type wp_solution jb_extra1].
  replace (negb ((if bo_bits o then boost_mask else -1) =? 0)%Z) with true by (destruct (bo_bits o); reflexivity).
  unfold from_solution. cbn [so_share so_extra1 sh_timestamp sh_nonce sh_extra2 sh_bits]. replace (bi_timestamp i =? 0) with false by lia.
  rewrite <- E in *. unfold with_bits. destruct i as [ty sig key nonce time x2 x1 bits hash]. cbn [bi_type bi_sig bi_key bi_nonce bi_timestamp bi_extra2 bi_extra1 bi_bits bi_hash] in *.
  destruct ty; [contradiction| |]; cbn [is_invalid orb andb negb]; rewrite Hh; destruct bits; reflexivity.
Qed.
Theorem proof_input_plain o i : agreed H160 o i -> bi_bits i = None ->
  proof_input H160 (proof_of o i) <> i /\ proof_of o (proof_input H160 (proof_of o i)) = no_proof.
Proof.
  intros A N. rewrite proof_input_exact, N by assumption. split.
  - intros X. apply (f_equal bi_bits) in X. rewrite N in X. discriminate.
  - apply proof_unpaired. intros (_ & _ & B). destruct A as ((_ & _ & B') & _). unfold has_bits in *. cbn [with_bits bi_bits] in B. rewrite N in B'. congruence.
Qed.
Theorem solution_exact o i : paired o i -> input_solution i = wp_solution (bp_work (proof_of o i)) <-> bi_bits i = None.
Proof.
  intros P. rewrite proof_paired by assumption. unfold full_proof, input_solution. cbn [bp_work proof_of_job wp_solution jb_extra1].
  split; intros X; [|now rewrite X]. apply (f_equal (fun s => sh_bits (so_share s))) in X. cbn [so_share sh_bits] in X. now symmetry.
Qed.
End Hashes.

Theorem candidates_equal a b : bcandidate_eqb a b = true <-> bc_script a = bc_script b.
Proof. apply bytes_eqb_eq. Qed.

(* the estimate for redemption *)
Theorem redeem_estimate o compressed l :
  Forall (fun i => input_wf i /\ len (in_script i) = input_expected_size (bo_type o) (bo_bits o) compressed) l ->
  len (var_seq_write WireModel.input_write l) = puzzle_expected_size o compressed (N.of_nat (length l)).
Proof.
  intros F. unfold puzzle_expected_size. set (s := input_expected_size _ _ _) in *. unfold var_seq_write.
  rewrite len_app. assert (E : len (var_int_write (N.of_nat (length l))) = var_int_size (N.of_nat (length l))) by apply var_int_write_length.
  rewrite E. f_equal. clear E. induction F as [|i l (W & L) F IH]; [reflexivity|]. cbn [map concat length]. rewrite len_app, IH, input_len by assumption.
  unfold WireModel.input_size. rewrite L. lia.
Qed.
