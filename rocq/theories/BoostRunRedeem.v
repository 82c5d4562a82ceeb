From Verif Require Import Base BaseProofs WireModel WireProofs ScriptModel ScriptSpec ScriptProofs ProgramProofs NumModel NumSpec NumProofs.
From Verif Require Import StackModel StackSpec StackProofs MachineModel MachineSpec MachineProofs FlowProofs SpendProofs.
From Verif Require Import WireSpec WorkModel WorkSpec WorkProofs PatternModel PatternSpec BoostModel BoostSpec BoostProofs BoostWrite BoostWork.
From Verif Require Import StraightSpec StraightProofs StraightEval PayRunSpec PayRunProofs BoostRunSpec BoostRunSteps BoostRunProofs BoostRunMain.
From Coq Require Import Lia ZifyBool ZifyNat ZifyN Btauto.
Ltac Zify.zify_post_hook ::= Z.div_mod_to_equations.
Local Open Scope N_scope.

Lemma to_N_bit a n : (0 <= a)%Z -> N.testbit (Z.to_N a) n = Z.testbit a (Z.of_N n).
Proof. intros A. rewrite <- Z.testbit_of_N, Z2N.id by exact A. reflexivity. Qed.
Lemma to_N_land a b : (0 <= a)%Z -> (0 <= b)%Z -> N.land (Z.to_N a) (Z.to_N b) = Z.to_N (Z.land a b).
Proof.
  intros A B. apply N.bits_inj. intros n. assert (C : (0 <= Z.land a b)%Z) by (apply Z.land_nonneg; now left).
  rewrite N.land_spec, !to_N_bit, Z.land_spec by assumption. reflexivity.
Qed.
Lemma to_N_lor a b : (0 <= a)%Z -> (0 <= b)%Z -> N.lor (Z.to_N a) (Z.to_N b) = Z.to_N (Z.lor a b).
Proof.
  intros A B. apply N.bits_inj. intros n. assert (C : (0 <= Z.lor a b)%Z) by (apply Z.lor_nonneg; now split).
  rewrite N.lor_spec, !to_N_bit, Z.lor_spec by assumption. reflexivity.
Qed.
Lemma version_bits c g : version_bytes (sle 4 c) (sle 4 g) = sle 4 (Z.lor (Z.land c boost_mask) (Z.land g (Z.lnot boost_mask))).
Proof.
  unfold version_bytes, sle. rewrite !le_val_le. change (Z.of_N (pow256 4)) with (2 ^ 32)%Z. f_equal.
  assert (E : forall z, Z.to_N (z mod 2 ^ 32) mod pow256 4 = Z.to_N (z mod 2 ^ 32)).
  { intros z. apply N.mod_small. change (pow256 4) with 4294967296. change (2 ^ 32)%Z with 4294967296%Z. lia. }
  rewrite !E. assert (P : forall z, (0 <= z mod 2 ^ 32)%Z) by (intros z; change (2 ^ 32)%Z with 4294967296%Z; lia).
  change 0xE0001FFF with (Z.to_N (boost_mask mod 2 ^ 32)). change 0x1FFFE000 with (Z.to_N (Z.lnot boost_mask mod 2 ^ 32)).
  rewrite !to_N_land by apply P. rewrite to_N_lor by (apply Z.land_nonneg; left; apply P). f_equal.
  rewrite <- !Z.land_ones by lia. apply Z.bits_inj'. intros n Hn. rewrite ?Z.land_spec, ?Z.lor_spec, ?Z.land_spec. btauto.
Qed.

Lemma ample_le A B l : A <= B -> ample B l -> ample A l.
Proof. unfold ample. destruct l; lia. Qed.

Definition input_data (i : input) : list bytes :=
  [bi_sig i; bi_key i; le 4 (bi_nonce i); le 4 (bi_timestamp i); bi_extra2 i; be 4 (bi_extra1 i)] ++
  (match bi_bits i with Some g => [sle 4 g] | None => [] end) ++ (match bi_type i with Bounty => [bi_hash i] | _ => [] end).
Lemma input_pushes i : bi_type i <> Invalid -> input_program i = map push (input_data i).
Proof.
  intros T. unfold input_program, input_data. rewrite !map_app. destruct (bi_type i); [contradiction| |]; destruct (bi_bits i); reflexivity.
Qed.
Lemma input_stack i : rev (input_data i) =
  (match bi_type i with Bounty => [bi_hash i] | _ => [] end) ++ (match bi_bits i with Some g => [sle 4 g] | None => [] end) ++
  [be 4 (bi_extra1 i); bi_extra2 i; le 4 (bi_timestamp i); le 4 (bi_nonce i); bi_key i; bi_sig i].
Proof. unfold input_data. rewrite !rev_app_distr, <- app_assoc. destruct (bi_type i), (bi_bits i); reflexivity. Qed.

Section Redeem.
Variable X : externals.
Variable doc : option rdoc.
Variable cf : config.
Variable neg1 : bytes.
Hypothesis St : standard X.
Hypothesis Cm : c_max_memory cf < 2 ^ 63.
Hypothesis Mn : 4 <= c_max_num cf.

Lemma raw_header_is o i h : paired o i ->
  raw_header X o h (match bi_bits i with Some g => sle 4 g | None => [] end) (be 4 (bi_extra1 i)) (bi_extra2 i) (le 4 (bi_timestamp i)) (le 4 (bi_nonce i)) =
  boost_header_bytes (hash256 X) o i h.
Proof.
  intros (_ & _ & P). unfold raw_header, boost_header_bytes, boost_document, boost_version_field. rewrite P. unfold has_bits.
  destruct (bi_bits i); [rewrite version_bits|]; reflexivity.
Qed.

(* scripts that do not belong together *)
Lemma must_pair o i key sig rest hash bits extra1 extra2 timestamp nonce :
  bo_type o <> Invalid -> writable_input i -> extra2_fits i ->
  rev (input_data i) = (match bo_type o with Contract => [] | _ => [hash] end) ++ (if bo_bits o then [bits] else []) ++
                    [extra1; extra2; timestamp; nonce; key; sig] ++ rest ->
  len hash = 20 -> len extra1 = 4 -> (if bo_bits o then len bits = 4 /\ len extra2 <= 32 else len extra2 = 8) ->
  paired o i /\ key = bi_key i /\ sig = bi_sig i /\ rest = [] /\ extra1 = be 4 (bi_extra1 i) /\ extra2 = bi_extra2 i /\
  timestamp = le 4 (bi_timestamp i) /\ nonce = le 4 (bi_nonce i) /\ (bo_bits o = true -> bits = match bi_bits i with Some g => sle 4 g | None => [] end) /\
  (bo_type o <> Contract -> hash = bi_hash i).
Proof.
  intros To ((Lh & _ & _) & _ & _ & Ti) F E L20 L4 Lx. rewrite input_stack in E. unfold extra2_fits in F. unfold paired, has_bits.
  pose proof (len_be 4 (bi_extra1 i)) as Q1. 
  assert (Q2 : forall g, len (sle 4 g) = 4) by (intros g; apply len_sle).
  destruct (bi_type i) eqn:Ei; [contradiction| |]; destruct (bo_type o) eqn:Eo; try contradiction;
    destruct (bi_bits i) as [g|] eqn:Eb; destruct (bo_bits o) eqn:Ob; cbn [app] in E;
    try (exfalso; injection E as; subst; rewrite ?Q2, ?Q1 in *; change (N.of_nat 4) with 4 in *; lia);
    injection E as; subst; repeat split; try discriminate; try reflexivity; try congruence; auto.
Qed.

Lemma input_lens i : writable_input i -> Forall (fun d => len d < 2 ^ 31) (input_data i).
Proof.
  intros ((Lh & Lk & _) & Ls & Le & _). change (2 ^ 31) with 2147483648 in *. unfold input_data. apply Forall_app. split; [|apply Forall_app; split].
  - repeat constructor; rewrite ?len_le, ?len_be; lia.
  - destruct (bi_bits i); repeat constructor.
  - destruct (bi_type i); repeat constructor. lia.
Qed.
Lemma input_footprint i : writable_input i -> extra2_fits i -> footprint (rev (input_data i)) <= len (bi_sig i) + 400.
Proof.
  intros ((Lh & Lk & _) & _) F. rewrite footprint_rev. unfold input_data. rewrite !footprint_app. rewrite !footprint_cons, footprint_nil, !len_le, len_be.
  assert (F2 : len (bi_extra2 i) <= 32) by (unfold extra2_fits in F; destruct (bi_bits i); lia).
  assert (footprint (match bi_bits i with Some g => [sle 4 g] | None => [] end) <= 36).
  { destruct (bi_bits i); rewrite ?footprint_cons, ?footprint_nil, ?len_sle; lia. }
  assert (footprint (match bi_type i with Bounty => [bi_hash i] | _ => [] end) <= 52).
  { destruct (bi_type i); rewrite ?footprint_cons, ?footprint_nil; lia. }
  change (N.of_nat 4) with 4. lia.
Qed.
Lemma input_small i : writable_input i -> extra2_fits i -> len (program_write (map push (input_data i))) <= len (bi_sig i) + 250.
Proof.
  intros W F. pose proof (input_lens i W) as L.
  assert (Wr : Forall written (map push (input_data i))).
  { apply Forall_map. eapply Forall_impl; [|exact L]. intros d Hd. now apply written_push. }
  pose proof (write_len cf Cm _ Wr) as Lw. rewrite map_length in Lw.
  assert (Ld : fold_right (fun j n => len (i_data j) + n) 0 (map push (input_data i)) <= fold_right (fun d n => len d + n) 0 (input_data i)).
  { clear - L. induction L as [|d l Hd _ IH]; cbn [map fold_right]; [lia|]. pose proof (push_data_len d Hd). lia. }
  destruct W as ((Lh & Lk & _) & _). assert (F2 : len (bi_extra2 i) <= 32) by (unfold extra2_fits in F; destruct (bi_bits i); lia).
  assert (Lf : fold_right (fun d n => len d + n) 0 (input_data i) <= len (bi_sig i) + 150 /\ (length (input_data i) <= 8)%nat).
  { unfold input_data. destruct (bi_bits i), (bi_type i); cbn [app fold_right length]; rewrite ?len_le, ?len_be, ?len_sle; change (N.of_nat 4) with 4; lia. }
  lia.
Qed.

Theorem boost_redeems o i lx ux : writable_output o -> writable_input i -> extra2_fits i -> output_write o = Some lx -> input_write i = Some ux ->
  70 * len (bi_sig i) + len (bo_tag o) + len (bo_data o) + len neg1 + 30000 < 2 ^ 31 ->
  (spends X doc cf neg1 ux lx -> boost_redeemed X doc cf o i) /\
  (enough cf (2 * len (bi_sig i) + len (bo_tag o) + len (bo_data o) + 6000) 100 ->
   boost_redeemed X doc cf o i -> spends X doc cf neg1 ux lx).
Proof.
  intros Wo Wi F Eo Ei Len. change (2 ^ 31) with 2147483648 in Len. assert (Ti : bi_type i <> Invalid) by apply Wi. assert (To : bo_type o <> Invalid) by apply Wo.
  unfold input_write in Ei. rewrite (input_pushes i Ti) in Ei.
  pose proof (input_lens i Wi) as Li. pose proof (input_small i Wi F) as Lw.
  assert (L32 : len (program_write (map push (input_data i))) < 2 ^ 32) by (change (2 ^ 32) with 4294967296; lia).
  destruct (redeem_decompile _ _ Li L32 Ei) as (D & P & Sa).
  assert (Wr : Forall written (map push (input_data i))).
  { apply Forall_map. eapply Forall_impl; [|exact Li]. intros d Hd. now apply written_push. }
  assert (Lu : len ux <= len (bi_sig i) + 250).
  { pose proof (compile_segments _ _ (written_segments _ Wr) L32) as E'. change (concat (map instr_write ?p)) with (program_write p) in E'.
    assert (ux = program_write (map push (input_data i))) as -> by congruence. exact Lw. }
  pose proof (input_footprint i Wi F) as Lf.
  destruct (boost_spends X doc cf neg1 St Cm Mn o lx ux _ Wo Eo D P) as [A1 A2]; [change (2 ^ 31) with 2147483648; lia|].
  assert (Wf : forall d, In d (input_data i) -> d <> bi_sig i -> len d < 256).
  { destruct Wi as ((Lh & Lk & _) & _). assert (F2 : len (bi_extra2 i) <= 32) by (unfold extra2_fits in F; destruct (bi_bits i); lia).
    intros d Hd Nd. unfold input_data in Hd. destruct (bi_bits i), (bi_type i); cbn [app In] in Hd;
      repeat (destruct Hd as [<-|Hd]; [first [contradiction|rewrite ?len_le, ?len_be, ?len_sle; lia]|]); destruct Hd. }
  split.
  - intros Sp. destruct (A1 Sp) as (h & bits & e1 & e2 & ts & n & key & sig & rest & Hs & Hh & (Q1 & Q2 & Q3 & Q4) & (Cp & Wk) & Hk & Sg & Cl & Wu & Wp).
    rewrite Sa in Hs. assert (L20 : len h = 20) by (rewrite <- Hk; apply St).
    destruct (must_pair o i key sig rest h bits e1 e2 ts n To Wi F Hs L20 Q1 Q2) as (Pr & -> & -> & _ & -> & -> & -> & -> & Hb & Hh2).
    assert (Mh : h = miner_hash o i).
    { unfold miner_hash. destruct (bo_type o); [contradiction|apply Hh2; discriminate|apply Hh; reflexivity]. }
    assert (Hd : raw_header X o h bits (be 4 (bi_extra1 i)) (bi_extra2 i) (le 4 (bi_timestamp i)) (le 4 (bi_nonce i)) = boost_header_bytes (hash256 X) o i (miner_hash o i)).
    { rewrite <- Mh, <- raw_header_is by assumption. unfold raw_header. destruct (bo_bits o); [rewrite Hb by reflexivity|]; reflexivity. }
    rewrite Hd in Wk. split; [apply work_valid; auto|]. split; [assumption|]. split; [congruence|]. split; [assumption|].
    intros Fl. specialize (Wp Fl). specialize (Wu Fl). constructor; [|assumption]. rewrite Forall_forall in Wu. apply Wu, in_map. left. reflexivity.
  - intros [Am Oc] (V & Cp & Hk & Sg & Wp). apply work_valid in V as [Pr Wk]. apply A2.
    + split; [|assumption]. eapply ample_le; [|exact Am]. rewrite Sa. lia.
    + exists (miner_hash o i), (match bi_bits i with Some g => sle 4 g | None => [] end), (be 4 (bi_extra1 i)), (bi_extra2 i), (le 4 (bi_timestamp i)),
        (le 4 (bi_nonce i)), (bi_key i), (bi_sig i), []. rewrite raw_header_is by assumption. destruct Pr as (_ & Pt & Pb).
      split; [|split; [|split; [|split; [|split; [|split; [|split; [|split]]]]]]]; try assumption.
      * rewrite Sa, input_stack, app_nil_r, Pt, Pb. unfold has_bits, miner_hash. destruct (bo_type o); [contradiction| |]; destruct (bi_bits i); reflexivity.
      * intros T. unfold miner_hash. rewrite T. reflexivity.
      * unfold extra2_fits in F. rewrite Pb. unfold has_bits. rewrite !len_le, len_be. destruct (bi_bits i); rewrite ?len_sle; auto.
      * auto.
      * intros _. reflexivity.
      * intros Fl. specialize (Wp Fl). inversion Wp as [|? ? Ws _]; subst. apply Forall_map. rewrite Forall_forall. intros d Hd.
        destruct (list_eq_dec Byte.byte_eq_dec d (bi_sig i)) as [->|Nd]; [assumption|]. specialize (Wf d Hd Nd). apply (push_well cf Cm); [change (2 ^ 31) with 2147483648|..]; lia.
      * intros Fl. specialize (Wp Fl). now inversion Wp.
Qed.
End Redeem.

Theorem boost_stuck X doc cf neg1 : standard X -> c_max_memory cf < 2 ^ 63 -> 4 <= c_max_num cf ->
  forall o lx ux, has_flag FLAG_SIGPUSHONLY (c_flags cf) = true -> writable_output o -> output_write o = Some lx ->
  70 * len ux + len (bo_tag o) + len (bo_data o) + len neg1 + 6000 < 2 ^ 31 ->
  ~ computed_by cf (bo_target o) \/
  (has_flag FLAG_MINIMALDATA (c_flags cf) = true /\ (len (bo_tag o) = 256 \/ len (bo_tag o) = 65536 \/ len (bo_data o) = 256 \/ len (bo_data o) = 65536)) ->
  ~ spends X doc cf neg1 ux lx.
Proof.
  intros St Cm Mn o lx ux F W E Len Bad Sp. destruct (boost_protected X doc cf neg1 St Cm Mn o lx ux F W E Len Sp) as (u & _ & _ & U).
  destruct U as (h & bits & e1 & e2 & ts & n & key & sig & rest & _ & _ & _ & (Cp & _) & _ & _ & _ & _ & Wp).
  destruct Bad as [Bad|[Fl Bad]]; [contradiction|]. specialize (Wp Fl). inversion Wp as [|? ? Wt Wp1]; subst. inversion Wp1 as [|? ? Wd _]; subst.
  destruct W as (_ & Lt & Ld & _). rewrite push_minimal_exact in Wt, Wd by assumption. lia.
Qed.

Lemma custom_numbers f c t : has_flag FLAG_CUSTOM_LIMITS f = true -> computed_by (script_config f c) t <-> computable t.
Proof.
  intros F. unfold computed_by. split; [tauto|]. intros C. split; [assumption|]. apply N.lt_le_trans with (2 ^ 256); [apply expand_lt|].
  apply N.pow_le_mono_r; [discriminate|]. unfold script_config. rewrite F. cbn [negb c_max_num]. destruct c; vm_compute; discriminate.
Qed.
Lemma old_numbers f c t : has_flag FLAG_CUSTOM_LIMITS f = false -> computed_by (script_config f c) t <-> computable t /\ expand t < 2 ^ 31.
Proof. intros F. unfold computed_by, script_config. rewrite F. cbn [negb c_max_num]. reflexivity. Qed.
Lemma library_numbers f c : 4 <= c_max_num (script_config f c).
Proof. unfold script_config. destruct (negb _); [|destruct c]; vm_compute; discriminate. Qed.
