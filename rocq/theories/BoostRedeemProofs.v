(* Proofs about redeeming boost outputs. *)
From Coq Require Import Lia ZifyBool ZifyNat ZifyN Permutation.
From Verif Require Import Base BaseProofs WireModel WireSpec WireProofs TextModel SecpModel SecpSpec SecpProofs ScriptModel ScriptSpec ScriptProofs ProgramProofs.
From Verif Require Import NumModel NumSpec StackModel StackSpec StackProofs MachineModel MachineSpec PatternModel PatternSpec MerkleModel SighashModel SighashSpec SighashProofs.
From Verif Require Import ExtModel WorkModel WorkSpec WorkProofs BoostModel BoostSpec BoostProofs BoostWrite BoostWork StraightSpec StraightProofs StraightEval PayRunSpec PayRunProofs.
From Verif Require Import BoostRunSpec BoostRunSteps BoostRunProofs BoostRunMain BoostRunRedeem RedeemModel RedeemSpec RedeemProofs BoostRedeemModel BoostRedeemSpec.
Local Open Scope N_scope.

Definition solved_input (h160 : bytes -> bytes) (o : output) (sig key : bytes) (x : solution) : input :=
  {| bi_type := bo_type o; bi_sig := sig; bi_key := key; bi_nonce := sh_nonce (so_share x); bi_timestamp := sh_timestamp (so_share x);
     bi_extra2 := sh_extra2 (so_share x); bi_extra1 := so_extra1 x;
     bi_bits := if bo_bits o then Some (match sh_bits (so_share x) with Some g => g | None => 0%Z end) else None;
     bi_hash := match bo_type o with Bounty => h160 key | _ => zero20 end |}.
Lemma written_solution_dec o x : written_solution o x \/ ~ written_solution o x.
Proof.
  unfold written_solution. destruct (N.eq_dec (sh_timestamp (so_share x)) 0) as [E|E]; [right; intros [A _]; contradiction|].
  destruct (bo_bits o); [left; split; [assumption|discriminate]|]. destruct (sh_bits (so_share x)); [right|left].
  - intros [_ A]. specialize (A eq_refl). discriminate.
  - split; auto.
Qed.
Lemma solution_written h160 o sig key x : bo_type o <> Invalid -> written_solution o x ->
  from_solution h160 sig key x (bo_type o) (bo_bits o) = solved_input h160 o sig key x.
Proof.
  intros T [Ts B]. unfold from_solution, solved_input. destruct (sh_timestamp (so_share x) =? 0) eqn:E; [lia|].
  destruct (bo_type o); [contradiction| |]; destruct (bo_bits o); cbn [is_invalid orb andb negb]; try reflexivity; rewrite B by reflexivity; reflexivity.
Qed.
Lemma solution_not_written h160 o sig key x : ~ written_solution o x -> from_solution h160 sig key x (bo_type o) (bo_bits o) = no_input.
Proof.
  intros N. unfold from_solution. destruct (is_invalid (bo_type o)); [reflexivity|]. cbn [orb].
  destruct (sh_timestamp (so_share x) =? 0) eqn:E; [reflexivity|]. destruct (bo_bits o) eqn:Eb; cbn [negb andb orb].
  - exfalso. apply N. split; [lia|congruence].
  - destruct (sh_bits (so_share x)) eqn:Es; [reflexivity|]. exfalso. apply N. split; [lia|auto].
Qed.
Lemma usable_written o x : usable o x -> written_solution o x.
Proof. intros [A B]. split; [assumption|]. intros E. rewrite E in B. apply B. Qed.

Section World.
Variable w : world.
Variable X : externals.
Variable cf : config.
Hypothesis Sw : sound w.
Hypothesis Mw : machine_of w X.
Hypothesis Tw : twice w.
Hypothesis Cm : c_max_memory cf < 2 ^ 63.
Hypothesis Mn : 4 <= c_max_num cf.
Variable o : output.
Variable key : secret.
Variable x : solution.
Variable lx : bytes.
Hypothesis Wo : writable_output o.
Hypothesis Eo : output_write o = Some lx.
Hypothesis Wk : miner w (c_flags cf) key.
Hypothesis Wx : solution_wf x.
Hypothesis Len : 70 * len (sh_extra2 (so_share x)) + len (bo_tag o) + len (bo_data o) + 50000 < 2 ^ 31.

Notation sin sig := (solved_input (address_of w) o sig (key_of w key) x).

Lemma solved_writable sig : len sig <= 73 -> writable_input (sin sig).
Proof.
  intros L. change (2 ^ 31) with 2147483648 in Len. destruct Wx as (A & B & C & D). split; [|cbn [solved_input bi_sig bi_extra2 bi_type]; change (2 ^ 31) with 2147483648; repeat split; try lia; apply Wo].
  unfold input_fields. cbn [solved_input bi_hash bi_key bi_nonce bi_timestamp bi_extra1 bi_bits]. split; [destruct (bo_type o); try reflexivity; apply (sw_ripemd w Sw)|].
  split; [rewrite (key_length w Sw) by apply Wk; destruct (s_compressed key); auto|]. split; [assumption|]. split; [assumption|]. split; [assumption|].
  destruct (bo_bits o); [|exact Logic.I]. destruct (sh_bits (so_share x)); [assumption|]. split; reflexivity || discriminate.
Qed.
Lemma solved_paired sig : paired o (sin sig).
Proof. split; [apply Wo|]. split; [reflexivity|]. unfold has_bits. cbn [solved_input bi_bits]. destruct (bo_bits o); reflexivity. Qed.
Lemma hash256_is b : hash256 X b = w_hash w b.
Proof. destruct Mw as (_ & _ & S2). unfold hash256. rewrite !S2, Tw. reflexivity. Qed.
Lemma hash160_is b : hash160 X b = address_of w b.
Proof. destruct Mw as (_ & S1 & S2). unfold hash160, address_of. rewrite S1, S2. reflexivity. Qed.
Lemma header_is sig h : boost_header_bytes (hash256 X) o (sin sig) h = mined_header w o h x.
Proof.
  unfold boost_header_bytes, mined_header, boost_document. rewrite hash256_is. cbn [solved_input bi_extra1 bi_extra2 bi_timestamp bi_nonce].
  unfold boost_version_field, mined_version, has_bits. cbn [solved_input bi_bits]. destruct (bo_bits o); reflexivity.
Qed.
Lemma miner_hash_is sig : miner_hash o (sin sig) = match bo_type o with Bounty => address_of w (key_of w key) | _ => bo_hash o end.
Proof. unfold miner_hash. cbn [solved_input bi_hash]. destruct (bo_type o); reflexivity. Qed.

Lemma solved_written sig : len sig <= 73 -> exists ux, input_write (sin sig) = Some ux /\ len ux < 2 ^ 31 /\
  decompile ux = Ret (map push (input_data (sin sig))) /\ is_push_program (map push (input_data (sin sig))) = true /\
  stack_after (map push (input_data (sin sig))) = rev (input_data (sin sig)) /\ len ux <= len (sh_extra2 (so_share x)) + 400.
Proof.
  intros L. change (2 ^ 31) with 2147483648 in *. pose proof (solved_writable sig L) as Wi. pose proof (input_lens cf Cm Mn (sin sig) Wi) as Li.
  assert (Wr : Forall written (map push (input_data (sin sig)))).
  { apply Forall_map. eapply Forall_impl; [|exact Li]. intros d Hd. now apply written_push. }
  assert (Lw : len (program_write (map push (input_data (sin sig)))) <= len (sh_extra2 (so_share x)) + 400).
  { pose proof (write_len cf Cm _ Wr) as Lw. rewrite map_length in Lw.
    assert (Ld : fold_right (fun j n => len (i_data j) + n) 0 (map push (input_data (sin sig))) <= fold_right (fun d n => len d + n) 0 (input_data (sin sig))).
    { clear - Li. induction Li as [|d l Hd _ IH]; cbn [map fold_right]; [lia|]. pose proof (push_data_len d Hd). lia. }
    destruct Wi as ((Lh & Lk & _) & _).
    assert (Lf : fold_right (fun d n => len d + n) 0 (input_data (sin sig)) <= len (sh_extra2 (so_share x)) + 250 /\ (length (input_data (sin sig)) <= 8)%nat).
    { unfold input_data. cbn [solved_input bi_sig bi_key bi_nonce bi_timestamp bi_extra2 bi_extra1 bi_bits bi_hash bi_type] in *.
      destruct (bo_bits o), (bo_type o); cbn [app fold_right length]; rewrite ?len_le, ?len_be, ?len_sle; change (N.of_nat 4) with 4; lia. }
    lia. }
  assert (L32 : len (program_write (map push (input_data (sin sig)))) < 2 ^ 32) by (change (2 ^ 32) with 4294967296; lia).
  pose proof (compile_segments _ _ (written_segments _ Wr) L32) as E'. change (concat (map instr_write ?p)) with (program_write p) in E'.
  exists (program_write (map push (input_data (sin sig)))). destruct (redeem_decompile _ _ Li L32 E') as (D & P & Sa).
  split; [unfold input_write; rewrite (input_pushes (sin sig)) by apply Wi; exact E'|]. split; [lia|]. auto.
Qed.

Lemma solved_spends doc sig ux : len sig <= 73 -> input_write (sin sig) = Some ux -> written_solution o x ->
  signed doc (output_program o) sig (key_of w key) ->
  (spends X doc cf (w_neg1 w) ux lx -> collects w cf o key x) /\
  (enough cf (len (bo_tag o) + len (bo_data o) + 6200) 100 -> collects w cf o key x -> spends X doc cf (w_neg1 w) ux lx).
Proof.
  intros L Eu Ws Sg. change (2 ^ 31) with 2147483648 in *. pose proof (solved_writable sig L) as Wi. pose proof (sw_neg1 w Sw) as Ln. pose proof (proj1 Mw) as St.
  assert (Fd : extra2_fits (sin sig) <-> usable o x).
  { unfold extra2_fits, usable. cbn [solved_input bi_bits bi_extra2]. destruct Ws as [Ts B]. destruct (bo_bits o); split; tauto. }
  assert (Ms : is_minimal_instruction (push sig) = true) by (apply (push_well cf Cm); [change (2 ^ 31) with 2147483648|..]; lia).
  assert (Ad : bo_type o = Bounty \/ bo_type o = Contract) by (destruct (bo_type o) eqn:E; auto; destruct Wo as (_ & _ & _ & C); congruence).
  split.
  - intros Sp. destruct (solved_written sig L) as (ux' & Eu' & _ & D & P & Sa & Lu). assert (ux' = ux) by congruence. subst ux'.
    assert (U : usable o x).
    { destruct (boost_spends X doc cf (w_neg1 w) St Cm Mn o lx ux _ Wo Eo D P) as [A1 _]; [change (2 ^ 31) with 2147483648; lia|].
      destruct (A1 Sp) as (h & bits & e1 & e2 & ts & n & k & g & rest & Hs & _ & (_ & Q2 & _) & _). rewrite Sa, input_stack in Hs.
      apply Fd. unfold extra2_fits. cbn [solved_input bi_bits bi_extra2 bi_type] in *.
      destruct (bo_bits o), Ad as [T|T]; rewrite T in Hs; cbn [app] in Hs; injection Hs as; subst; tauto. }
    destruct (boost_redeems X doc cf (w_neg1 w) St Cm Mn o (sin sig) lx ux Wo Wi (proj2 Fd U) Eo Eu) as [B1 _].
    { cbn [solved_input bi_sig]. change (2 ^ 31) with 2147483648. lia. }
    destruct (B1 Sp) as (V & Cp & Hk & _ & Wp). apply work_valid in V as [_ V]. rewrite miner_hash_is, header_is, hash256_is in V.
    rewrite miner_hash_is, hash160_is in Hk. cbn [solved_input bi_key] in Hk.
    assert (Ow : bo_type o = Contract -> bo_hash o = address_of w (key_of w key)) by (intros T; rewrite T in Hk; congruence).
    constructor; try assumption.
    + unfold meets_target. destruct Ad as [T|T]; rewrite T in V; [assumption|]. rewrite <- (Ow T). assumption.
    + intros F. specialize (Wp F). apply Forall_cons_iff in Wp. apply Wp.
  - intros En [U Ow Mt Cp Wp].
    destruct (boost_redeems X doc cf (w_neg1 w) St Cm Mn o (sin sig) lx ux Wo Wi (proj2 Fd U) Eo Eu) as [_ B2].
    { cbn [solved_input bi_sig]. change (2 ^ 31) with 2147483648. lia. }
    apply B2.
    + cbn [solved_input bi_sig]. eapply (enough_less cf Cm); [| |exact En]; lia.
    + assert (Mh : miner_hash o (sin sig) = address_of w (key_of w key)).
      { rewrite miner_hash_is. destruct Ad as [T|T]; rewrite T; [reflexivity|]. apply Ow, T. }
      split; [apply work_valid; split; [apply solved_paired|rewrite Mh, header_is, hash256_is; exact Mt]|].
      split; [assumption|]. split; [rewrite Mh, hash160_is; reflexivity|]. split; [assumption|].
      intros F. constructor; [assumption|]. exact (Wp F).
Qed.

Lemma empty_fails doc : ~ spends X doc cf (w_neg1 w) [] lx.
Proof.
  intros Sp. change (2 ^ 31) with 2147483648 in *. pose proof (sw_neg1 w Sw) as Ln.
  destruct (boost_spends X doc cf (w_neg1 w) (proj1 Mw) Cm Mn o lx [] [] Wo Eo eq_refl eq_refl) as [A1 _]; [change (len []) with 0; change (2 ^ 31) with 2147483648; lia|].
  destruct (A1 Sp) as (h & bits & e1 & e2 & ts & n & k & g & rest & Hs & _).
  change (stack_after []) with (@nil bytes) in Hs. destruct (bo_type o), (bo_bits o); discriminate.
Qed.

(* one input *)
Lemma one_input t n v y : itx_wf t -> i64 v -> nth_error (it_inputs t) n = Some y -> exists sig s,
  signature_sign (w_hash w) (w_sign w) key {| sd_tx := t; sd_index := N.of_nat n; sd_value := v; sd_code := output_program o |} (directive 1 false true) = Some sig /\
  input_write (from_solution (address_of w) sig (key_of w key) x (bo_type o) (bo_bits o)) = Some s /\ len s < 2 ^ 31 /\
  (spends X (redeeming w (c_flags cf) t (N.of_nat n) v) cf (w_neg1 w) s lx -> collects w cf o key x) /\
  (enough cf (len (bo_tag o) + len (bo_data o) + 6200) 100 -> collects w cf o key x ->
   spends X (redeeming w (c_flags cf) t (N.of_nat n) v) cf (w_neg1 w) s lx).
Proof.
  intros Wt Hv Hn. pose proof Wk as [Hs Sg Ff Cc]. change (2 ^ 31) with 2147483648 in *.
  destruct (boost_decompile cf Cm Mn o lx Wo Eo) as (El & Lx & _); [change (2 ^ 31) with 2147483648; lia|].
  set (doc := {| sd_tx := t; sd_index := N.of_nat n; sd_value := v; sd_code := output_program o |}).
  assert (Wd : sdoc_wf doc).
  { split; [exact Wt|]. split; [exact Hv|]. destruct (decompile_segments _ _ El) as (s & S1 & S2 & _). exists lx, s. split; [assumption|]. split; [assumption|].
    change (2 ^ 32) with 4294967296. lia. }
  destruct (hash_defined (w_hash w) doc (directive 1 false true) (sw_hash w Sw) Wd) as (h & Eh & Lh).
  pose proof (key_parsed w Sw key Hs) as Pk. destruct (Sg (key_of w key) h Lh Pk) as (_ & _ & _ & L72).
  set (sig := w_sign w (s_value key) h ++ [directive 1 false true]).
  assert (Ls : len sig <= 73) by (unfold sig; rewrite len_app; change (len [directive 1 false true]) with 1; lia).
  exists sig. assert (Es : signature_sign (w_hash w) (w_sign w) key doc (directive 1 false true) = Some sig) by (unfold signature_sign; rewrite Eh; reflexivity).
  assert (Sd : signed (redeeming w (c_flags cf) t (N.of_nat n) v) (output_program o) sig (key_of w key)).
  { assert (Hn' : nth_error (it_inputs t) (N.to_nat (N.of_nat n)) = Some y) by (rewrite Nnat.Nat2N.id; exact Hn).
    eapply (signature_holds w cf Cm); [exact Hn'|exact Sg|exact Pk| | | |exact Ff|exact Eh|exact Lh].
    - intros F. unfold key_of, public_of. rewrite (Cc F). apply (sw_compressed w Sw), Hs.
    - reflexivity.
    - apply fork_iff. reflexivity. }
  destruct (written_solution_dec o x) as [Ws|Ws].
  - rewrite (solution_written _ o sig _ x) by (assumption || apply Wo). destruct (solved_written sig Ls) as (ux & Eu & Lu & _).
    exists ux. split; [assumption|]. split; [assumption|]. split; [assumption|]. apply (solved_spends _ sig); assumption.
  - rewrite (solution_not_written _ o sig _ x) by assumption. exists []. split; [assumption|]. split; [reflexivity|]. split; [reflexivity|]. split.
    + intros Sp. now apply empty_fails in Sp.
    + intros _ C. exfalso. apply Ws, usable_written, C.
Qed.

(* all inputs *)
Lemma all_inputs t : itx_wf t -> forall l k, (k + N.of_nat (length l) <= 2 ^ 32) -> Forall (fun v => i64 (bv_value v)) l ->
  (forall n v, nth_error l n = Some v -> exists y, nth_error (it_inputs t) (N.to_nat k + n) = Some y) ->
  exists q, binputs (w_hash w) (address_of w) (w_parse w) (w_ser w) (w_sign w) t lx key o x k l = Ret q /\ length q = length l /\
    forall n v, nth_error l n = Some v -> exists s, nth_error q n = Some {| in_ref := bv_ref v; in_script := s; in_seq := 0xffffffff |} /\ len s < 2 ^ 31 /\
      (spends X (redeeming w (c_flags cf) t (k + N.of_nat n) (bv_value v)) cf (w_neg1 w) s lx -> collects w cf o key x) /\
      (enough cf (len (bo_tag o) + len (bo_data o) + 6200) 100 -> collects w cf o key x ->
       spends X (redeeming w (c_flags cf) t (k + N.of_nat n) (bv_value v)) cf (w_neg1 w) s lx).
Proof.
  intros Wt. destruct (boost_decompile cf Cm Mn o lx Wo Eo) as (El & _ & _); [change (2 ^ 31) with 2147483648 in *; lia|].
  induction l as [|v l IH]; intros k Lk F Hi.
  - exists []. split; [reflexivity|]. split; [reflexivity|]. intros n v Hn. destruct n; discriminate.
  - cbn [length] in Lk. apply Forall_cons_iff in F as [Fv F]. destruct (Hi O v eq_refl) as (y & Hy). rewrite Nat.add_0_r in Hy.
    destruct (one_input t (N.to_nat k) (bv_value v) y Wt Fv Hy) as (sig & s & Es & Ew & Ls & S1 & S2). rewrite Nnat.N2Nat.id in *.
    assert (R : exists q, binputs (w_hash w) (address_of w) (w_parse w) (w_ser w) (w_sign w) t lx key o x ((k + 1) mod 2 ^ 32) l = Ret q /\ length q = length l /\
      forall n v, nth_error l n = Some v -> exists s, nth_error q n = Some {| in_ref := bv_ref v; in_script := s; in_seq := 0xffffffff |} /\ len s < 2 ^ 31 /\
      (spends X (redeeming w (c_flags cf) t (k + 1 + N.of_nat n) (bv_value v)) cf (w_neg1 w) s lx -> collects w cf o key x) /\
      (enough cf (len (bo_tag o) + len (bo_data o) + 6200) 100 -> collects w cf o key x ->
       spends X (redeeming w (c_flags cf) t (k + 1 + N.of_nat n) (bv_value v)) cf (w_neg1 w) s lx)).
    { destruct l as [|v' l'].
      - exists []. split; [reflexivity|]. split; [reflexivity|]. intros n u Hn. destruct n; discriminate.
      - cbn [length] in Lk. rewrite N.mod_small by lia. apply IH; [cbn [length]; lia|assumption|]. intros n u Hn. specialize (Hi (S n) u Hn).
        replace (N.to_nat (k + 1) + n)%nat with (N.to_nat k + S n)%nat by lia. exact Hi. }
    destruct R as (q & Eq & Lq & Hq). exists ({| in_ref := bv_ref v; in_script := s; in_seq := 0xffffffff |} :: q).
    cbn [binputs]. rewrite El, Es, (public_key w Sw key) by apply Wk. rewrite Ew, Eq. split; [reflexivity|]. split; [cbn [length]; congruence|].
    intros [|n] u Hn; cbn [nth_error] in *.
    + assert (u = v) by congruence. subst u. exists s. rewrite N.add_0_r. auto.
    + destruct (Hq n u Hn) as (s' & Hs'). exists s'. replace (k + N.of_nat (S n)) with (k + 1 + N.of_nat n) by lia. exact Hs'.
Qed.

Theorem candidate_redeemed c outs : lx = bn_script c -> output_read (w_neg1 w) lx = Ret o -> spendable c outs ->
  exists t, redeemed_by w c key x outs = Ret (tx_write t) /\ tx_wf t /\ itx_of t = bincomplete c outs /\
    forall n v, nth_error (bn_prevouts c) n = Some v ->
      (claims w X cf t n (bv_value v) (bn_script c) -> collects w cf o key x) /\
      (enough cf (len (bo_tag o) + len (bo_data o) + 6200) 100 -> collects w cf o key x -> claims w X cf t n (bv_value v) (bn_script c)).
Proof.
  intros Ec Er (Wt & Fv & L). set (t0 := bincomplete c outs) in *.
  destruct (all_inputs t0 Wt (bn_prevouts c) 0 ltac:(lia) Fv) as (q & Eq & Lq & Hq).
  { intros n v Hn. exists {| ii_ref := bv_ref v; ii_seq := 0xffffffff |}. unfold t0, bincomplete. cbn [it_inputs Nat.add N.to_nat].
    exact (map_nth_error (fun v => {| ii_ref := bv_ref v; ii_seq := 0xffffffff |}) n _ Hn). }
  set (t := {| tx_version := 1; tx_inputs := q; tx_outputs := outs; tx_locktime := 0 |}).
  assert (It : itx_of t = t0).
  { unfold itx_of, t, t0, bincomplete. cbn [tx_version tx_inputs tx_outputs tx_locktime]. f_equal. apply nth_ext; [rewrite !map_length; exact Lq|].
    intros n a b Ha Hb. rewrite nth_error_map in Ha, Hb. destruct (nth_error (bn_prevouts c) n) as [v|] eqn:Ev; [|discriminate].
    destruct (Hq n v Ev) as (s & Hs & _). rewrite Hs in Ha. cbn [option_map] in *. unfold iinput_of in Ha. cbn [in_ref in_seq] in Ha. congruence. }
  assert (Wf : tx_wf t).
  { destruct Wt as (W1 & [W2 W3] & W4 & W5). split; [exact W1|]. split; [|split; [exact W4|exact W5]]. split.
    - unfold t. cbn [tx_inputs]. rewrite Lq. unfold t0, bincomplete in W2. cbn [it_inputs] in W2. rewrite map_length in W2. exact W2.
    - unfold t. cbn [tx_inputs]. apply Forall_forall. intros i Hi. apply In_nth_error in Hi as [n Hn].
      assert (exists v, nth_error (bn_prevouts c) n = Some v) as [v Ev].
      { destruct (nth_error (bn_prevouts c) n) eqn:E; [eauto|]. apply nth_error_None in E. assert (Q : nth_error q n <> None) by congruence. apply nth_error_Some in Q. lia. }
      destruct (Hq n v Ev) as (s & Hs & Ls & _). rewrite Hn in Hs.
      match type of Hs with _ = Some ?z => assert (i = z) by congruence end. subst i. unfold input_wf. cbn [in_ref in_script in_seq].
      split; [|split; [unfold u64; change (2 ^ 31) with 2147483648 in Ls; change (2 ^ 64) with 18446744073709551616; lia|reflexivity]].
      rewrite Forall_forall in W3. assert (Iv : In {| ii_ref := bv_ref v; ii_seq := 0xffffffff |} (it_inputs t0)).
      { unfold t0, bincomplete. cbn [it_inputs]. apply (in_map (fun v => {| ii_ref := bv_ref v; ii_seq := 0xffffffff |})). eapply nth_error_In. exact Ev. }
      apply (W3 _ Iv). }
  exists t. split; [|split; [exact Wf|split; [exact It|]]].
  - unfold redeemed_by, bredeem. rewrite <- Ec, Er. fold t0. rewrite Eq. fold t. rewrite (proj1 (proj1 (proj2 (proj2 sizes_exact)) t Wf)). reflexivity.
  - intros n v Hn. destruct (Hq n v Hn) as (s & Hs & _ & S1 & S2). rewrite N.add_0_l in S1, S2. unfold claims. rewrite It, <- Ec. split.
    + intros (i & Hi & Sp). unfold t in Hi. cbn [tx_inputs] in Hi. rewrite Hs in Hi. match type of Hi with Some ?z = _ => assert (i = z) by congruence end. subst i. auto.
    + intros En C. eexists. split; [exact Hs|]. cbn [in_script]. auto.
Qed.

Theorem candidate_work c : lx = bn_script c -> output_read (w_neg1 w) lx = Ret o -> written_solution o x ->
  (bo_type o = Contract -> bo_hash o = address_of w (key_of w key)) -> address_of w (key_of w key) <> zero20 ->
  exists p, work_in w c key = Ret p /\
    (wproof_valid (w_hash w) {| wp_puzzle := p; wp_solution := x |} = true <-> meets_target w o (address_of w (key_of w key)) x).
Proof.
  intros Ec Er Ws Ow Nz. unfold work_in, bpuzzle_work. rewrite <- Ec, Er. unfold miner_address. rewrite (public_key w Sw key) by apply Wk.
  eexists. split; [reflexivity|]. assert (T : bo_type o <> Invalid) by apply Wo.
  assert (Nz' : match bo_type o with Contract => bo_hash o | _ => address_of w (key_of w key) end <> zero20) by (destruct (bo_type o); [assumption|assumption|rewrite Ow by reflexivity; assumption]).
  rewrite <- (mined (w_hash w) (address_of w) o (key_of w key) [] x T Nz' (proj1 Ws) (proj2 Ws)), (solution_written _ o [] _ x T Ws).
  rewrite work_valid, miner_hash_is. unfold meets_target.
  assert (Hd : forall h, boost_header_bytes (w_hash w) o (sin []) h = mined_header w o h x).
  { intros h. unfold boost_header_bytes, mined_header, boost_document. cbn [solved_input bi_extra1 bi_extra2 bi_timestamp bi_nonce].
    unfold boost_version_field, mined_version, has_bits. cbn [solved_input bi_bits]. destruct (bo_bits o); reflexivity. }
  rewrite Hd. assert (Ah : match bo_type o with Bounty => address_of w (key_of w key) | _ => bo_hash o end = address_of w (key_of w key)).
  { destruct (bo_type o); [contradiction|reflexivity|apply Ow; reflexivity]. }
  rewrite Ah. pose proof (solved_paired []). tauto.
Qed.
End World.

(* ---------------------------------------------------------------- candidates *)
Lemma outpoint_eqb_iff a b : outpoint_eqb a b = true <-> a = b.
Proof.
  destruct a as [d i], b as [e j]. unfold outpoint_eqb. cbn [op_digest op_index]. rewrite Bool.andb_true_iff, bytes_eqb_eq, N.eqb_eq.
  split; [intros [-> ->]; reflexivity|intros E; split; congruence].
Qed.
Lemma outpoint_dec (a b : outpoint) : a = b \/ a <> b.
Proof. destruct (outpoint_eqb a b) eqn:E; [left; now apply outpoint_eqb_iff|right]. intros N. apply outpoint_eqb_iff in N. congruence. Qed.
Lemma outpoint_in (a : outpoint) l : In a l \/ ~ In a l.
Proof. induction l as [|b l [A|A]]; [right; intros []|left; right; assumption|]. destruct (outpoint_dec b a); [left; left; assumption|right; intros [C|C]; contradiction]. Qed.

Section Candidates.
Variable ins : list bprevout -> bprevout -> list bprevout.
Hypothesis Si : set_insertion ins.

Lemma inserted s v : NoDup (map bv_ref s) ->
  NoDup (map bv_ref (ins s v)) /\ (forall r, In r (map bv_ref (ins s v)) <-> r = bv_ref v \/ In r (map bv_ref s)) /\ (forall u, In u (ins s v) -> u = v \/ In u s).
Proof.
  intros N. destruct (Si s v) as [A B]. destruct (outpoint_in (bv_ref v) (map bv_ref s)) as [C|C].
  - destruct (B C) as [P F]. split; [apply (Permutation_NoDup (Permutation_sym P)); assumption|]. split; [|assumption].
    intros r. split; [intros Hr; right; apply (Permutation_in _ P); assumption|].
    intros [->|Hr]; apply (Permutation_in _ (Permutation_sym P)); assumption.
  - specialize (A C). pose proof (Permutation_map bv_ref A) as P. cbn [map] in P. split; [|split].
    + apply (Permutation_NoDup (Permutation_sym P)). constructor; assumption.
    + intros r. split; intros Hr.
      * apply (Permutation_in _ P) in Hr as [<-|Hr]; auto.
      * apply (Permutation_in _ (Permutation_sym P)). destruct Hr as [->|Hr]; [left; reflexivity|right; assumption].
    + intros u Hu. apply (Permutation_in _ A) in Hu as [<-|Hu]; auto.
Qed.
Lemma folded l : forall s, NoDup (map bv_ref s) -> let q := fold_left (fun s v => ins s (prevout_of v)) l s in
  NoDup (map bv_ref q) /\ (forall r, In r (map bv_ref q) <-> In r (map bv_ref s) \/ In r (map ut_ref l)) /\
  (forall v, In v q -> In v s \/ In v (map prevout_of l)).
Proof.
  induction l as [|u l IH]; intros s N; cbv zeta; cbn [fold_left map].
  - split; [assumption|]. split; [intros r; cbn [In]; tauto|auto].
  - destruct (inserted s (prevout_of u) N) as (N' & R & F). destruct (IH _ N') as (A & B & C). split; [assumption|]. split.
    + intros r. rewrite B, R. cbn [In prevout_of bv_ref]. split; [intros [[->|D]|D]; auto|intros [D|[<-|D]]; auto].
    + intros v Hv. destruct (C v Hv) as [D|D]; [|right; right; assumption]. destruct (F v D) as [->|E]; [right; left; reflexivity|left; assumption].
Qed.
Lemma folded_new l : forall s, NoDup (map bv_ref s ++ map ut_ref l) -> Permutation (fold_left (fun s v => ins s (prevout_of v)) l s) (s ++ map prevout_of l).
Proof.
  induction l as [|u l IH]; intros s N; cbn [fold_left map] in *; [rewrite app_nil_r; reflexivity|].
  assert (C : ~ In (bv_ref (prevout_of u)) (map bv_ref s)).
  { intros C. apply NoDup_remove_2 in N. apply N, in_or_app. left. exact C. }
  pose proof (proj1 (Si s (prevout_of u)) C) as P. rewrite IH.
  - rewrite P. apply Permutation_cons_app. reflexivity.
  - eapply Permutation_NoDup; [|exact N]. rewrite (Permutation_map bv_ref P). cbn [map]. change (bv_ref (prevout_of u)) with (ut_ref u). symmetry.
    apply Permutation_middle.
Qed.

Theorem candidate_gathered l c : candidate_of ins l = Ret c ->
  gathered c l /\ (exists u r, l = u :: r /\ bn_script c = out_script (ut_output u)) /\
  (NoDup (map ut_ref l) -> Permutation (bn_prevouts c) (map prevout_of l)).
Proof.
  intros E. unfold candidate_of in E. destruct l as [|u l]; [discriminate|]. set (q := fold_left _ _ _) in E.
  assert (c = {| bn_script := out_script (ut_output u); bn_prevouts := q |}) by congruence. subst c. cbn [bn_script bn_prevouts].
  destruct (folded (u :: l) [] (NoDup_nil _)) as (A & B & C). fold q in A, B, C. split; [|split].
  - constructor; cbn [bn_prevouts]; [assumption| |].
    + intros r. rewrite B. cbn [map In]. tauto.
    + intros v Hv. destruct (C v Hv) as [[]|D]. assumption.
  - exists u, l. auto.
  - intros N. apply (folded_new (u :: l) []). exact N.
Qed.
Theorem candidate_undefined l : candidate_of ins l = Undef <-> l = [].
Proof. destruct l; split; [reflexivity|reflexivity|discriminate|discriminate]. Qed.
Theorem candidate_added c l u : gathered c l -> gathered (candidate_add ins c u) (l ++ [u]) /\
  bn_script (candidate_add ins c u) = (match bn_prevouts c with [] => out_script (ut_output u) | _ => bn_script c end) /\
  (~ In (ut_ref u) (map bv_ref (bn_prevouts c)) -> Permutation (bn_prevouts (candidate_add ins c u)) (prevout_of u :: bn_prevouts c)) /\
  (In (ut_ref u) (map bv_ref (bn_prevouts c)) -> candidate_add ins c u = c).
Proof.
  intros [A B C]. assert (X : forall s, NoDup (map bv_ref s) -> bn_prevouts c = s -> gathered {| bn_script := bn_script c; bn_prevouts := ins s (prevout_of u) |} (l ++ [u])).
  { intros s N Es. destruct (inserted s (prevout_of u) N) as (N' & R & F). subst s. constructor; cbn [bn_prevouts]; [assumption| |].
    - intros r. rewrite R, B, map_app, in_app_iff. cbn [map In prevout_of bv_ref]. split; [intros [->|D]; auto|intros [D|[<-|[]]]; auto].
    - intros v Hv. rewrite map_app, in_app_iff. destruct (F v Hv) as [->|D]; [right; left; reflexivity|left; auto]. }
  unfold candidate_add. destruct (bn_prevouts c) as [|v s] eqn:Es.
  - split; [|split; [reflexivity|split; [|intros []]]].
    + destruct (X [] (NoDup_nil _) eq_refl) as [X1 X2 X3]. constructor; assumption.
    + intros N. cbn [bn_prevouts]. apply (proj1 (Si [] (prevout_of u))). exact N.
  - rewrite <- Es in *. destruct (existsb _ (bn_prevouts c)) eqn:Ex.
    + assert (Hin : In (ut_ref u) (map bv_ref (bn_prevouts c))).
      { apply existsb_exists in Ex as (y & Hy & Ey). apply outpoint_eqb_iff in Ey. rewrite <- Ey. apply in_map. assumption. }
      split; [|split; [reflexivity|split; [contradiction|reflexivity]]].
      constructor; [assumption| |].
      * intros r. rewrite B, map_app, in_app_iff. cbn [map In]. split; [auto|]. intros [D|[<-|[]]]; [assumption|]. apply B. assumption.
      * intros y Hy. rewrite map_app, in_app_iff. left. auto.
    + assert (Hn : ~ In (ut_ref u) (map bv_ref (bn_prevouts c))).
      { intros D. apply in_map_iff in D as (y & Ey & Hy). assert (T : existsb (fun z => outpoint_eqb (bv_ref z) (ut_ref u)) (bn_prevouts c) = true).
        { apply existsb_exists. exists y. split; [assumption|]. apply outpoint_eqb_iff. assumption. } congruence. }
      split; [apply X; [assumption|reflexivity]|]. split; [reflexivity|]. split; [|contradiction].
      intros N. cbn [bn_prevouts]. apply (proj1 (Si (bn_prevouts c) (prevout_of u))). exact N.
Qed.
End Candidates.

Lemma sum_perm l m : Permutation l m -> sum_of_values l = sum_of_values m.
Proof. induction 1; cbn [sum_of_values]; lia. Qed.
Lemma sum_nonneg l : Forall (fun v => (0 <= v)%Z) l -> (0 <= sum_of_values l)%Z.
Proof. induction 1; cbn [sum_of_values]; lia. Qed.
Theorem candidate_amount ovf c : no_overflow (map bv_value (bn_prevouts c)) -> candidate_value ovf c = sum_of_values (map bv_value (bn_prevouts c)).
Proof.
  intros [F L]. unfold candidate_value. change (2 ^ 63)%Z with 9223372036854775808%Z in L.
  assert (G : forall l a, Forall (fun v => (0 <= v)%Z) (map bv_value l) -> (0 <= a)%Z -> (a + sum_of_values (map bv_value l) < 9223372036854775808)%Z ->
    fold_left (fun s v => satoshi_add ovf s (bv_value v)) l a = (a + sum_of_values (map bv_value l))%Z).
  { clear. induction l as [|v l IH]; intros a F A L; cbn [fold_left map sum_of_values] in *; [lia|]. apply Forall_cons_iff in F as [Fv F]. pose proof (sum_nonneg _ F) as P.
    unfold satoshi_add at 2. unfold fits64. destruct (_ <=? _)%Z eqn:E1; [|lia]. destruct (_ <? _)%Z eqn:E2; [|lia]. cbn [andb]. rewrite IH; [lia|assumption|lia|lia]. }
  rewrite G; [lia|assumption|lia|lia].
Qed.

Theorem puzzle_workable w c key : valid_in w c key = Ret true <-> exists o, workable w c key o.
Proof.
  unfold valid_in, bpuzzle_valid, candidate_valid. destruct (bn_prevouts c) as [|v l] eqn:El.
  { split; [discriminate|]. intros (o & [A _ _ _ _ _]). congruence. }
  rewrite <- El. destruct (forallb _ (bn_prevouts c)) eqn:Ef.
  2:{ split; [discriminate|]. intros (o & [_ A _ _ _ _]). rewrite Forall_forall, <- forallb_forall in A. congruence. }
  rewrite forallb_forall, <- Forall_forall in Ef.
  destruct (output_read (w_neg1 w) (bn_script c)) as [o|e|] eqn:Er.
  2,3: split; [discriminate|]; intros (o & [_ _ A _ _ _]); congruence.
  destruct (output_valid o) eqn:Ev.
  2:{ split; [discriminate|]. intros (o' & [_ _ A T _ _]). assert (o' = o) by congruence. subst. unfold output_valid in Ev. destruct (bo_type o); try discriminate. congruence. }
  destruct (secret_valid key) eqn:Es; cbn [negb].
  2:{ split; [discriminate|]. intros (o' & [_ _ _ _ A _]). congruence. }
  split.
  - intros E. exists o. constructor; try assumption; [congruence| |].
    + intros T. unfold output_valid in Ev. rewrite T in Ev. discriminate.
    + intros T. rewrite T in E. cbn [btype_eqb orb andb] in E. apply bytes_eqb_eq. congruence.
  - intros (o' & [_ _ A T _ Ow]). assert (o' = o) by congruence. subst o'. cbn [andb]. f_equal. destruct (bo_type o); [congruence|reflexivity|].
    cbn [btype_eqb orb]. apply bytes_eqb_eq. auto.
Qed.

(* ---------------------------------------------------------------- as the properties state it *)
Theorem redeemed_exactly w X cf : sound w -> machine_of w X -> twice w -> c_max_memory cf < 2 ^ 63 -> 4 <= c_max_num cf ->
  forall c o key x outs, candidate_for w c o -> miner w (c_flags cf) key -> solution_wf x -> spendable c outs ->
  70 * len (sh_extra2 (so_share x)) + len (bo_tag o) + len (bo_data o) + 50000 < 2 ^ 31 ->
  exists t, redeemed_by w c key x outs = Ret (tx_write t) /\ tx_wf t /\ itx_of t = bincomplete c outs /\
    forall n v, nth_error (bn_prevouts c) n = Some v ->
      (claims w X cf t n (bv_value v) (bn_script c) -> collects w cf o key x) /\
      (enough cf (len (bo_tag o) + len (bo_data o) + 6200) 100 -> collects w cf o key x -> claims w X cf t n (bv_value v) (bn_script c)).
Proof.
  intros Sw Mw Tw Cm Mn c o key x outs (Wo & Eo & Er) Wk Wx Sp Len.
  exact (candidate_redeemed w X cf Sw Mw Tw Cm Mn o key x _ Wo Eo Wk Wx Len c outs eq_refl Er Sp).
Qed.
Theorem worked_exactly w cf : sound w -> forall c o key x, candidate_for w c o -> miner w (c_flags cf) key -> written_solution o x ->
  (bo_type o = Contract -> bo_hash o = address_of w (key_of w key)) -> address_of w (key_of w key) <> zero20 ->
  exists p, work_in w c key = Ret p /\
    (wproof_valid (w_hash w) {| wp_puzzle := p; wp_solution := x |} = true <-> meets_target w o (address_of w (key_of w key)) x).
Proof. intros Sw c o key x (Wo & _ & Er) Wk. exact (candidate_work w cf Sw o key x _ Wo Wk c eq_refl Er). Qed.
