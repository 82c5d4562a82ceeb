From Verif Require Import Base BaseProofs WireModel WireProofs ScriptModel ScriptSpec ScriptProofs ProgramProofs NumModel NumSpec NumProofs.
From Verif Require Import StackModel StackSpec StackProofs MachineModel MachineSpec MachineProofs FlowProofs SpendProofs.
From Verif Require Import PatternModel StraightSpec StraightProofs StraightEval PayRunSpec.
From Coq Require Import Lia ZifyBool ZifyNat ZifyN.
Ltac Zify.zify_post_hook ::= Z.div_mod_to_equations.
Local Open Scope N_scope.

(* ---- programs that are written and read back ---- *)

Lemma push_is_push d : len d < 2 ^ 31 -> is_push_op (i_op (push d)) = true /\ known_op (i_op (push d)).
Proof.
  intros L. destruct (push_cases d L) as [(-> & ->) | [(k & Hk & -> & ->) | (S & [(B & ->)|[(B & ->)|[(B & ->)|(B & ->)]]])]];
    cbn [i_op op_instr]; unfold is_push_op, known_op; try (split; [reflexivity|]; repeat split; discriminate).
  - rewrite byte_eqb_n, n2b_val by lia. change (b2n x50) with 80. lia.
  - rewrite byte_eqb_n, n2b_val by lia. change (b2n x50) with 80. lia.
Qed.
Lemma pushed_push d : len d < 2 ^ 31 -> pushed_by (push d) = d.
Proof.
  intros L. unfold pushed_by. rewrite push_value_push by exact L. destruct (bytes_eqb d [x81]) eqn:E; [|reflexivity].
  apply bytes_eqb_eq in E. congruence.
Qed.

(* an instruction that is written as it should be *)
Definition written (i : instr) : Prop := is_inst i (instr_write i) /\ known_op (i_op i) /\ ~ control_op (i_op i).
Lemma written_push d : len d < 2 ^ 31 -> written (push d).
Proof.
  intros L. destruct (push_is_push d L) as [A C]. split; [now apply push_inst|]. split; [assumption|]. now apply push_op_direct in A.
Qed.
Lemma written_op o : 0x4e < b2n o -> known_op o -> ~ control_op o -> written (op_instr o).
Proof.
  intros H K C. split; [|now split]. assert (I : is_inst (op_instr o) [o]) by (apply (if_op o); exact H).
  now rewrite <- (inst_write _ _ I).
Qed.
Lemma written_segments p : Forall written p -> segments p (map instr_write p).
Proof. induction 1 as [|i p H _ IH]; cbn [map]; constructor; [apply H|assumption]. Qed.
Lemma written_decompile p : Forall written p -> decompile (program_write p) = Ret p.
Proof.
  intros H. apply (decompile_of_segments _ _ (written_segments _ H)).
  - unfold ops. apply Forall_map. eapply Forall_impl; [|exact H]. intros i Hi. apply Hi.
  - apply balanced_plain. unfold ops. apply Forall_map. eapply Forall_impl; [|exact H]. intros i Hi. apply Hi.
Qed.
Lemma written_compile p b : Forall written p -> len (program_write p) < 2 ^ 32 -> compile p = Some b -> decompile b = Ret p.
Proof.
  intros H L E. pose proof (compile_segments _ _ (written_segments _ H) L) as E'. change (concat (map instr_write p)) with (program_write p) in E'.
  assert (b = program_write p) as -> by congruence. now apply written_decompile.
Qed.
Ltac known := unfold known_op; repeat split; vm_compute; try reflexivity; try discriminate.
Ltac plainop := unfold control_op; intuition discriminate.
Ltac written_ops := repeat (apply Forall_cons; [first [apply written_op; [reflexivity|known|plainop] | idtac]|]); try apply Forall_nil.

(* the room that a script of pushes takes *)
Lemma pushed_len i c : is_inst i c -> is_push_op (i_op i) = true -> 1 <= len c /\ len (pushed_by i) <= len c.
Proof.
  intros H P. unfold pushed_by, push_value. destruct i as [o d]. unfold is_inst in H. cbn [i_op i_data] in *. inversion H; subst.
  - rewrite len_cons. unfold is_push_data. rewrite n2b_val by lia. replace (len d <=? 78) with true by lia. cbn [orb]. lia.
  - rewrite len_cons, len_app, len_le. cbn [is_push_data]. change (is_push_data x4c) with true. cbn [orb]. lia.
  - rewrite len_cons, len_app, len_le. change (is_push_data x4d) with true. cbn [orb]. lia.
  - rewrite len_cons, len_app, len_le. change (is_push_data x4e) with true. cbn [orb]. lia.
  - split; [vm_compute; discriminate|]. rewrite P. cbn [negb]. change (len [o]) with 1.
    destruct (_ || _); [vm_compute; discriminate|]. destruct (byte_eqb o OP_1NEGATE); vm_compute; discriminate.
Qed.
Lemma footprint_rev s : footprint (rev s) = footprint s.
Proof.
  induction s as [|x s IH]; [reflexivity|]. cbn [rev]. rewrite footprint_app, IH, !footprint_cons, footprint_nil. lia.
Qed.
Lemma stack_room ux u : decompile ux = Ret u -> is_push_program u = true -> footprint (stack_after u) <= 33 * len ux.
Proof.
  intros D P. destruct (decompile_segments _ _ D) as (s & Hs & -> & _). unfold stack_after. rewrite footprint_rev. clear D.
  induction Hs as [|i p c s Hi Hs IH]; [vm_compute; discriminate|].
  cbn [is_push_program forallb] in P. apply andb_prop in P as [P1 P2]. cbn [map concat]. rewrite footprint_cons, len_app.
  specialize (IH P2). destruct (pushed_len _ _ Hi P1). lia.
Qed.

(* ---- steps ---- *)
Section Steps.
Variable X : externals.
Variable cf : config.
Variable B : N.

Lemma step_on o q s a s' a' R : room s a <= B -> impure o = false -> o <> OP_CODESEPARATOR -> positional o = false -> 0x4e < b2n o ->
  effect X cf o s a = Some (s', a') -> runs X cf B q s' a' R -> runs X cf B (op_instr o :: q) s a R.
Proof.
  intros L I C P K E H. eapply runs_on; [assumption| | |exact H].
  - split; [assumption|]. split; [assumption|]. cbn [op_instr i_op]. congruence.
  - unfold instr_effect. cbn [op_instr i_op]. change (b2n OP_PUSHDATA4) with 78. replace (b2n o <=? 78) with false by lia. exact E.
Qed.
Lemma step_stop o q s a : room s a <= B -> impure o = false -> o <> OP_CODESEPARATOR -> positional o = false -> 0x4e < b2n o ->
  effect X cf o s a = None -> runs X cf B (op_instr o :: q) s a None.
Proof.
  intros L I C P K E. apply runs_stop; [assumption| |].
  - split; [assumption|]. split; [assumption|]. cbn [op_instr i_op]. congruence.
  - unfold instr_effect. cbn [op_instr i_op]. change (b2n OP_PUSHDATA4) with 78. replace (b2n o <=? 78) with false by lia. exact E.
Qed.
Lemma step_push d q s a R : len d < 2 ^ 31 -> room s a <= B -> runs X cf B q (d :: s) a R -> runs X cf B (push d :: q) s a R.
Proof. intros L Rm H. apply runs_push; [now apply push_is_push|assumption|]. now rewrite pushed_push. Qed.

(* DUP HASH160 d EQUALVERIFY *)
Definition address_check (d : bytes) : program := [op_instr OP_DUP; op_instr OP_HASH160; push d; op_instr OP_EQUALVERIFY].
Lemma address_runs d s a : (forall b, len (x_ripemd160 X b) = 20) -> len d = 20 -> 2 * footprint s + footprint a + 104 <= B ->
  runs X cf B (address_check d) s a
    match s with key :: _ => if bytes_eqb (x_ripemd160 X (x_sha256 X key)) d then Some (s, a) else None | [] => None end.
Proof.
  intros Hr Ld LB. unfold address_check. destruct s as [|key r].
  - apply step_stop; try reflexivity; try discriminate. unfold room. rewrite footprint_nil in *. lia.
  - rewrite footprint_cons in LB. eapply step_on; try reflexivity; try discriminate. { unfold room. rewrite footprint_cons. lia. }
    eapply step_on; try reflexivity; try discriminate. { unfold room. rewrite !footprint_cons. lia. }
    assert (Rk : room (x_ripemd160 X (x_sha256 X key) :: key :: r) a <= B) by (unfold room; rewrite !footprint_cons, Hr; lia).
    apply step_push; [rewrite Ld; reflexivity|exact Rk|].
    assert (Rd : room (d :: x_ripemd160 X (x_sha256 X key) :: key :: r) a <= B) by (unfold room; rewrite !footprint_cons, Hr, Ld; lia).
    assert (E : effect X cf OP_EQUALVERIFY (d :: x_ripemd160 X (x_sha256 X key) :: key :: r) a =
      if bytes_eqb (x_ripemd160 X (x_sha256 X key)) d then Some (key :: r, a) else None) by reflexivity.
    destruct (bytes_eqb (x_ripemd160 X (x_sha256 X key)) d).
    + eapply step_on; try exact E; try reflexivity; try discriminate; [exact Rd|]. apply runs_end. unfold room. rewrite footprint_cons. lia.
    + apply step_stop; try exact E; try reflexivity; try discriminate. exact Rd.
Qed.
End Steps.

(* ---- outputs ---- *)

Lemma standard_short X : standard X -> truncating X /\ short_hashes X.
Proof.
  intros [T H]. split; [assumption|]. intros b. destruct (H b) as (-> & -> & ->). repeat split; reflexivity.
Qed.

Section Pay.
Variable X : externals.
Variable doc : option rdoc.
Variable cf : config.
Variable neg1 : bytes.
Hypothesis St : standard X.
Hypothesis Cm : c_max_memory cf < 2 ^ 63.

Lemma address_written d : len d = 20 -> Forall written (address_program d).
Proof. intros L. unfold address_program. written_ops. apply written_push. rewrite L. reflexivity. Qed.
Lemma pubkey_written k : len k < 2 ^ 31 -> Forall written (pubkey_program k).
Proof. intros L. unfold pubkey_program. written_ops. apply written_push. assumption. Qed.
Lemma write_len p : Forall written p -> len (program_write p) <= 5 * N.of_nat (length p) + fold_right (fun i n => len (i_data i) + n) 0 p.
Proof.
  induction 1 as [|i p [H _] _ IH]; [vm_compute; discriminate|]. unfold program_write in *. cbn [map concat fold_right length]. rewrite len_app.
  pose proof (inst_len _ _ H). lia.
Qed.
Lemma push_well d : len d < 2 ^ 31 -> len d <> 256 -> len d <> 65536 -> is_minimal_instruction (push d) = true.
Proof. intros L A C. rewrite push_minimal_exact by assumption. lia. Qed.

Lemma address_decompile d lx : len d = 20 -> p2a_script d = Some lx -> decompile lx = Ret (address_program d) /\ len lx <= 45 /\ is_P2SH lx = false.
Proof.
  intros L E. pose proof (address_written d L) as W. pose proof (write_len _ W) as Lw.
  assert (Lp : len (program_write (address_program d)) <= 45).
  { unfold address_program in Lw at 2 3. cbn [fold_right length op_instr i_data] in Lw. change (len []) with 0 in Lw.
    pose proof (push_data_len d ltac:(rewrite L; reflexivity)). lia. }
  assert (L32 : len (program_write (address_program d)) < 2 ^ 32) by (change (2 ^ 32) with 4294967296; lia).
  unfold p2a_script in E. change [_; _; _; _; _] with (address_program d) in E. split; [eapply written_compile; eassumption|].
  pose proof (compile_segments _ _ (written_segments _ W) L32) as E'. change (concat (map instr_write (address_program d))) with (program_write (address_program d)) in E'.
  assert (lx = program_write (address_program d)) as -> by congruence. split; [assumption|].
  unfold program_write, address_program. cbn [map concat]. change (instr_write (op_instr OP_DUP)) with [OP_DUP]. cbn [app]. unfold is_P2SH.
  match goal with |- ?b = false => destruct b eqn:Q; [|reflexivity] end. exfalso. revert Q. cbn [nth]. rewrite !andb_true_iff.
  change (byte_eqb OP_DUP OP_HASH160) with false. intuition discriminate.
Qed.

Lemma well_pushed_address d : len d = 20 -> well_pushed cf (address_program d).
Proof.
  intros L _. unfold address_program. assert (P : is_minimal_instruction (push d) = true) by (apply push_well; rewrite L; [reflexivity|discriminate|discriminate]).
  repeat (apply Forall_cons; [first [exact P|reflexivity]|]). apply Forall_nil.
Qed.

Theorem address_spends d lx ux u : len d = 20 -> p2a_script d = Some lx -> decompile ux = Ret u -> is_push_program u = true ->
  70 * len ux + len neg1 + 200 < 2 ^ 31 ->
  (spends X doc cf neg1 ux lx -> address_unlocked X doc cf d u) /\
  (enough cf (2 * footprint (stack_after u) + 104) 5 -> address_unlocked X doc cf d u -> spends X doc cf neg1 ux lx).
Proof.
  intros Ld E Eu Pu Len. destruct (address_decompile d lx Ld E) as (El & Lx & P2). destruct (standard_short X St) as [Tr Sh].
  pose proof (stack_room ux u Eu Pu) as Rm. set (B := 2 * footprint (stack_after u) + 104).
  assert (LB : B < 2 ^ 31) by (unfold B; lia).
  pose proof (address_runs X cf B d (stack_after u) [] ltac:(intros b; apply St) Ld ltac:(unfold B; rewrite footprint_nil; lia)) as R.
  change (address_program d) with (address_check d ++ [op_instr OP_CHECKSIG]) in El.
  destruct (checksig_spends X doc cf neg1 Tr Sh Cm B ux lx u _ _ LB Eu Pu El (or_intror P2) ltac:(lia) R) as [A1 A2].
  change (address_check d ++ [op_instr OP_CHECKSIG]) with (address_program d) in A1, A2. split.
  - intros Sp. destruct (A1 Sp) as (pub & sig & rest & a & Er & Sg & Cl & W). apply well_pushed_app in W as [W _].
    destruct (stack_after u) as [|key s] eqn:Es; [discriminate|]. destruct (bytes_eqb _ d) eqn:Ed; [|discriminate]. apply bytes_eqb_eq in Ed.
    assert (key = pub) by congruence. assert (s = sig :: rest) by congruence. subst. exists sig, pub, rest. auto.
  - intros [Am Oc] (sig & key & rest & Es & Ek & Sg & Cl & W). apply (A2 key sig rest []); try assumption.
    + rewrite Es, Ek. replace (bytes_eqb d d) with true by (symmetry; now apply bytes_eqb_eq). reflexivity.
    + apply well_pushed_app. split; [assumption|now apply well_pushed_address].
    + unfold address_check. cbn [ops map forallb op_instr i_op]. destruct (push_is_push d) as [Q _]; [rewrite Ld; reflexivity|].
      apply push_op_direct in Q as (-> & _). reflexivity.
    + unfold address_check. cbn [ops map op_instr i_op]. rewrite !counted_cons. destruct (push_is_push d) as [Q _]; [rewrite Ld; reflexivity|].
      apply push_op_direct in Q as (_ & _ & _ & -> & _). vm_compute (b2n OP_16 <? b2n OP_DUP). change (counted []) with 0.
      change (b2n OP_16 <? b2n OP_DUP) with true. change (b2n OP_16 <? b2n OP_HASH160) with true. change (b2n OP_16 <? b2n OP_EQUALVERIFY) with true.
      cbv iota. lia.
Qed.

Theorem pubkey_spends k lx ux u : len k = 33 \/ len k = 65 -> p2p_script k = Some lx -> decompile ux = Ret u -> is_push_program u = true ->
  70 * len ux + len neg1 + 400 < 2 ^ 31 ->
  (spends X doc cf neg1 ux lx -> pubkey_unlocked doc cf k u) /\
  (enough cf (footprint (stack_after u) + 97) 2 -> pubkey_unlocked doc cf k u -> spends X doc cf neg1 ux lx).
Proof.
  intros Lk E Eu Pu Len. destruct (standard_short X St) as [Tr Sh].
  assert (Lk31 : len k < 2 ^ 31) by (destruct Lk as [-> | ->]; reflexivity).
  pose proof (pubkey_written k Lk31) as W. pose proof (write_len _ W) as Lw.
  assert (Lp : len (program_write (pubkey_program k)) <= 80).
  { unfold pubkey_program in Lw at 2 3. cbn [fold_right length op_instr i_data] in Lw. change (len []) with 0 in Lw. pose proof (push_data_len k Lk31). lia. }
  assert (L32 : len (program_write (pubkey_program k)) < 2 ^ 32) by (change (2 ^ 32) with 4294967296; lia).
  unfold p2p_script in E. change [push k; op_instr OP_CHECKSIG] with (pubkey_program k) in E.
  pose proof (written_compile _ _ W L32 E) as El.
  pose proof (compile_segments _ _ (written_segments _ W) L32) as E'. change (concat (map instr_write (pubkey_program k))) with (program_write (pubkey_program k)) in E'.
  assert (Ex : lx = program_write (pubkey_program k)) by congruence.
  assert (P2 : is_P2SH lx = false).
  { rewrite Ex. unfold is_P2SH. match goal with |- ?b = false => destruct b eqn:Q; [|reflexivity] end. exfalso. revert Q. rewrite !andb_true_iff.
    destruct (push_inst k Lk31) as [Ip Fp]. unfold program_write, pubkey_program. cbn [map concat]. intros Q.
    assert (Hd : nth 0 (instr_write (push k) ++ instr_write (op_instr OP_CHECKSIG) ++ []) x00 = i_op (push k)).
    { destruct (instr_write (push k)) as [|o t] eqn:Ew; [inversion Ip|]. cbn [app nth]. inversion Ip; subst; congruence. }
    rewrite Hd in Q. destruct (push_is_push k Lk31) as [Po _]. apply push_op_direct in Po as (_ & _ & _ & Po & _).
    assert (Q1 : byte_eqb (i_op (push k)) OP_HASH160 = true) by tauto. apply byte_eqb_eq in Q1. rewrite Q1 in Po. discriminate. }
  pose proof (stack_room ux u Eu Pu) as Rm. set (B := footprint (stack_after u) + 97).
  assert (LB : B < 2 ^ 31) by (unfold B; lia).
  assert (R : runs X cf B [push k] (stack_after u) [] (Some (k :: stack_after u, []))).
  { apply step_push; [assumption|unfold room, B; rewrite footprint_nil; lia|]. apply runs_end. unfold room, B. rewrite footprint_cons, footprint_nil. lia. }
  change (pubkey_program k) with ([push k] ++ [op_instr OP_CHECKSIG]) in El.
  assert (Lx : len lx <= 80) by (rewrite Ex; exact Lp).
  destruct (checksig_spends X doc cf neg1 Tr Sh Cm B ux lx u _ _ LB Eu Pu El (or_intror P2) ltac:(lia) R) as [A1 A2].
  change ([push k] ++ [op_instr OP_CHECKSIG]) with (pubkey_program k) in A1, A2. split.
  - intros Sp. destruct (A1 Sp) as (pub & sig & rest & a & Er & Sg & Cl & Wp). apply well_pushed_app in Wp as [Wp _].
    assert (pub = k) by congruence. assert (stack_after u = sig :: rest) by congruence. subst. exists sig, rest. auto.
  - intros [Am Oc] (sig & rest & Es & Sg & Cl & Wp). apply (A2 k sig rest []); try assumption.
    + rewrite Es. reflexivity.
    + apply well_pushed_app. split; [assumption|]. intros _. repeat constructor. apply push_well; lia.
    + cbn [ops map forallb]. apply push_is_push in Lk31 as [Q _]. apply push_op_direct in Q as (-> & _). reflexivity.
    + cbn [ops map]. rewrite counted_cons. apply push_is_push in Lk31 as [Q _]. apply push_op_direct in Q as (_ & _ & _ & -> & _).
      change (counted []) with 0. lia.
Qed.

(* with SIGPUSHONLY there is no other way *)
Theorem address_protected d lx ux : has_flag FLAG_SIGPUSHONLY (c_flags cf) = true -> len d = 20 -> p2a_script d = Some lx ->
  70 * len ux + len neg1 + 200 < 2 ^ 31 -> spends X doc cf neg1 ux lx ->
  exists u, decompile ux = Ret u /\ is_push_program u = true /\ address_unlocked X doc cf d u.
Proof.
  intros F Ld E Len Sp. destruct (address_decompile d lx Ld E) as (_ & Lx & _).
  destruct (push_only X doc cf neg1 ux lx F ltac:(lia) Sp) as (u & Eu & Pu).
  exists u. repeat (split; [assumption|]). apply (address_spends d lx ux u Ld E Eu Pu Len). exact Sp.
Qed.

(* the unlocking scripts that the library writes *)
Lemma redeem_decompile ds ux : Forall (fun d => len d < 2 ^ 31) ds -> len (program_write (map push ds)) < 2 ^ 32 -> compile (map push ds) = Some ux ->
  decompile ux = Ret (map push ds) /\ is_push_program (map push ds) = true /\ stack_after (map push ds) = rev ds.
Proof.
  intros L Lw E. split; [|split].
  - eapply written_compile; [|exact Lw|exact E]. clear - L. induction L; constructor; [apply written_push; assumption|assumption].
  - unfold is_push_program. rewrite forallb_forall. intros i Hi. apply in_map_iff in Hi as (d & <- & Hd). rewrite Forall_forall in L. apply push_is_push; auto.
  - unfold stack_after. f_equal. rewrite map_map. clear - L. induction L; cbn [map]; [reflexivity|]. rewrite pushed_push, IHL by assumption. reflexivity.
Qed.

Theorem address_redeemed d lx sig key ux : len d = 20 -> p2a_script d = Some lx -> len sig < 256 -> len key < 256 -> p2a_redeem sig key = Some ux ->
  len neg1 < 2 ^ 30 ->
  (spends X doc cf neg1 ux lx -> x_ripemd160 X (x_sha256 X key) = d /\ signed doc (address_program d) sig key) /\
  (enough cf (2 * (len sig + len key) + 232) 5 -> x_ripemd160 X (x_sha256 X key) = d -> signed doc (address_program d) sig key ->
   spends X doc cf neg1 ux lx).
Proof.
  intros Ld E Ls Lk R Ln. unfold p2a_redeem in R. change [push sig; push key] with (map push [sig; key]) in R.
  assert (Ls31 : len sig < 2 ^ 31) by (change (2 ^ 31) with 2147483648; lia). assert (Lk31 : len key < 2 ^ 31) by (change (2 ^ 31) with 2147483648; lia).
  assert (Lf : Forall (fun d => len d < 2 ^ 31) [sig; key]) by (repeat constructor; assumption).
  assert (W : Forall written (map push [sig; key])) by (repeat constructor; apply written_push; assumption).
  pose proof (write_len _ W) as Lw. cbn [map fold_right length] in Lw. pose proof (push_data_len sig Ls31). pose proof (push_data_len key Lk31).
  assert (Lp : len (program_write (map push [sig; key])) <= 600) by (cbn [map]; lia).
  assert (L32 : len (program_write (map push [sig; key])) < 2 ^ 32) by (change (2 ^ 32) with 4294967296; lia).
  destruct (redeem_decompile _ _ Lf L32 R) as (D & P & Sa). cbn [rev app] in Sa.
  assert (Lu : len ux <= 600).
  { pose proof (compile_segments _ _ (written_segments _ W) L32) as E'. change (concat (map instr_write ?p)) with (program_write p) in E'.
    assert (ux = program_write (map push [sig; key])) as -> by congruence. exact Lp. }
  destruct (address_spends d lx ux _ Ld E D P) as [A1 A2]; [change (2 ^ 30) with 1073741824 in Ln; change (2 ^ 31) with 2147483648; lia|].
  rewrite Sa, !footprint_cons, footprint_nil in A2. split.
  - intros Sp. destruct (A1 Sp) as (sig' & key' & rest & Es & Hh & Sg & _). rewrite Sa in Es.
    assert (key' = key) by congruence. assert (sig' = sig) by congruence. subst. auto.
  - intros [Am Oc] H1 H2. apply A2.
    + split; [|assumption]. match goal with |- ample ?b _ => replace b with (2 * (len sig + len key) + 232) by lia end. assumption.
    + exists sig, key, []. rewrite Sa. repeat (split; [first [assumption|reflexivity|intros _; reflexivity]|]).
      intros _. cbn [map]. repeat constructor; apply push_well; lia.
Qed.
End Pay.

Theorem signed_fine K f v lt sq l sig pub : signed (Some (document K f v lt sq)) l sig pub <-> signature_fine K f (cleanup_script_code l sig) sig pub.
Proof. unfold signed, document. cbn [d_verify]. apply verify_signature_exact. Qed.
Lemma signed_code K f v lt sq l sig pub : has_flag FLAG_REQUIRE_FORKID f = true -> signed (Some (document K f v lt sq)) l sig pub ->
  signature_fine K f l sig pub.
Proof.
  intros F S. apply signed_fine in S. assert (C : cleanup_script_code l sig = l).
  { unfold cleanup_script_code, has_fork_id, sig_directive. destruct S as (_ & _ & _ & _ & S & _). specialize (S F). destruct (N.testbit _ 6); [reflexivity|discriminate]. }
  now rewrite C in S.
Qed.

Lemma library_enough f c memory operations : memory < 2 ^ 31 -> operations <= 500 -> has_flag FLAG_GENESIS_STACK f = true \/ memory <= 520 ->
  enough (script_config f c) memory operations /\ c_max_memory (script_config f c) < 2 ^ 63.
Proof.
  intros M O G. change (2 ^ 31) with 2147483648 in M. split; [split|].
  - unfold limits_of, ample. assert (Ef : c_flags (script_config f c) = f) by (unfold script_config; destruct (negb _); reflexivity). rewrite Ef.
    destruct (has_flag FLAG_GENESIS_STACK f).
    + replace (c_max_memory (script_config f c)) with INT64_MAX by (unfold script_config; destruct (negb _); reflexivity).
      change INT64_MAX with 9223372036854775807. lia.
    + destruct G as [G|G]; [discriminate|]. unfold MAX_ELEMENT_BEFORE_GENESIS, MAX_ELEMENTS_BEFORE_GENESIS. lia.
  - unfold script_config. destruct (negb _); cbn [c_max_ops]; [change MAX_OPS_BEFORE_GENESIS with 500|change UINT32_MAX with 4294967295]; lia.
  - unfold script_config. destruct (negb _); reflexivity.
Qed.
