From Verif Require Import Base BaseProofs WireModel WireProofs ScriptModel ScriptSpec ScriptProofs ProgramProofs NumModel NumSpec NumProofs.
From Verif Require Import StackModel StackSpec StackProofs MachineModel MachineSpec MachineProofs OpcodeProofs RunProofs ControlProofs FlowProofs SpendProofs.
From Verif Require Import PatternModel PatternTemplates StraightSpec StraightProofs StraightEval PayRunSpec PayRunProofs MultiRunProofs CheckRunSpec CheckRunProofs CheckSpendProofs.
From Coq Require Import Lia ZifyBool ZifyNat ZifyN.
Ltac Zify.zify_post_hook ::= Z.div_mod_to_equations.
Local Open Scope N_scope.

Lemma enc_short t : (0 <= t < 2 ^ 32)%Z -> len (sn_enc t) <= 5.
Proof.
  intros H. unfold len. rewrite sn_enc_length. destruct (Z.eq_dec t 0) as [->|Nz]; [vm_compute; discriminate|].
  destruct (sn_size_pos _ Nz) as (k & E & _ & B). rewrite E. destruct (Nat.le_gt_cases k 4) as [|G]; [lia|].
  destruct k as [|k]; [lia|]. specialize (B k eq_refl). pose proof (pow256_mono 4 k ltac:(lia)) as P.
  change (pow256 4) with 4294967296 in P. change (2 ^ 32)%Z with 4294967296%Z in H. lia.
Qed.
Lemma bit31 t : (0 <= t < 2 ^ 32)%Z -> N.testbit (Z.to_N t) 31 = false <-> (t < 2 ^ 31)%Z.
Proof.
  intros H. rewrite <- (Z2N.id t) at 2 by lia. set (n := Z.to_N t). assert (Hn : n < 2 ^ 32) by (unfold n; change (2 ^ 32) with 4294967296; change (2 ^ 32)%Z with 4294967296%Z in H; lia).
  pose proof (N.testbit_spec' n 31) as Q. change (2 ^ 31) with 2147483648 in Q. change (2 ^ 31)%Z with 2147483648%Z. change (2 ^ 32) with 4294967296 in Hn.
  clearbody n. destruct (N.testbit n 31); cbn [N.b2n] in Q; split; intros Z; [discriminate| |lia|reflexivity]. exfalso. lia.
Qed.
Lemma lock_kept_met vf v lt sq o t : lock_op o -> (- 2 ^ 31 <= v < 2 ^ 31)%Z -> (0 <= t < 2 ^ 32)%Z ->
  lock_met (lock_document vf v lt sq) o (sn_enc t) = true <-> lock_kept o v lt sq t.
Proof.
  intros Ho Hv Ht. unfold lock_met, lock_kept, lock_document. rewrite sn_val_enc, Z.mod_small by exact Ht. destruct Ho as [-> | ->].
  - change (byte_eqb OP_CHECKLOCKTIMEVERIFY OP_CHECKLOCKTIMEVERIFY) with true. cbv iota. cbn [d_locktime]. rewrite check_locktime_exact, Z2N.id by lia. reflexivity.
  - change (byte_eqb OP_CHECKSEQUENCEVERIFY OP_CHECKLOCKTIMEVERIFY) with false. cbv iota. cbn [d_sequence]. rewrite andb_true_iff, negb_true_iff, check_sequence_exact by exact Hv.
    now rewrite bit31.
Qed.

Section Locks.
Variable X : externals.
Variable cf : config.
Variable neg1 : bytes.
Hypothesis St : standard X.
Hypothesis Cm : c_max_memory cf < 2 ^ 63.

Theorem lock_spends vf v lt sq o t key sig ux lx : lock_op o -> (- 2 ^ 31 <= v < 2 ^ 31)%Z -> (0 <= t < 2 ^ 32)%Z ->
  compile [push sig] = Some ux -> compile (locked_program o t key) = Some lx -> 3 * footprint [sig; key] + len neg1 + 300 < 2 ^ 31 ->
  let doc := lock_document vf v lt sq in
  (spends X doc cf neg1 ux lx -> lock_opens cf o v lt sq t /\ signed doc (locked_program o t key) sig key) /\
  (enough cf (footprint [sig; key] + 64) 4 -> well_pushed cf [push sig; push key] -> lock_opens cf o v lt sq t ->
   signed doc (locked_program o t key) sig key -> spends X doc cf neg1 ux lx).
Proof.
  intros Ho Hv Ht Eu Er Len doc. repeat rewrite footprint_cons in Len. repeat rewrite footprint_cons. rewrite footprint_nil in *. change (2 ^ 31) with 2147483648 in Len.
  assert (Lk : len key < 2 ^ 31) by (change (2 ^ 31) with 2147483648; lia).
  assert (Ls : len sig < 2 ^ 31) by (change (2 ^ 31) with 2147483648; lia).
  pose proof (enc_short t Ht) as L5. set (x := sn_enc t) in *.
  assert (Lx : len x < 2 ^ 31) by (change (2 ^ 31) with 2147483648; lia).
  assert (Co : ~ control_op o /\ o <> OP_RETURN) by (unfold control_op; destruct Ho as [-> | ->]; split; intuition discriminate).
  unfold locked_program in *. fold x in Er. fold x. set (l := [push x; op_instr o; op_instr OP_DROP; push key; op_instr OP_CHECKSIG]) in *.
  assert (Wr : Forall written l).
  { constructor; [now apply written_push|]. constructor; [destruct Ho as [-> | ->]; (apply written_op; [reflexivity|repeat split; discriminate|unfold control_op; intuition discriminate])|].
    constructor; [apply written_op; [reflexivity|repeat split; discriminate|unfold control_op; intuition discriminate]|]. constructor; [now apply written_push|].
    constructor; [apply written_op; [reflexivity|repeat split; discriminate|unfold control_op; intuition discriminate]|constructor]. }
  assert (Lw : len (program_write l) <= 25 + (len (i_data (push x)) + (0 + (0 + (len (i_data (push key)) + (0 + 0)))))) by exact (written_len _ Wr).
  pose proof (ScriptProofs.push_data_len key Lk) as Pk. pose proof (ScriptProofs.push_data_len x Lx) as Px.
  assert (L32 : len (program_write l) < 2 ^ 32) by (change (2 ^ 32) with 4294967296; lia).
  pose proof (written_compile _ _ Wr L32 Er) as Dr.
  assert (Xr : lx = program_write l).
  { pose proof (compile_segments _ _ (written_segments _ Wr) L32) as E'. change (concat (map instr_write l)) with (program_write l) in E'. congruence. }
  assert (Wu : Forall written [push sig]) by (constructor; [now apply written_push|constructor]).
  assert (Lv : len (program_write [push sig]) <= 5 + (len (i_data (push sig)) + 0)) by exact (written_len _ Wu).
  pose proof (ScriptProofs.push_data_len sig Ls) as Ps.
  assert (L32u : len (program_write [push sig]) < 2 ^ 32) by (change (2 ^ 32) with 4294967296; lia).
  pose proof (written_compile _ _ Wu L32u Eu) as Du.
  assert (Xu : ux = program_write [push sig]).
  { pose proof (compile_segments _ _ (written_segments _ Wu) L32u) as E'. change (concat (map instr_write [push sig])) with (program_write [push sig]) in E'. congruence. }
  assert (Len2 : 2 * len ux + len lx + len neg1 + 2 < 2 ^ 31) by (rewrite Xu, Xr; change (2 ^ 31) with 2147483648; lia).
  assert (P2 : is_P2SH lx = false).
  { rewrite Xr. unfold is_P2SH. match goal with |- ?b = false => destruct b eqn:Q; [|reflexivity] end. exfalso. revert Q. rewrite !andb_true_iff.
    destruct (push_inst x Lx) as [Ip Fp]. unfold program_write, l. cbn [map app concat]. intros Q.
    match type of Q with context [nth 0 (instr_write (push x) ++ ?r) x00] =>
      assert (Hd : nth 0 (instr_write (push x) ++ r) x00 = i_op (push x)) end.
    { destruct (instr_write (push x)) as [|h tl] eqn:Ew; [inversion Ip|]. cbn [app nth]. inversion Ip; subst; congruence. }
    rewrite Hd in Q. destruct (push_is_push x Lx) as [Po _]. apply push_op_direct in Po as (_ & _ & _ & Po & _).
    assert (Q1 : byte_eqb (i_op (push x)) OP_HASH160 = true) by tauto. apply byte_eqb_eq in Q1. rewrite Q1 in Po. discriminate. }
  assert (Pu : is_push_program [push sig] = true) by (cbn [is_push_program forallb]; rewrite andb_true_r; now apply push_is_push).
  assert (Sa : stack_after [push sig] = [sig]) by (unfold stack_after; cbn [map rev app]; now rewrite pushed_push).
  set (B := len sig + 32 + (len key + 32 + 0) + 64).
  assert (LB : B < 2 ^ 31) by (unfold B; change (2 ^ 31) with 2147483648; lia).
  assert (R0 : room [sig] [] <= B) by (unfold room, B; repeat rewrite footprint_cons; rewrite !footprint_nil; lia).
  assert (R1 : room [x; sig] [] <= B) by (unfold room, B; repeat rewrite footprint_cons; rewrite !footprint_nil; lia).
  assert (R2 : room [key; sig] [] <= B) by (unfold room, B; repeat rewrite footprint_cons; rewrite !footprint_nil; lia).
  assert (R3 : forall b, room [sn_bool b] [] <= B).
  { intros b. assert (len (sn_bool b) <= 1) by (destruct b; vm_compute; discriminate). unfold room, B. repeat rewrite footprint_cons. rewrite !footprint_nil. lia. }
  set (c := check_one doc l sig key).
  set (op := if has_flag (lock_flag o) (c_flags cf) then negb (has_flag FLAG_DISCOURAGE_NOPS (c_flags cf)) else lock_met doc o x).
  assert (Op : op = true <-> lock_opens cf o v lt sq t).
  { unfold op, lock_opens. destruct (has_flag (lock_flag o) (c_flags cf)).
    - apply negb_true_iff.
    - now apply lock_kept_met. }
  assert (Good : lock_good doc cf o x = lock_met doc o x).
  { unfold lock_good. assert (Mi : is_minimal_number x = true) by apply sn_enc_minimal. rewrite Mi, orb_true_r, (proj2 (N.leb_le _ _) L5). unfold x. rewrite sn_val_enc.
    rewrite (proj2 (Z.leb_le 0 t) (proj1 Ht)). reflexivity. }
  assert (Nz : minimal cf = true \/ ~ negative_zero x) by (right; apply minimal_no_nz, sn_enc_minimal).
  assert (Stp : check_step X doc cf l (op_instr o) [x; sig] [] (if op then Goes [x; sig] [] 1 else Refused)).
  { unfold op. destruct (has_flag (lock_flag o) (c_flags cf)) eqn:Fl.
    - pose proof (step_no_lock X doc cf l o [x; sig] [] Ho Fl) as T. destruct (has_flag FLAG_DISCOURAGE_NOPS (c_flags cf)); exact T.
    - pose proof (step_lock X doc cf l o x [sig] [] Ho Fl Nz) as T. rewrite Good in T. exact T. }
  assert (H : check_runs X doc cf l B l (stack_after [push sig]) []
    (if op then if serror_is_ok (r_error c) then Goes [sn_bool (r_success c)] [] 3 else Refused else Refused)).
  { rewrite Sa. apply push_runs; [assumption..|]. destruct op; [|apply check_refused; assumption].
    assert (T : check_runs X doc cf l B [op_instr OP_DROP; push key; op_instr OP_CHECKSIG] [x; sig] []
      (after 1 (if serror_is_ok (r_error c) then Goes [sn_bool (r_success c)] [] 1 else Refused))).
    { change 1 with (counted [i_op (op_instr OP_DROP)]) at 1.
      eapply direct_step; [reflexivity|discriminate|reflexivity|reflexivity|exact R1|]. apply push_runs; [assumption..|].
      destruct (serror_is_ok (r_error c)) eqn:Q.
      - apply serror_ok_iff in Q. change (Goes [sn_bool (r_success c)] [] 1) with (after 1 (Goes [sn_bool (r_success c)] [] 0)).
        eapply check_on; [exact R2|apply step_sig; exact Q|]. apply check_end, R3.
      - apply (check_progress X doc cf OP_CHECKSIG l B [] key sig [] [] (or_introl eq_refl) R2). intros Q'. apply serror_ok_iff in Q'. fold c in Q'. congruence. }
    match type of T with check_runs _ _ _ _ _ _ _ _ ?e => replace (if serror_is_ok (r_error c) then Goes [sn_bool (r_success c)] [] 3 else Refused) with (after 1 e) by (destruct (serror_is_ok (r_error c)); reflexivity) end.
    eapply check_on; [exact R1|exact Stp|exact T]. }
  destruct (check_spends X doc cf neg1 St Cm B ux lx [push sig] l _ LB Du Pu Dr (or_intror P2) Len2 H) as [A1 A2].
  assert (Nb : forall b, nonzeroZ (sn_val (sn_bool b)) = b) by (intros []; reflexivity).
  split.
  - intros Sp. destruct (A1 Sp) as (_ & y & [Q|(tp & r & a & Q & Q2 & _)] & _).
    + destruct op; [|discriminate]. destruct (serror_is_ok (r_error c)); discriminate.
    + destruct op; [|discriminate]. split; [now apply Op|]. destruct (serror_is_ok (r_error c)) eqn:Qe; [|discriminate]. apply serror_ok_iff in Qe. apply signed_check. fold c. split; [exact Qe|].
      assert (tp = sn_bool (r_success c)) by congruence. subst tp. now rewrite Nb in Q2.
  - intros En Wp Lo Sg. apply Op in Lo. apply signed_check in Sg as [Q1 Q2]. fold c in Q1, Q2. rewrite Lo, Q1 in A2. cbn [serror_is_ok] in A2. apply (A2 3); [|exact En| |].
    + right. exists (sn_bool (r_success c)), [], []. rewrite Nb. split; [reflexivity|]. split; [exact Q2|]. intros _. reflexivity.
    + unfold plain_ops, l. cbn [map op_instr i_op]. destruct (push_is_push key Lk) as [Pk' _]. destruct (push_op_direct _ Pk') as (_ & _ & _ & _ & K1 & K2).
      destruct (push_is_push x Lx) as [Px' _]. destruct (push_op_direct _ Px') as (_ & _ & _ & _ & K3 & K4).
      constructor; [auto|]. constructor; [exact Co|]. constructor; [split; [unfold control_op; intuition discriminate|discriminate]|]. constructor; [auto|].
      constructor; [split; [unfold control_op; intuition discriminate|discriminate]|constructor].
    + intros Fm. specialize (Wp Fm). inversion Wp as [|? ? W1 W2]; subst. inversion W2 as [|? ? W3 _]; subst. unfold l. cbn [app].
      constructor; [exact W1|]. constructor; [apply (push_well cf Cm); lia|]. constructor; [destruct Ho as [-> | ->]; reflexivity|]. constructor; [reflexivity|]. constructor; [exact W3|]. constructor; [reflexivity|constructor].
Qed.

(* ---- with the flag, and when the instruction is discouraged, nothing spends it ---- *)
Theorem lock_frozen doc o x rest ux lx u : lock_op o -> has_flag (lock_flag o) (c_flags cf) = true -> has_flag FLAG_DISCOURAGE_NOPS (c_flags cf) = true ->
  decompile ux = Ret u -> is_push_program u = true -> decompile lx = Ret (push x :: op_instr o :: rest) -> is_P2SH lx = false ->
  35 * len ux + 2 * len x + len lx + len neg1 + 100 < 2 ^ 31 -> ~ spends X doc cf neg1 ux lx.
Proof.
  intros Ho Fl Fd Eu Pu El P2 Len Sp. change (2 ^ 31) with 2147483648 in Len.
  assert (Len2 : 2 * len ux + len lx + len neg1 + 2 < 2 ^ 31) by (change (2 ^ 31) with 2147483648; lia).
  pose proof (stack_room ux u Eu Pu) as Rm.
  assert (Lx : len x < 2 ^ 31) by (change (2 ^ 31) with 2147483648; lia).
  set (B := footprint (stack_after u) + len x + 32). assert (LB : B < 2 ^ 31) by (unfold B; change (2 ^ 31) with 2147483648; lia).
  set (l := push x :: op_instr o :: rest) in *.
  assert (H : check_runs X doc cf l B l (stack_after u) [] Refused).
  { apply push_runs; [exact Lx|unfold room, B; rewrite footprint_nil; lia|]. apply check_refused; [unfold room, B; rewrite footprint_cons, footprint_nil; lia|].
    pose proof (step_no_lock X doc cf l o (x :: stack_after u) [] Ho Fl) as T. rewrite Fd in T. exact T. }
  destruct (check_spends X doc cf neg1 St Cm B ux lx u l _ LB Eu Pu El (or_intror P2) Len2 H) as [A _]. destruct (A Sp) as (_ & y & [Q|(? & ? & ? & Q & _)] & _); discriminate.
Qed.
End Locks.
