From Verif Require Import Base BaseProofs WireModel WireProofs ScriptModel ScriptSpec ScriptProofs ProgramProofs NumModel NumSpec NumProofs.
From Verif Require Import StackModel StackSpec StackProofs MachineModel MachineSpec MachineProofs OpcodeProofs RunProofs ControlProofs FlowProofs.
From Coq Require Import ZifyBool ZifyNat ZifyN.
Ltac Zify.zify_post_hook ::= Z.div_mod_to_equations.
Local Open Scope N_scope.

(* ---- one executed instruction ---- *)

Lemma push_data_exact i c : is_inst i c -> b2n (i_op i) <= b2n OP_PUSHDATA4 -> get_push_data c = i_data i.
Proof.
  unfold is_inst. destruct i as [o d]. cbn [i_op i_data]. intros H B. inversion H; subst.
  - unfold get_push_data. assert (E : b2n (n2b (len d)) = len d) by (rewrite b2n_n2b; apply N.mod_small; lia).
    unfold is_push_data. rewrite E. replace (len d <=? 78) with true by lia. cbn [negb]. replace (len d <=? 75) with true by lia. reflexivity.
  - reflexivity.
  - reflexivity.
  - reflexivity.
  - exfalso. change (b2n OP_PUSHDATA4) with 0x4e in B. lia.
Qed.

Theorem step_table X doc cf c i m : is_inst i (pc_next c) -> running m = true -> impure (i_op i) = false ->
  (b2n OP_16 < b2n (i_op i) -> m_ops m < c_max_ops cf) ->
  good (m_stack m) -> small (s_main (m_stack m)) -> roomy (s_lim (m_stack m)) -> truncating X -> short_hashes X ->
  (positional (i_op i) = true -> no_negative_zero cf (i_op i) (s_main (m_stack m))) -> len (pc_next c) < 2 ^ 62 ->
  agrees (counting (i_op i) m) (step X doc cf c m) (instr_effect X cf i (s_main (m_stack m)) (s_alt (m_stack m))).
Proof.
  intros I R P O G S Rm Tr Sh Nz L. destruct (inst_cons _ _ I) as (t & E). rewrite (step_cons X doc cf c m (i_op i) t E), R, count_exact.
  assert (C : forall k : mstate -> mres mstate unit, match (if b2n OP_16 <? b2n (i_op i)
      then if m_ops m + 1 <=? c_max_ops cf then Val tt (with_ops m (m_ops m + 1)) else Stop (result_of_error E_OP_COUNT) (with_ops m (m_ops m + 1))
      else Val tt m) with Val _ m' => k m' | r => r end = k (counting (i_op i) m)).
  { intros k. unfold counting. destruct (b2n OP_16 <? b2n (i_op i)) eqn:Q.
    - replace (m_ops m + 1 <=? c_max_ops cf) with true by (specialize (O ltac:(lia)); lia). reflexivity.
    - destruct m; reflexivity. }
  rewrite C. unfold instr_effect. destruct (b2n (i_op i) <=? b2n OP_PUSHDATA4) eqn:B.
  - rewrite <- E, (push_data_exact i (pc_next c) I) by lia.
    assert (Ld : len (i_data i) < 2 ^ 62). { rewrite <- (push_data_exact i (pc_next c) I) by lia. pose proof (push_data_len (pc_next c)). lia. }
    apply R_last. eapply (R_push (counting (i_op i) m) (Some (i_data i :: s_main (m_stack m), s_alt (m_stack m))) _ _ (s_main (m_stack m)) (s_alt (m_stack m)) (i_data i)).
    + exact (at_refl (counting (i_op i) m) G).
    + exact Ld.
    + intros m' A. eapply R_done; [exact A|reflexivity].
    + intros F s a Q. inversion Q; subst. exact F.
  - apply (exec_exact X doc cf c (i_op i) (counting (i_op i) m)); assumption.
Qed.

(* ---- from evaluation to a run ---- *)

Section Spend.
Variable X : externals.
Variable doc : option rdoc.
Variable cf : config.
Variable neg1 : bytes.

Lemma eval_run ux lx p r : setup_program cf neg1 ux lx = Ret (p, r) -> r_error r = E_OK ->
  2 * len ux + len lx + len neg1 + 2 < 2 ^ 31 ->
  exists s, segments p s /\ len (concat s) < 2 ^ 31 /\
  evaluate X doc cf neg1 ux lx = match machine_run X doc cf (S (length (concat s))) (counter_at s 0 0) (machine0 cf) with
    | Ret (r, _, _) => Ret r | Throw _ => Throw X_Fuel | Undef => Undef end.
Proof.
  intros H R L. destruct (interpreter_starts cf neg1 ux lx p r H L) as (s & Hs & Ls & E). exists s. repeat split; auto.
  unfold evaluate. rewrite E. unfold interp_run. cbn [in_halt in_counter in_state]. rewrite R. cbn [serror_is_ok negb].
  unfold run_fuel, counter_at at 1. unfold counter_at at 1. cbn [pc_script pc_pos firstn concat]. change (len []) with 0.
  replace (length (concat s) - N.to_nat 0)%nat with (length (concat s)) by lia.
  destruct (machine_run _ _ _ _ _ _) as [[[? ?] ?]| |]; reflexivity.
Qed.

(* a locking script that is not pay to script hash *)
Lemma setup_plain ux lx u l : decompile ux = Ret u -> decompile lx = Ret l ->
  has_flag FLAG_P2SH (c_flags cf) = false \/ is_P2SH lx = false -> len lx < 2 ^ 32 ->
  has_flag FLAG_SIGPUSHONLY (c_flags cf) = false \/ is_push_program u = true ->
  setup_program cf neg1 ux lx = Ret (u ++ [op_instr OP_CODESEPARATOR] ++ l,
    result_of_error (pre_verify (u ++ [op_instr OP_CODESEPARATOR] ++ l) (c_flags cf))).
Proof.
  intros Eu El P L S. unfold setup_program. rewrite Eu, El.
  assert (C : is_P2SH_program l = Some (is_P2SH lx)). { unfold is_P2SH_program. rewrite (compile_decompile lx l El L). reflexivity. }
  rewrite C. unfold full. rewrite C.
  assert (SP : has_flag FLAG_SIGPUSHONLY (c_flags cf) && negb (is_push_program u) = false).
  { destruct S as [-> | ->]; [reflexivity|apply andb_false_r]. }
  rewrite SP. destruct P as [P|P]; rewrite P; cbn [negb andb]; [reflexivity|]. rewrite andb_false_r.
  destruct (negb (has_flag FLAG_P2SH (c_flags cf))); reflexivity.
Qed.

Lemma op_verify_ok f o : known_op o -> 0x4e < b2n o -> instr_verify f (op_instr o) = E_OK.
Proof.
  intros (K1 & K2 & K3 & K4) B. unfold instr_verify, verify_instruction, op_instr, is_minimal_push. cbn [i_op i_data].
  replace ((b2n o =? 255) || (b2n o =? 80) || (b2n o =? 137) || (b2n o =? 138) || (186 <=? b2n o)) with false by lia.
  assert (P : is_push_data o = false) by (unfold is_push_data; lia). rewrite P. cbn [negb len length N.of_nat].
  change (len []) with 0. change (0 <? 0) with false. change (0 =? 0) with true. cbn [negb]. rewrite andb_false_r. reflexivity.
Qed.
Lemma op0_verify_ok f : instr_verify f (op_instr OP_0) = E_OK.
Proof. unfold instr_verify. change (verify_instruction (op_instr x00)) with E_OK. change (is_minimal_push _ _) with true. rewrite andb_false_r. reflexivity. Qed.

Lemma valid_cons o q f : instr_verify f (op_instr o) = E_OK -> ~ control_op o -> o <> OP_RETURN ->
  forall c, valid_program (op_instr o :: q) c f = valid_program q c f.
Proof.
  intros V N R c. cbn [valid_program]. rewrite V, (verify_ok_minimal _ _ V). cbn [op_instr i_op i_data].
  assert (Cv : control_valid o c = Some c).
  { unfold control_valid. replace (byte_eqb o OP_ENDIF) with false; [replace (byte_eqb o OP_ELSE || byte_eqb o OP_IF || byte_eqb o OP_NOTIF) with false; [reflexivity|]|].
    - symmetry. apply not_true_is_false. intros Q. apply N. rewrite !orb_true_iff, !byte_eqb_eq in Q. unfold control_op. tauto.
    - symmetry. apply not_true_is_false. intros Q. apply N. rewrite byte_eqb_eq in Q. unfold control_op. tauto. }
  rewrite Cv. replace (byte_eqb o OP_RETURN) with false; [reflexivity|]. symmetry. now apply byte_eqb_neq.
Qed.

(* the room needed by two short strings *)
Lemma push_ok m x n : sound m -> s_lim (m_stack m) = s_lim (m_stack (machine0 cf)) -> some_room cf -> len x <= 1 ->
  s_alt (m_stack m) = [] -> s_main (m_stack m) = [] \/ (exists y, s_main (m_stack m) = [y] /\ len y <= 1 /\ len x = 0) ->
  n = m_ops m ->
  exists m', push_stack x m = Val tt m' /\ sound m' /\ s_lim (m_stack m') = s_lim (m_stack m) /\
    s_main (m_stack m') = x :: s_main (m_stack m) /\ s_alt (m_stack m') = [] /\ m_exec m' = m_exec m /\ m_else m' = m_else m /\ m_ops m' = n.
Proof.
  intros [G Ee] El Rm Lx Ea Em ->. unfold push_stack, lift.
  assert (L62 : len x < 2 ^ 62) by (apply lt62; change (2 ^ 31) with 2147483648; lia).
  pose proof (push_back_spec _ x G L62) as P. destruct (push_back x (m_stack m)) as [[] st| | |]; try contradiction.
  - destruct P as (L1 & M1 & A1 & G1). eexists. split; [reflexivity|]. cbn. repeat split; auto; try congruence; apply G1.
  - exfalso. destruct P as [_ P]. apply P. rewrite El, Ea. unfold machine0. cbn [m_stack stack0 s_lim].
    destruct (has_flag FLAG_GENESIS_STACK (c_flags cf)) eqn:Fg.
    + destruct Rm as [Rm|Rm]; [congruence|]. cbn [fits]. rewrite footprint_cons, footprint_nil.
      destruct Em as [-> | (y & -> & Ly & Lx0)]; rewrite ?footprint_cons, ?footprint_nil; lia.
    + cbn [fits]. unfold MAX_ELEMENT_BEFORE_GENESIS, MAX_ELEMENTS_BEFORE_GENESIS. destruct Em as [-> | (y & -> & Ly & Lx0)]; cbn [app length].
      * split; [repeat constructor; lia|lia].
      * split; [repeat constructor; lia|lia].
Qed.

Lemma machine0_ok : some_room cf -> sound (machine0 cf).
Proof.
  intros R. unfold sound, machine0. cbn. split; [|reflexivity]. apply good0. destruct R as [-> | R]; [exact I|].
  destruct (has_flag _ _); cbn; [lia|exact I].
Qed.

(* stepping over one instruction of a program *)
Lemma run_push p s : segments p s -> len (concat s) < 2 ^ 31 -> forall fuel k j m i x,
  nth_error p k = Some i -> running m = true -> b2n (i_op i) <= b2n OP_16 ->
  (forall c, (if b2n (i_op i) <=? b2n OP_PUSHDATA4 then push_stack (i_data i) m else exec_op X doc cf c (i_op i) m) = push_stack x m) ->
  forall m', push_stack x m = Val tt m' ->
  machine_run X doc cf (S fuel) (counter_at s j k) m = machine_run X doc cf fuel (counter_at s (next_sep s j k) (S k)) m'.
Proof.
  intros Hs L fuel k j m i x Ei R B Hx m' Hm. destruct (next_op p s Hs L k i Ei) as (t & En & Ii & _).
  rewrite (run_S X doc cf p s Hs L), (step_cons X doc cf _ _ (i_op i) t) by exact En. rewrite count_exact, R.
  replace (b2n OP_16 <? b2n (i_op i)) with false by lia.
  specialize (Hx (counter_at s j k)). destruct (b2n (i_op i) <=? b2n OP_PUSHDATA4) eqn:Q.
  - rewrite (push_data_exact i _ Ii) by lia. rewrite Hx, Hm. reflexivity.
  - rewrite Hx, Hm. reflexivity.
Qed.

(* OP_1 OP_0 OP_IF OP_ENDIF satisfies every other script *)
Theorem anyone_can_spend lx l : decompile lx = Ret l -> valid_program l [] (c_flags cf) = E_OK ->
  has_flag FLAG_SIGPUSHONLY (c_flags cf) = false -> has_flag FLAG_P2SH (c_flags cf) = false \/ is_P2SH lx = false ->
  3 + counted (ops l) <= c_max_ops cf -> some_room cf -> len lx + len neg1 + 10 < 2 ^ 31 ->
  evaluate X doc cf neg1 [OP_1; OP_0; OP_IF; OP_ENDIF] lx = Ret (result_of_bool true).
Proof.
  intros El V Sp P2 Oc Rm L.
  set (u := [op_instr OP_1; op_instr OP_0; op_instr OP_IF; op_instr OP_ENDIF]).
  assert (Eu : decompile [OP_1; OP_0; OP_IF; OP_ENDIF] = Ret u) by reflexivity.
  assert (Lx : len lx < 2 ^ 32) by (change (2 ^ 31) with 2147483648 in L; change (2 ^ 32) with 4294967296; lia).
  pose proof (setup_plain _ _ _ _ Eu El P2 Lx (or_introl Sp)) as St.
  assert (Pv : pre_verify (u ++ [op_instr OP_CODESEPARATOR] ++ l) (c_flags cf) = E_OK).
  { assert (Vp : valid_program (u ++ [op_instr OP_CODESEPARATOR] ++ l) [] (c_flags cf) = E_OK).
    { unfold u. cbn [app].
      assert (K : forall o, In o [OP_1; OP_IF; OP_ENDIF; OP_CODESEPARATOR] -> instr_verify (c_flags cf) (op_instr o) = E_OK).
      { intros o Ho. apply op_verify_ok; destruct Ho as [<-|[<-|[<-|[<-|[]]]]]; try reflexivity; repeat split; discriminate. }
      rewrite valid_cons; [|apply K; cbn; tauto|unfold control_op; intuition discriminate|discriminate].
      rewrite valid_cons; [|apply op0_verify_ok|unfold control_op; intuition discriminate|discriminate].
      assert (W : forall q, valid_program (op_instr OP_IF :: op_instr OP_ENDIF :: q) [] (c_flags cf) = valid_program q [] (c_flags cf)).
      { intros q. assert (K1 := K OP_IF ltac:(cbn; tauto)). assert (K2 := K OP_ENDIF ltac:(cbn; tauto)).
        cbn [valid_program]. rewrite K1, K2, (verify_ok_minimal _ _ K1), (verify_ok_minimal _ _ K2). reflexivity. }
      rewrite W. rewrite valid_cons; [exact V|apply K; cbn; tauto|unfold control_op; intuition discriminate|discriminate]. }
    unfold pre_verify. unfold u in *. cbn [app] in *. destruct (has_flag FLAG_SAFE_RETURN (c_flags cf)); exact Vp. }
  rewrite Pv in St.
  destruct (eval_run _ _ _ _ St eq_refl) as (s & Hs & Ls & Ev). { change (len [OP_1; OP_0; OP_IF; OP_ENDIF]) with 4. lia. }
  rewrite Ev. set (p := u ++ [op_instr OP_CODESEPARATOR] ++ l) in *.
  pose proof (segments_length _ _ Hs) as Ln. pose proof (segments_concat_length _ _ Hs) as Lc.
  assert (Lp : length p = (5 + length l)%nat) by reflexivity.
  pose proof (machine0_ok Rm) as S0.
  destruct (push_ok (machine0 cf) (sn_enc 1) 0 S0 eq_refl Rm ltac:(vm_compute; discriminate) eq_refl (or_introl eq_refl) eq_refl) as (m1 & E1 & S1 & L1 & M1 & A1 & X1 & _ & O1).
  destruct (push_ok m1 [] 0 S1 L1 Rm ltac:(vm_compute; discriminate) A1
    ltac:(right; exists (sn_enc 1); rewrite M1; split; [reflexivity|split; [vm_compute; discriminate|reflexivity]]) (eq_sym O1)) as (m2 & E2 & S2 & L2 & M2 & A2 & X2 & _ & O2).
  destruct (length (concat s)) as [|[|f]] eqn:Ef; [lia|lia|].
  rewrite (run_push p s Hs Ls (S (S f)) 0 0 (machine0 cf) (op_instr OP_1) (sn_enc 1) eq_refl eq_refl ltac:(vm_compute; discriminate) ltac:(reflexivity) m1 E1).
  rewrite (run_push p s Hs Ls (S f) 1 _ m1 (op_instr OP_0) [] eq_refl ltac:(unfold running; rewrite X1; reflexivity) ltac:(vm_compute; discriminate) ltac:(reflexivity) m2 E2).
  destruct (if_not_taken X doc cf p s Hs Ls false (S f) (next_sep s (next_sep s 0 0) 1) 2 m2 [] [sn_enc 1]) as (m' & c' & E3); try reflexivity.
  - rewrite Lp. lia.
  - apply S2.
  - unfold running. rewrite X2, X1. reflexivity.
  - rewrite O2. lia.
  - rewrite M2, M1. reflexivity.
  - right. left. reflexivity.
  - rewrite E3, O2. unfold skipped. replace (counted (skipn 2 (ops p))) with (3 + counted (ops l)).
    + replace (0 + (3 + counted (ops l)) <=? c_max_ops cf) with true by lia. unfold verdict. cbn [length N.of_nat].
      change (N.pos (Pos.of_succ_nat 0) =? 1) with true. rewrite andb_false_r. reflexivity.
    + unfold p, u. cbn [app ops map skipn]. fold (ops l). rewrite !counted_cons. cbn [op_instr i_op].
      change (b2n OP_16 <? b2n OP_IF) with true. change (b2n OP_16 <? b2n OP_ENDIF) with true. change (b2n OP_16 <? b2n OP_CODESEPARATOR) with true. cbv iota. lia.
Qed.

(* ---- OP_RETURN after genesis ---- *)
Theorem return_ends p s : segments p s -> len (concat s) < 2 ^ 31 -> forall fuel j k m,
  nth_error (ops p) k = Some OP_RETURN -> genesis cf = true -> m_exec m = [] -> m_ops m < c_max_ops cf ->
  exists m' c', machine_run X doc cf (S fuel) (counter_at s j k) m = Ret (result_of_bool true, m', c').
Proof.
  intros Hs L fuel j k m Eo Ge Ex O. unfold ops in Eo. rewrite nth_error_map in Eo.
  destruct (nth_error p k) as [i|] eqn:Ei; [|discriminate]. cbn in Eo. inversion Eo as [Io].
  destruct (next_op p s Hs L k i Ei) as (t & En & _). rewrite (run_S X doc cf p s Hs L), (step_cons X doc cf _ _ (i_op i) t) by exact En.
  assert (R : running m = true) by (unfold running; rewrite Ex; reflexivity).
  rewrite R, count_exact, Io. change (b2n OP_16 <? b2n OP_RETURN) with true. cbv iota.
  replace (m_ops m + 1 <=? c_max_ops cf) with true by lia. change (b2n OP_RETURN <=? b2n OP_PUSHDATA4) with false. cbv iota.
  cbn [exec_op]. unfold op_return. rewrite Ge. unfold mbind, get. cbn [m_exec with_ops]. rewrite Ex. eexists _, _. reflexivity.
Qed.

(* FALSE RETURN outputs are spendable with an empty unlocking script *)
Theorem unspendable_spent lx l : decompile lx = Ret (op_instr OP_0 :: op_instr OP_RETURN :: l) ->
  pre_verify (op_instr OP_CODESEPARATOR :: op_instr OP_0 :: op_instr OP_RETURN :: l) (c_flags cf) = E_OK ->
  genesis cf = true -> 2 <= c_max_ops cf -> some_room cf -> len lx + len neg1 + 10 < 2 ^ 31 ->
  evaluate X doc cf neg1 [] lx = Ret (result_of_bool true).
Proof.
  intros El Pv Ge Oc Rm L.
  assert (Lx : len lx < 2 ^ 32) by (change (2 ^ 31) with 2147483648 in L; change (2 ^ 32) with 4294967296; lia).
  assert (P2 : is_P2SH lx = false).
  { destruct (decompile_seg _ _ El) as (s & Hs & <-). inversion Hs; subst. inversion H1; subst; cbn in *; try (unfold is_P2SH; rewrite andb_false_r; reflexivity).
  }
  pose proof (setup_plain [] lx [] _ eq_refl El (or_intror P2) Lx (or_intror eq_refl)) as St. cbn [app] in St. rewrite Pv in St.
  destruct (eval_run _ _ _ _ St eq_refl) as (s & Hs & Ls & Ev). { change (len []) with 0. lia. }
  rewrite Ev. set (p := op_instr OP_CODESEPARATOR :: op_instr OP_0 :: op_instr OP_RETURN :: l) in *.
  pose proof (segments_length _ _ Hs) as Ln. pose proof (segments_concat_length _ _ Hs) as Lc.
  assert (Lp : length p = (3 + length l)%nat) by reflexivity.
  pose proof (machine0_ok Rm) as S0.
  destruct (length (concat s)) as [|[|f]] eqn:Ef; [lia|lia|].
  destruct (next_op p s Hs Ls 0 _ eq_refl) as (t & En & _). rewrite (run_S X doc cf p s Hs Ls), (step_cons X doc cf _ _ OP_CODESEPARATOR t) by exact En.
  rewrite count_exact. change (b2n OP_16 <? b2n OP_CODESEPARATOR) with true. cbv iota. change (m_ops (machine0 cf)) with 0.
  replace (0 + 1 <=? c_max_ops cf) with true by lia. change (running (machine0 cf)) with true. change (b2n OP_CODESEPARATOR <=? b2n OP_PUSHDATA4) with false. cbv iota.
  cbn [exec_op]. unfold mret at 1.
  destruct (push_ok (with_ops (machine0 cf) (0 + 1)) [] 1 S0 eq_refl Rm ltac:(vm_compute; discriminate) eq_refl (or_introl eq_refl) eq_refl) as (m1 & E1 & S1 & L1 & M1 & A1 & X1 & _ & O1).
  rewrite (run_push p s Hs Ls (S f) 1 _ (with_ops (machine0 cf) (0 + 1)) (op_instr OP_0) [] eq_refl eq_refl ltac:(vm_compute; discriminate) ltac:(reflexivity) m1 E1).
  destruct (return_ends p s Hs Ls f (next_sep s (next_sep s 0 0) 1) 2 m1 eq_refl Ge) as (m' & c' & ->); [rewrite X1; reflexivity|lia|]. reflexivity.
Qed.

(* an unlocking script OP_RETURN satisfies every locking script, unless it must be push only *)
Theorem return_unlocks lx l : decompile lx = Ret l -> valid_program l [] (c_flags cf) = E_OK -> genesis cf = true ->
  has_flag FLAG_SAFE_RETURN (c_flags cf) = true -> has_flag FLAG_SIGPUSHONLY (c_flags cf) = false ->
  has_flag FLAG_P2SH (c_flags cf) = false \/ is_P2SH lx = false -> 1 <= c_max_ops cf -> len lx + len neg1 + 10 < 2 ^ 31 ->
  evaluate X doc cf neg1 [OP_RETURN] lx = Ret (result_of_bool true).
Proof.
  intros El V Ge Sr Sp P2 Oc L.
  assert (Lx : len lx < 2 ^ 32) by (change (2 ^ 31) with 2147483648 in L; change (2 ^ 32) with 4294967296; lia).
  pose proof (setup_plain [OP_RETURN] lx [op_instr OP_RETURN] l eq_refl El P2 Lx (or_introl Sp)) as St.
  assert (Pv : pre_verify ([op_instr OP_RETURN] ++ [op_instr OP_CODESEPARATOR] ++ l) (c_flags cf) = E_OK).
  { assert (K : forall o, In o [OP_RETURN; OP_CODESEPARATOR] -> instr_verify (c_flags cf) (op_instr o) = E_OK).
    { intros o Ho. apply op_verify_ok; destruct Ho as [<-|[<-|[]]]; try reflexivity; repeat split; discriminate. }
    cbn [app]. assert (Vc : valid_program (op_instr OP_CODESEPARATOR :: l) [] (c_flags cf) = E_OK).
    { rewrite valid_cons; [exact V|apply K; cbn; tauto|unfold control_op; intuition discriminate|discriminate]. }
    assert (Vp : valid_program (op_instr OP_RETURN :: op_instr OP_CODESEPARATOR :: l) [] (c_flags cf) = E_OK).
    { assert (K1 := K OP_RETURN ltac:(cbn; tauto)). cbn [valid_program]. rewrite K1, (verify_ok_minimal _ _ K1). cbn [op_instr i_op i_data].
      rewrite Sr. exact Vc. }
    unfold pre_verify. rewrite Sr. destruct l; exact Vp. }
  rewrite Pv in St. destruct (eval_run _ _ _ _ St eq_refl) as (s & Hs & Ls & Ev). { change (len [OP_RETURN]) with 1. lia. }
  rewrite Ev. destruct (return_ends _ s Hs Ls (length (concat s)) 0 0 (machine0 cf) eq_refl Ge eq_refl) as (m' & c' & ->); [cbn; lia|reflexivity].
Qed.

(* ---- exceptions that leave the constructor ---- *)
Theorem evaluate_throws ux lx : 2 * len ux + len lx + len neg1 + 2 < 2 ^ 31 ->
  (forall e, evaluate X doc cf neg1 ux lx = Throw e -> e = X_EndOfStream) /\
  (decompile ux = Throw X_EndOfStream -> evaluate X doc cf neg1 ux lx = Throw X_EndOfStream) /\
  (forall u, decompile ux = Ret u -> decompile lx = Throw X_EndOfStream -> evaluate X doc cf neg1 ux lx = Throw X_EndOfStream).
Proof.
  intros L. split; [|split].
  - intros e H. unfold evaluate in H. destruct (interpreter cf neg1 ux lx) as [i|e'|] eqn:Ei; [|inversion H; subst e'|discriminate].
    + exfalso. apply (evaluate_terminates X doc cf neg1 ux lx L). unfold evaluate. rewrite Ei. destruct (interp_run X doc cf i); [discriminate|reflexivity|discriminate].
    + destruct e; [exfalso|reflexivity|exfalso; apply (evaluate_terminates X doc cf neg1 ux lx L); unfold evaluate; rewrite Ei; reflexivity].
      unfold interpreter in Ei. destruct (setup_program cf neg1 ux lx) as [[p r]|e'|] eqn:Es.
      * destruct (compile p) as [cb|]; [|discriminate]. destruct (pc_start cb); discriminate.
      * inversion Ei; subst e'. unfold setup_program in Es. destruct (decompile ux) as [u|[]|]; try discriminate.
        destruct (decompile lx) as [l|[]|]; try discriminate. destruct (full _ _ _ _) as [q|[]|]; destruct (is_P2SH_program l); discriminate.
      * discriminate.
  - intros H. unfold evaluate, interpreter, setup_program. rewrite H. reflexivity.
  - intros u Hu H. unfold evaluate, interpreter, setup_program. rewrite Hu, H. reflexivity.
Qed.
End Spend.
