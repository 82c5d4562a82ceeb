From Verif Require Import Base BaseProofs WireModel WireProofs ScriptModel ScriptSpec ScriptProofs ProgramProofs NumModel NumSpec NumProofs.
From Verif Require Import StackModel StackSpec StackProofs MachineModel MachineSpec MachineProofs OpcodeProofs.
From Coq Require Import ZifyBool ZifyNat ZifyN.
Ltac Zify.zify_post_hook ::= Z.div_mod_to_equations.
Local Open Scope N_scope.

(* ---- the counter over a sequence of instructions ---- *)

Definition next_sep (s : list bytes) (j k : nat) : nat :=
  match nth k s [] with o :: _ => if byte_eqb o OP_CODESEPARATOR then S k else j | [] => j end.

Lemma start_at p s : segments p s -> len (concat s) < 2 ^ 31 -> pc_start (concat s) = Ret (counter_at s 0 0).
Proof. intros Hs L. unfold pc_start. pose proof (pc_read_segments p s 0 Hs L) as E. cbn [skipn] in E. now rewrite E. Qed.

Lemma step_at p s j k : segments p s -> len (concat s) < 2 ^ 31 ->
  pc_step (counter_at s j k) = Ret (counter_at s (next_sep s j k) (S k)).
Proof.
  intros Hs L. unfold pc_step, counter_at. cbn [pc_next pc_script pc_pos pc_sep].
  replace (len (concat (firstn k s)) + len (nth k s [])) with (len (concat (firstn (S k) s))) by (now rewrite firstn_S_nth, len_app).
  assert (B : len (concat (firstn (S k) s)) < 2 ^ 31) by (rewrite (concat_split s (S k)), len_app in L; lia).
  replace (2 ^ 31 <=? len (concat (firstn (S k) s))) with false by lia.
  rewrite skipn_concat, (pc_read_segments p s (S k) Hs L). f_equal. f_equal.
  unfold next_sep. destruct (nth k s []) as [|o t]; [reflexivity|]. destruct (byte_eqb o OP_CODESEPARATOR); reflexivity.
Qed.

Lemma segments_inst p s k : segments p s -> (k < length s)%nat -> exists i, nth_error p k = Some i /\ is_inst i (nth k s []).
Proof.
  intros H. revert k. induction H as [|i p c s Hi Hs IH]; intros k L; [cbn in L; lia|].
  destruct k; cbn [nth nth_error]; [eauto|]. apply IH. cbn [length] in L. lia.
Qed.

Lemma inst_cons i c : is_inst i c -> exists r, c = i_op i :: r.
Proof. unfold is_inst. destruct i as [o d]. cbn. intros H. inversion H; subst; eauto. Qed.

Lemma segments_concat_length p s : segments p s -> (length s <= length (concat s))%nat.
Proof.
  induction 1 as [|i p c s Hi Hs IH]; [cbn; lia|]. cbn [concat length]. rewrite app_length.
  destruct (inst_cons _ _ Hi) as (r & ->). cbn [length]. lia.
Qed.

(* ---- runs and steps ---- *)

Section Runs.
Variable X : externals.
Variable doc : option rdoc.
Variable cf : config.

Lemma end_halts m : match end_of_script cf m with Val _ _ => False | UB => False | _ => True end.
Proof.
  unfold end_of_script, mbind, get_size, guard, fail, mret, mstop, top_at, lift, top.
  destruct (negb _ || _); [|exact I]. destruct (_ =? 0); [exact I|].
  destruct (0 <=? -1)%Z; [exact I|]. destruct (nth_error _ _); exact I.
Qed.

Lemma halted_steps k i : in_halt i = true -> interp_steps X doc cf k i = Some i.
Proof. intros H. induction k as [|k IH]; [reflexivity|]. cbn [interp_steps]. unfold interp_step. rewrite H. exact IH. Qed.

Lemma exceptions_reported i e m : in_halt i = false -> step X doc cf (in_counter i) (in_state i) = Exc e m ->
  exists j, interp_step X doc cf i = Some j /\ in_halt j = true /\ in_state j = m /\ in_counter j = in_counter i /\
    in_result j = match e with
                  | X_script r => result_of_error r
                  | X_range => result_of_error E_INVALID_STACK_OPERATION
                  | X_other => result_of_error E_UNKNOWN_ERROR
                  end.
Proof.
  intros H E. unfold interp_step. rewrite H, E. eexists. split; [reflexivity|]. repeat (split; [reflexivity|]). destruct e; reflexivity.
Qed.

Lemma steps_add a b i : interp_steps X doc cf (a + b) i =
  match interp_steps X doc cf a i with Some j => interp_steps X doc cf b j | None => None end.
Proof.
  revert i. induction a as [|a IH]; intros i; [reflexivity|]. cbn [Nat.add interp_steps].
  destruct (interp_step X doc cf i); [apply IH|reflexivity].
Qed.

Lemma steps_S k i : interp_steps X doc cf (S k) i =
  match interp_step X doc cf i with Some j => interp_steps X doc cf k j | None => None end.
Proof. reflexivity. Qed.

Lemma run_steps p s : segments p s -> len (concat s) < 2 ^ 31 -> forall n fuel j k m r,
  (k <= length s)%nat -> (length s - k <= n)%nat -> (n < fuel)%nat ->
  match machine_run X doc cf fuel (counter_at s j k) m with
  | Ret (r', m', c') => interp_steps X doc cf (S n)
      {| in_state := m; in_halt := false; in_result := r; in_counter := counter_at s j k |} =
      Some {| in_state := m'; in_halt := true; in_result := r'; in_counter := c' |}
  | Undef => interp_steps X doc cf (S n)
      {| in_state := m; in_halt := false; in_result := r; in_counter := counter_at s j k |} = None
  | Throw _ => False
  end.
Proof.
  intros Hs L. induction n as [|n IH]; intros fuel j k m r Hk Hn Hf; (destruct fuel as [|fuel]; [lia|]);
  set (i0 := {| in_state := m; in_halt := false; in_result := r; in_counter := counter_at s j k |});
  rewrite (steps_S _ i0); unfold interp_step, i0; cbn [in_halt in_state in_counter in_result machine_run];
  destruct (step X doc cf (counter_at s j k) m) as [[] m'|r' m'|e m'|] eqn:E;
    try (rewrite halted_steps by reflexivity); try reflexivity.
  - exfalso. assert (k = length s) by lia. subst k. unfold step in E. cbn [counter_at pc_next] in E. rewrite nth_overflow in E by lia.
    pose proof (end_halts m) as H. rewrite E in H. exact H.
  - rewrite (step_at p s j k Hs L). destruct (Nat.eq_dec k (length s)) as [->|N].
    + exfalso. unfold step in E. cbn [counter_at pc_next] in E. rewrite nth_overflow in E by lia.
      pose proof (end_halts m) as H. rewrite E in H. exact H.
    + apply IH; lia.
Qed.

(* the program an interpreter runs *)
Lemma segments_app p s q t : segments p s -> segments q t -> segments (p ++ q) (s ++ t).
Proof. induction 1; cbn; [auto|]. intros. constructor; auto. Qed.

Lemma op_segment o : 0x4e < b2n o -> is_inst (op_instr o) [o].
Proof. intros H. unfold is_inst, op_instr. cbn. constructor. exact H. Qed.

Lemma decompile_seg b p : decompile b = Ret p -> exists s, segments p s /\ concat s = b.
Proof. intros H. destruct (decompile_segments b p H) as (s & A & B & _). eauto. Qed.

Lemma segments_rev_split p s x q : segments p s -> rev p = x :: q -> exists s' c, segments (rev q) s' /\ is_inst x c /\ s = s' ++ [c].
Proof.
  intros H E. assert (P : p = rev q ++ [x]) by (rewrite <- (rev_involutive p), E; reflexivity). subst p. clear E.
  revert s H. induction (rev q) as [|i l IH]; intros s H; cbn [app] in H.
  - inversion H; subst. inversion H4; subst. exists [], c. (split; [constructor|split; auto]).
  - inversion H; subst. destruct (IH _ H4) as (s' & c' & A & B & ->). exists (c :: s'), c'. repeat split; auto. constructor; auto.
Qed.

Lemma push_value_len neg1 i c : is_inst i c -> len (push_value neg1 i) <= len c + len neg1.
Proof.
  unfold is_inst. destruct i as [o d]. cbn [i_op i_data]. intros H. unfold push_value. cbn [i_op i_data].
  repeat match goal with |- context [if ?b then _ else _] => destruct b eqn:? end; unfold len in *; cbn [length]; try lia;
  inversion H; subst; cbn [length]; rewrite ?app_length; cbn [length]; lia.
Qed.

Lemma setup_segments neg1 ux lx p r : setup_program cf neg1 ux lx = Ret (p, r) ->
  exists s, segments p s /\ len (concat s) <= 2 * len ux + len lx + len neg1 + 2.
Proof.
  unfold setup_program. intros H.
  destruct (decompile ux) as [u|e|] eqn:Eu.
  2:{ destruct e; try discriminate. inversion H; subst. exists []. split; [constructor|]. cbn. lia. }
  2:{ discriminate. }
  destruct (decompile lx) as [l|e|] eqn:El.
  2:{ destruct e; try discriminate. inversion H; subst. exists []. split; [constructor|]. cbn. lia. }
  2:{ discriminate. }
  destruct (decompile_seg _ _ Eu) as (su & Su & Cu). destruct (decompile_seg _ _ El) as (sl & Sl & Cl).
  assert (Pl : exists s, segments (u ++ [op_instr OP_CODESEPARATOR] ++ l) s /\ len (concat s) <= 2 * len ux + len lx + len neg1 + 2).
  { exists (su ++ [[OP_CODESEPARATOR]] ++ sl). split.
    - apply segments_app; [exact Su|]. apply segments_app; [|exact Sl]. constructor; [apply op_segment; reflexivity|constructor].
    - rewrite !concat_app, Cu, Cl, !len_app. change (len (concat [[OP_CODESEPARATOR]])) with 1. lia. }
  destruct (full neg1 u l (has_flag FLAG_P2SH (c_flags cf))) as [q|e|] eqn:Ef.
  2:{ destruct e; try discriminate. destruct (is_P2SH_program l); inversion H; subst; exists []; (split; [constructor|]); cbn; lia. }
  2:{ destruct (is_P2SH_program l); discriminate. }
  assert (Q : p = q). { destruct (is_P2SH_program l); [|discriminate]. inversion H; reflexivity. }
  subst q. clear H. unfold full in Ef. destruct (negb _); [inversion Ef; subst; exact Pl|].
  destruct (is_P2SH_program l) as [[|]|]; try discriminate; [|inversion Ef; subst; exact Pl].
  destruct (rev u) as [|pr others] eqn:Er; [inversion Ef; subst; exact Pl|].
  destruct (decompile (push_value neg1 pr)) as [rd|e|] eqn:Ed; try discriminate. inversion Ef; subst p. clear Ef Pl.
  destruct (decompile_seg _ _ Ed) as (sr & Sr & Cr). destruct (segments_rev_split _ _ _ _ Su Er) as (so & c & So & Ic & Ec).
  exists (so ++ [[OP_CODESEPARATOR]] ++ (sr ++ [[OP_VERIFY]; c]) ++ sl). split.
  - apply segments_app; [exact So|]. constructor; [apply op_segment; reflexivity|].
    apply segments_app; [|exact Sl]. apply segments_app; [exact Sr|].
    constructor; [apply op_segment; reflexivity|]. constructor; [exact Ic|constructor].
  - pose proof (push_value_len neg1 pr c Ic) as Lv.
    assert (E1 : len (concat (so ++ [[OP_CODESEPARATOR]] ++ (sr ++ [[OP_VERIFY]; c]) ++ sl)) =
                 len (concat so) + 1 + len (push_value neg1 pr) + 1 + len c + len lx).
    { rewrite !concat_app, Cr, Cl, !len_app. change (len (concat [[OP_CODESEPARATOR]])) with 1.
      replace (len (concat [[OP_VERIFY]; c])) with (1 + len c); [lia|]. cbn [concat app]. rewrite app_nil_r, len_cons. reflexivity. }
    assert (E2 : len ux = len (concat so) + len c).
    { rewrite <- Cu, Ec, concat_app, len_app. cbn [concat]. rewrite app_nil_r. reflexivity. }
    rewrite E1. lia.
Qed.

Lemma interpreter_starts neg1 ux lx p r : setup_program cf neg1 ux lx = Ret (p, r) ->
  2 * len ux + len lx + len neg1 + 2 < 2 ^ 31 ->
  exists s, segments p s /\ len (concat s) < 2 ^ 31 /\
    interpreter cf neg1 ux lx = Ret {| in_state := machine0 cf; in_halt := negb (serror_is_ok (r_error r)); in_result := r;
                                       in_counter := counter_at s 0 0 |}.
Proof.
  intros H L. destruct (setup_segments _ _ _ _ _ H) as (s & Hs & B). exists s.
  assert (L' : len (concat s) < 2 ^ 31) by (change (2 ^ 31) with 2147483648 in *; lia).
  repeat split; auto. unfold interpreter. rewrite H, (compile_segments p s Hs).
  - rewrite (start_at p s Hs L'). reflexivity.
  - change (2 ^ 31) with 2147483648 in *. change (2 ^ 32) with 4294967296. lia.
Qed.

Theorem run_is_stepping neg1 ux lx p r i : setup_program cf neg1 ux lx = Ret (p, r) ->
  2 * len ux + len lx + len neg1 + 2 < 2 ^ 31 -> interpreter cf neg1 ux lx = Ret i ->
  match interp_run X doc cf i with
  | Ret j => in_halt j = true /\ interp_steps X doc cf (S (length p)) i = Some j
  | Undef => interp_steps X doc cf (S (length p)) i = None
  | Throw _ => False
  end.
Proof.
  intros H L Ei. destruct (interpreter_starts _ _ _ _ _ H L) as (s & Hs & L' & E). rewrite E in Ei. inversion Ei; subst i. clear Ei.
  unfold interp_run. cbn [in_halt]. destruct (negb (serror_is_ok (r_error r))) eqn:Hh.
  - split; [reflexivity|]. apply halted_steps. reflexivity.
  - cbn [in_counter in_state].
    pose proof (segments_length _ _ Hs) as Ls. pose proof (segments_concat_length _ _ Hs) as Lc.
    pose proof (run_steps p s Hs L' (length p) (run_fuel (counter_at s 0 0)) 0 0 (machine0 cf) r ltac:(lia) ltac:(lia)) as R.
    specialize (R ltac:(unfold run_fuel, counter_at; cbn [pc_script pc_pos firstn concat]; change (len []) with 0; lia)).
    destruct (machine_run X doc cf (run_fuel (counter_at s 0 0)) (counter_at s 0 0) (machine0 cf)) as [[[r' m'] c']|e|]; auto.
Qed.

Theorem halts neg1 ux lx p r i k : setup_program cf neg1 ux lx = Ret (p, r) ->
  2 * len ux + len lx + len neg1 + 2 < 2 ^ 31 -> interpreter cf neg1 ux lx = Ret i -> (length p < k)%nat ->
  match interp_steps X doc cf k i with
  | Some j => in_halt j = true /\ interp_run X doc cf i = Ret j
  | None => interp_run X doc cf i = Undef
  end.
Proof.
  intros H L Ei Hk. pose proof (run_is_stepping _ _ _ _ _ _ H L Ei) as R.
  replace k with (S (length p) + (k - S (length p)))%nat by lia. rewrite steps_add.
  destruct (interp_run X doc cf i) as [j|e|]; [|contradiction|rewrite R; reflexivity].
  destruct R as [R1 R2]. rewrite R2, halted_steps by exact R1. auto.
Qed.

Theorem evaluate_terminates neg1 ux lx : 2 * len ux + len lx + len neg1 + 2 < 2 ^ 31 ->
  evaluate X doc cf neg1 ux lx <> Throw X_Fuel.
Proof.
  intros L. unfold evaluate. destruct (setup_program cf neg1 ux lx) as [[p r]|e|] eqn:H.
  - destruct (interpreter_starts _ _ _ _ _ H L) as (s & Hs & L' & E). rewrite E.
    pose proof (run_is_stepping _ _ _ _ _ _ H L E) as R. destruct (interp_run X doc cf _); [discriminate|contradiction|discriminate].
  - unfold interpreter. rewrite H. intros Q. inversion Q; subst e. clear Q. unfold setup_program in H.
    assert (D : forall b, decompile b <> Throw X_Fuel) by (intros b; apply decompile_total).
    destruct (decompile ux) as [u|[]|] eqn:Eu; try discriminate; [|now apply D in Eu].
    destruct (decompile lx) as [l|[]|] eqn:El; try discriminate; [|now apply D in El].
    destruct (full neg1 u l _) as [q|[]|] eqn:Ef; try (destruct (is_P2SH_program l); discriminate).
    clear H. unfold full in Ef. destruct (negb _); [discriminate|]. destruct (is_P2SH_program l) as [[|]|]; try discriminate.
    destruct (rev u) as [|pr rs]; [discriminate|]. destruct (decompile (push_value neg1 pr)) eqn:Ed; try discriminate.
    inversion Ef; subst. now apply D in Ed.
  - unfold interpreter. rewrite H. discriminate.
Qed.
End Runs.
