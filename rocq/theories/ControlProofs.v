From Verif Require Import Base BaseProofs WireModel WireProofs ScriptModel ScriptSpec ScriptProofs ProgramProofs NumModel NumSpec NumProofs.
From Verif Require Import StackModel StackSpec StackProofs MachineModel MachineSpec MachineProofs OpcodeProofs RunProofs.
From Coq Require Import ZifyBool ZifyNat ZifyN.
Ltac Zify.zify_post_hook ::= Z.div_mod_to_equations.
Local Open Scope N_scope.

(* ---- the state stays sound, nothing is undefined ---- *)

Definition keeps {A} (p : M A) : Prop := forall m, sound m ->
  match p m with
  | Val _ m' => sound m' /\ s_lim (m_stack m') = s_lim (m_stack m)
  | UB => False
  | _ => True
  end.

Lemma keeps_bind {A B} (p : M A) (f : A -> M B) : keeps p -> (forall x, keeps (f x)) -> keeps (x <- p ;; f x).
Proof.
  intros H1 H2 m G. specialize (H1 m G). unfold mbind. destruct (p m) as [x m'| | |]; auto.
  destruct H1 as [G' E]. specialize (H2 x m' G'). destruct (f x m'); auto. rewrite <- E. exact H2.
Qed.
Lemma keeps_ret {A} (x : A) : keeps (mret x).
Proof. intros m G. cbn. auto. Qed.
Lemma keeps_fail {A} e : keeps (@fail A e).
Proof. intros m G. exact I. Qed.
Lemma keeps_stop {A} r : keeps (@mstop mstate A r).
Proof. intros m G. exact I. Qed.
Lemma keeps_throw {A} e : keeps (@mthrow mstate A e).
Proof. intros m G. exact I. Qed.
Lemma keeps_guard b e : keeps (guard b e).
Proof. unfold guard. destruct b; [apply keeps_ret|apply keeps_fail]. Qed.
Lemma keeps_get : keeps get.
Proof. intros m G. cbn. auto. Qed.
Lemma keeps_size : keeps get_size.
Proof. intros m G. cbn. auto. Qed.
Lemma keeps_main : keeps get_main.
Proof. intros m G. cbn. auto. Qed.
Lemma keeps_need k e : keeps (need k e).
Proof. unfold need. apply keeps_bind; [apply keeps_size|intros; apply keeps_guard]. Qed.
Lemma keeps_need_stack k : keeps (need_stack k).
Proof. apply keeps_need. Qed.
Lemma keeps_set_ops n : keeps (set_ops n).
Proof. intros m G. cbn. auto. Qed.
Lemma keeps_number b mi mx : keeps (number b mi mx).
Proof. unfold number. destruct (read_integer b mi mx); [apply keeps_throw|apply keeps_ret]. Qed.
Lemma keeps_top i : keeps (top_at i).
Proof.
  intros m G. unfold top_at, lift, top. destruct (0 <=? i)%Z; [exact I|]. destruct (nth_error _ _); [|exact I].
  destruct m; cbn in *. auto.
Qed.
Lemma keeps_pop : keeps pop.
Proof.
  intros m [G E]. unfold pop, lift. destruct (s_main (m_stack m)) as [|x r] eqn:Em.
  - rewrite pop_back_empty by exact Em. exact I.
  - destruct (pop_back_spec _ _ _ G Em) as (st & -> & L & _ & _ & G'). cbn. repeat split; auto; apply G'.
Qed.
Lemma keeps_push x : len x < 2 ^ 62 -> keeps (push_stack x).
Proof.
  intros Lx m [G E]. unfold push_stack, lift. pose proof (push_back_spec _ x G Lx) as P.
  destruct (push_back x (m_stack m)) as [[] st| | |]; try contradiction; [|exact I].
  destruct P as (L & _ & _ & G'). cbn. repeat split; auto; apply G'.
Qed.
Lemma keeps_code c : keeps (code_of c).
Proof.
  unfold code_of, script_code. destruct (decompile _) as [p|e|] eqn:E; [apply keeps_ret|apply keeps_throw|].
  exfalso. now apply decompile_total in E.
Qed.

Ltac kp := repeat first
  [ apply keeps_guard | apply keeps_get | apply keeps_size | apply keeps_main | apply keeps_need_stack | apply keeps_need
  | apply keeps_set_ops | apply keeps_number | apply keeps_top | apply keeps_pop | apply keeps_code | apply keeps_stop
  | apply keeps_fail | apply keeps_ret | apply keeps_throw
  | apply keeps_push; apply bool62
  | match goal with
    | |- keeps (mbind _ _) => apply keeps_bind; [|intros]
    | |- keeps (if ?b then _ else _) => destruct b
    | |- keeps (let x := _ in _) => cbv zeta
    | |- keeps (match ?x with _ => _ end) => destruct x
    | |- keeps (fun _ => _) => idtac
    end].

Section Step.
Variable X : externals.
Variable doc : option rdoc.
Variable cf : config.
Variable c : counter.

Lemma k_cltv : keeps (op_cltv doc cf).
Proof. unfold op_cltv, discourage. kp. Qed.
Lemma k_csv : keeps (op_csv doc cf).
Proof. unfold op_csv, discourage. kp. Qed.
Lemma k_if b : keeps (op_if cf b).
Proof.
  unfold op_if. apply keeps_bind; [kp|intros _]. apply keeps_bind; [kp|intros v]. apply keeps_bind; [kp|intros _]. apply keeps_bind; [kp|intros _].
  intros m [G E]. unfold mbind, get, set_control. cbn. repeat split; try apply G. cbn. congruence.
Qed.
Lemma k_else : keeps (op_else cf).
Proof.
  intros m [G E]. unfold op_else, mbind, get. destruct (m_exec m) as [|x ex] eqn:Ex; [exact I|].
  destruct (m_else m) as [|y el] eqn:El; [discriminate|]. destruct (y && genesis cf); [exact I|].
  cbn. repeat split; try apply G. cbn in *. congruence.
Qed.
Lemma k_endif : keeps op_endif.
Proof.
  intros m [G E]. unfold op_endif, mbind, get. destruct (m_exec m) as [|x ex] eqn:Ex; [exact I|].
  destruct (m_else m) as [|y el] eqn:El; [discriminate|].
  cbn. repeat split; try apply G. cbn in *. congruence.
Qed.
Lemma k_return : keeps (op_return cf).
Proof. unfold op_return. kp. Qed.
Lemma k_checksig b : keeps (op_checksig doc c b).
Proof. unfold op_checksig. kp. Qed.
Lemma k_loop code fuel : forall isig ikey ns nk, keeps (multisig_loop code fuel isig ikey ns nk).
Proof. induction fuel as [|fuel IH]; intros; cbn [multisig_loop]; kp; apply IH. Qed.
Lemma k_cleanup k : forall f n, keeps (multisig_cleanup cf k f n).
Proof. induction k as [|k IH]; intros; cbn [multisig_cleanup]; kp; apply IH. Qed.
Lemma k_multisig b : keeps (op_checkmultisig doc cf c b).
Proof. unfold op_checkmultisig. kp; first [apply k_loop | apply k_cleanup]. Qed.

Lemma k_impure o : impure o = true -> keeps (exec_op X doc cf c o).
Proof.
  intros I. destruct o; try discriminate I; cbn [exec_op];
  first [apply k_cltv | apply k_csv | apply k_if | apply k_else | apply k_endif | apply k_return | apply k_checksig | apply k_multisig].
Qed.

Lemma k_count o : keeps (count_op cf o).
Proof. unfold count_op. kp. Qed.
End Step.

Lemma bounded_small s : good s -> bounded (s_lim s) -> small (s_main s).
Proof.
  intros (F & _ & _) B. unfold small. destruct (s_lim s) as [ms me|mx]; cbn [fits bounded] in *.
  - destruct B as [B1 B2], F as [F1 F2]. split; [lia|]. apply Forall_app in F1 as [F1 _].
    eapply Forall_impl; [|exact F1]. intros x Hx. cbn in Hx. lia.
  - assert (H : footprint (s_main s) < 2 ^ 31) by lia. clear F B. revert H. generalize (s_main s) as l.
    intros l H. split.
    + unfold footprint in H. lia.
    + induction l as [|x l IH]; constructor; rewrite footprint_cons in H; [lia|]. apply IH. lia.
Qed.

Lemma push_data_len b : len (get_push_data b) <= len b.
Proof.
  unfold get_push_data. destruct b as [|o r]; [cbn; lia|].
  repeat match goal with |- context [if ?x then _ else _] => destruct x end;
  try (change (len []) with 0; lia); try apply drop_len. unfold len. cbn [length]. lia.
Qed.

Section Sound.
Variable X : externals.
Variable doc : option rdoc.
Variable cf : config.
Hypothesis Tr : truncating X.
Hypothesis Sh : short_hashes X.
Hypothesis Mi : minimal cf = true.

Theorem step_sound c m : sound m -> small (s_main (m_stack m)) -> roomy (s_lim (m_stack m)) -> len (pc_next c) < 2 ^ 62 ->
  match step X doc cf c m with
  | Val _ m' => sound m' /\ s_lim (m_stack m') = s_lim (m_stack m)
  | UB => False
  | _ => True
  end.
Proof.
  intros G Sm Rm L. unfold step. destruct (pc_next c) as [|o d] eqn:En.
  { pose proof (end_halts cf m) as H. destruct (end_of_script cf m); auto; contradiction. }
  unfold mbind at 1. pose proof (k_count cf o m G) as K.
  assert (St : match count_op cf o m with Val _ m' => m_stack m' = m_stack m | _ => True end).
  { unfold count_op. destruct (b2n OP_16 <? b2n o); [|reflexivity]. unfold mbind, get, set_ops, guard. destruct (_ <=? _); reflexivity. }
  destruct (count_op cf o m) as [[] m1| | |]; try exact I; [|exact K]. destruct K as [G1 L1]. rewrite <- L1. rewrite <- St in Sm, Rm.
  unfold mbind, get. destruct (existsb negb (m_exec m1)); [cbn; auto|].
  destruct (b2n o <=? b2n OP_PUSHDATA4).
  - apply keeps_push; [|exact G1]. pose proof (push_data_len (o :: d)). lia.
  - destruct (impure o) eqn:Im; [apply k_impure; assumption|].
    destruct G1 as [G1 E1].
    pose proof (exec_exact X doc cf c o m1 G1 Sm Tr Sh Rm ltac:(intros _; left; exact Mi) Im) as H. unfold agrees in H.
    destruct (exec_op X doc cf c o m1) as [[] m2| | |]; auto.
    destruct H as (s & a & _ & (L2 & _ & _ & G2) & Ee & El & _). repeat split; auto; try apply G2. congruence.
Qed.

(* every state met while stepping *)
Theorem steps_sound p s : segments p s -> len (concat s) < 2 ^ 31 -> forall k j n i,
  in_counter i = counter_at s j n -> sound (in_state i) -> bounded (s_lim (m_stack (in_state i))) -> roomy (s_lim (m_stack (in_state i))) ->
  exists i', interp_steps X doc cf k i = Some i' /\ (in_halt i' = false -> sound (in_state i') /\
    s_lim (m_stack (in_state i')) = s_lim (m_stack (in_state i))).
Proof.
  intros Hs L. induction k as [|k IH]; intros j n i Ec G B R.
  - exists i. cbn. auto.
  - rewrite steps_S. unfold interp_step. destruct (in_halt i) eqn:Hh.
    + rewrite halted_steps by exact Hh. exists i. split; [reflexivity|congruence].
    + assert (Ln : len (pc_next (in_counter i)) < 2 ^ 62).
      { rewrite Ec. cbn [counter_at pc_next].
        assert (len (nth n s []) <= len (concat s)).
        { pose proof (firstn_S_nth s n) as Q. rewrite (concat_split s (S n)), Q, !len_app. lia. }
        apply lt62. lia. }
      pose proof (step_sound (in_counter i) (in_state i) G (bounded_small _ (proj1 G) B) R Ln) as H.
      destruct (step X doc cf (in_counter i) (in_state i)) as [[] m'|r' m'|e m'|]; try contradiction.
      * destruct H as [G' E']. rewrite Ec, (step_at p s j n Hs L).
        edestruct IH as (i' & E1 & E2); [| | | |exists i'; split; [exact E1|]]; cbn [in_counter in_state]; eauto; try (rewrite E'; assumption).
        intros Hf. destruct (E2 Hf) as [Q1 Q2]. split; [exact Q1|]. cbn [in_state] in Q2. congruence.
      * rewrite halted_steps by reflexivity. eexists. split; [reflexivity|discriminate].
      * rewrite halted_steps by reflexivity. eexists. split; [reflexivity|discriminate].
Qed.

Lemma machine0_sound : c_max_memory cf < 2 ^ 63 -> sound (machine0 cf).
Proof.
  intros H. unfold sound, machine0. cbn. split; [|reflexivity]. apply good0. destruct (has_flag _ _); cbn; auto.
Qed.
Lemma machine0_roomy : roomy (s_lim (m_stack (machine0 cf))).
Proof. unfold machine0. cbn. destruct (has_flag _ _); cbn; [exact I|]. unfold MAX_ELEMENT_BEFORE_GENESIS. lia. Qed.
Lemma machine0_bounded : has_flag FLAG_GENESIS_STACK (c_flags cf) = false \/ c_max_memory cf < 2 ^ 31 ->
  bounded (s_lim (m_stack (machine0 cf))) /\ sound (machine0 cf).
Proof.
  intros H. unfold machine0. cbn. destruct (has_flag FLAG_GENESIS_STACK (c_flags cf)) eqn:E.
  - destruct H as [H|H]; [discriminate|]. split; [exact H|]. split; [|reflexivity]. apply good0. cbn.
    change (2 ^ 31) with 2147483648 in H. change (2 ^ 63) with 9223372036854775808. lia.
  - split; [cbn; split; reflexivity|]. split; [|reflexivity]. apply good0. exact I.
Qed.

(* the whole evaluation is defined and within the limits *)
Theorem interpreter_sound neg1 ux lx i k : 2 * len ux + len lx + len neg1 + 2 < 2 ^ 31 ->
  has_flag FLAG_GENESIS_STACK (c_flags cf) = false \/ c_max_memory cf < 2 ^ 31 ->
  interpreter cf neg1 ux lx = Ret i ->
  exists j, interp_steps X doc cf k i = Some j /\
    (in_halt j = false -> good (m_stack (in_state j)) /\ s_lim (m_stack (in_state j)) = s_lim (m_stack (machine0 cf))).
Proof.
  intros L Hl Ei. destruct (setup_program cf neg1 ux lx) as [[p r]|e|] eqn:H; [|unfold interpreter in Ei; rewrite H in Ei; discriminate..].
  destruct (interpreter_starts cf _ _ _ _ _ H L) as (s & Hs & L' & E). rewrite E in Ei. inversion Ei; subst i. clear Ei.
  destruct (machine0_bounded Hl) as [B G].
  destruct (steps_sound p s Hs L' k 0%nat 0%nat
    {| in_state := machine0 cf; in_halt := negb (serror_is_ok (r_error r)); in_result := r; in_counter := counter_at s 0 0 |}
    eq_refl G B machine0_roomy) as (i' & E1 & E2).
  exists i'. split; [exact E1|]. intros Hf. destruct (E2 Hf) as [[Q _] R]. auto.
Qed.

Theorem evaluate_defined neg1 ux lx : 2 * len ux + len lx + len neg1 + 2 < 2 ^ 31 ->
  has_flag FLAG_GENESIS_STACK (c_flags cf) = false \/ c_max_memory cf < 2 ^ 31 ->
  match setup_program cf neg1 ux lx with
  | Ret _ => exists r, evaluate X doc cf neg1 ux lx = Ret r
  | Throw e => evaluate X doc cf neg1 ux lx = Throw e
  | Undef => False
  end.
Proof.
  intros L Hl. destruct (setup_program cf neg1 ux lx) as [[p r]|e|] eqn:H.
  - destruct (interpreter_starts cf _ _ _ _ _ H L) as (s & Hs & L' & E).
    pose proof (run_is_stepping X doc cf _ _ _ _ _ _ H L E) as R.
    destruct (interpreter_sound _ _ _ _ (S (length p)) L Hl E) as (j & E1 & _).
    unfold evaluate. rewrite E. destruct (interp_run X doc cf _) as [j'|e|]; [eauto|contradiction|congruence].
  - unfold evaluate, interpreter. rewrite H. reflexivity.
  - unfold setup_program in H. assert (D : forall b, decompile b <> Undef) by (intros b; apply decompile_total).
    destruct (decompile ux) as [u|[]|] eqn:Eu; try discriminate; [|now apply D in Eu].
    destruct (decompile lx) as [l|[]|] eqn:El; try discriminate; [|now apply D in El].
    assert (Cp : is_P2SH_program l <> None).
    { unfold is_P2SH_program. rewrite (compile_decompile lx l El); [discriminate|].
      change (2 ^ 31) with 2147483648 in L. change (2 ^ 32) with 4294967296. lia. }
    destruct (is_P2SH_program l) as [b|] eqn:Eb; [|congruence].
    destruct (full neg1 u l _) as [q|[]|] eqn:Ef; try discriminate.
    unfold full in Ef. rewrite Eb in Ef. destruct (negb _); [discriminate|]. destruct b; [|discriminate].
    destruct (rev u) as [|pr rs]; [discriminate|]. destruct (decompile (push_value neg1 pr)) eqn:Ed; try discriminate. now apply D in Ed.
Qed.
End Sound.
