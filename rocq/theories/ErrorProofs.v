From Coq Require Import Lia ZifyBool ZifyNat ZifyN String.
From Verif Require Import Base BaseProofs ScriptModel NumModel StackModel MachineModel TextModel ErrorModel ErrorSpec.
Local Open Scope N_scope.

Lemma serror_dec (a b : serror) : {a = b} + {a <> b}.
Proof. decide equality. Qed.

Lemma error_text_exact e f : error_text e = error_text f <-> e = f \/ (unnamed e = true /\ unnamed f = true).
Proof. split; [|intros [->|[A B]]; [reflexivity|destruct e; try discriminate A; destruct f; try discriminate B; reflexivity]].
  destruct e; destruct f; intros E; (left; reflexivity) || (right; split; reflexivity) || (exfalso; vm_compute in E; discriminate E).
Qed.

(* ---------------------------------------------------------------- what a step may report *)
Definition ok_err (e : serror) : Prop := unreported e = false.
Definition fine (r : result) : Prop := ok_err (r_error r) /\ (r_success r = true -> r_error r = E_OK).
Definition ok_exn (e : mexn) : Prop := ok_err (error_of e).
Definition okres {S A} (x : mres S A) : Prop :=
  match x with Stop r _ => fine r | Exc e _ => ok_exn e | _ => True end.
Definition ok {S A} (p : S -> mres S A) : Prop := forall s, okres (p s).

Lemma fine_error e : ok_err e -> fine (result_of_error e).
Proof. intros A. split; [exact A|discriminate]. Qed.
Lemma fine_bool b : fine (result_of_bool b).
Proof. split; reflexivity. Qed.
Lemma ok_bind {S A B} (p : S -> mres S A) (f : A -> S -> mres S B) : ok p -> (forall a, ok (f a)) -> ok (mbind p f).
Proof. intros P F s. unfold mbind. specialize (P s). destruct (p s); auto. apply F. Qed.
Lemma ok_ret {S A} (a : A) : ok (@mret S A a).
Proof. intros s. exact I. Qed.
Lemma ok_undef {S A} : ok (@mundef S A).
Proof. intros s. exact I. Qed.
Lemma ok_stop_bool {S A} b : ok (@mstop S A (result_of_bool b)).
Proof. intros s. apply fine_bool. Qed.
Lemma ok_stop {S A} r : fine r -> ok (@mstop S A r).
Proof. intros A0 s. exact A0. Qed.
Lemma ok_throw_other {S A} : ok (@mthrow S A X_other).
Proof. intros s. reflexivity. Qed.
Lemma ok_fail {A} e : ok_err e -> ok (@fail A e).
Proof. intros E m. apply fine_error, E. Qed.
Lemma ok_throw {A} e : ok_err e -> ok (@throw A e).
Proof. intros E m. exact E. Qed.
Lemma ok_guard b e : ok_err e -> ok (guard b e).
Proof. intros E. unfold guard. destruct b; [apply ok_ret|apply ok_fail, E]. Qed.
Lemma ok_lift {A} (f : SO A) : ok f -> ok (lift f).
Proof. intros F m. unfold lift. specialize (F (m_stack m)). destruct (f (m_stack m)); exact F. Qed.
Lemma ok_get : ok get. Proof. intros m. exact I. Qed.
Lemma ok_get_size : ok get_size. Proof. intros m. exact I. Qed.
Lemma ok_get_alt : ok get_alt_size. Proof. intros m. exact I. Qed.
Lemma ok_get_main : ok get_main. Proof. intros m. exact I. Qed.
Lemma ok_set_ops n : ok (set_ops n). Proof. intros m. exact I. Qed.
Lemma ok_set_control a b : ok (set_control a b). Proof. intros m. exact I. Qed.
Lemma ok_need k e : ok_err e -> ok (need k e).
Proof. intros E. apply ok_bind; [apply ok_get_size|]. intros n. apply ok_guard, E. Qed.
Lemma ok_need_stack k : ok (need_stack k).
Proof. apply ok_need. reflexivity. Qed.

Ltac stack_ok := repeat (match goal with |- context [match ?x with _ => _ end] => destruct x end; cbn [okres]; try exact I; try reflexivity).
Lemma ok_top i : ok (top i). Proof. intros s. unfold top. stack_ok. Qed.
Lemma ok_inc m n : ok (increase_memory_usage m n). Proof. intros s. unfold increase_memory_usage. cbv zeta. stack_ok. Qed.
Lemma ok_dec n : ok (decrease_memory_usage n). Proof. intros s. exact I. Qed.
Lemma ok_emplace x : ok (emplace x). Proof. intros s. exact I. Qed.
Lemma ok_push x : ok (push_back x).
Proof.
  intros s. unfold push_back. destruct (s_lim s); [destruct (_ <? _); [reflexivity|destruct (_ =? _); [reflexivity|exact I]]|].
  apply ok_bind; [apply ok_inc|intros a; apply ok_emplace].
Qed.
Lemma ok_pop : ok pop_back.
Proof. intros s. unfold pop_back. destruct (s_main s); [reflexivity|]. destruct (s_lim s); [exact I|]. apply ok_bind; [apply ok_dec|]. intros a t. exact I. Qed.
Lemma ok_modify f : (forall x e y, f x = F_throw e y -> ok_exn e) -> ok (modify_top f).
Proof.
  intros F s. unfold modify_top. destruct (s_main s) as [|x r]; [reflexivity|]. destruct (f x) as [y|e y|] eqn:E; [|exact (F x e y E)|exact I].
  cbv zeta. destruct (s_lim s); [destruct (_ <? _); [reflexivity|exact I]|]. destruct (_ <? _); [apply ok_inc|apply ok_dec].
Qed.
Lemma ok_replace y : ok (replace_back y).
Proof. apply ok_modify. intros x e z E. discriminate E. Qed.
Lemma ok_erase_range a b : ok (erase_range a b).
Proof. intros s. unfold erase_range. cbv zeta. destruct (_ || _); [reflexivity|]. destruct (_ <? _)%nat; [exact I|]. destruct (s_lim s); exact I. Qed.
Lemma ok_erase i : ok (erase i).
Proof. intros s. unfold erase. cbv zeta. destruct (_ <=? _)%Z; [reflexivity|]. destruct (nth_error _ _), (s_lim s); try exact I. reflexivity. Qed.
Lemma ok_insert i x : ok (insert i x).
Proof.
  intros s. unfold insert. cbv zeta. destruct (0 <=? i)%Z; [reflexivity|]. destruct (s_lim s) as [a b|max].
  - destruct (_ || _); [reflexivity|]. destruct (_ <? _)%nat; exact I.
  - apply ok_bind; [apply ok_inc|]. intros a t. destruct (_ <? _)%nat; exact I.
Qed.
Lemma ok_from_alt : ok from_alt. Proof. intros s. unfold from_alt. destruct (s_alt s); [reflexivity|exact I]. Qed.
Lemma ok_to_alt : ok to_alt. Proof. intros s. unfold to_alt. destruct (s_main s); [reflexivity|exact I]. Qed.
Lemma ok_swap a b : ok (swap a b). Proof. intros s. unfold swap. cbv zeta. destruct (nth_error _ _); [|reflexivity]. destruct (nth_error _ _); [exact I|reflexivity]. Qed.
Lemma ok_update i y : ok (update_top i y). Proof. intros s. exact I. Qed.
Lemma ok_number b m n : ok (number b m n).
Proof.
  unfold number, read_integer. destruct (_ <? _); [apply ok_throw; reflexivity|]. destruct (_ && _); [apply ok_throw; reflexivity|apply ok_ret].
Qed.
Lemma ok_code_of c : ok (code_of c).
Proof. unfold code_of. destruct (script_code c); [apply ok_ret|apply ok_throw_other|apply ok_undef]. Qed.

Section Machine.
Variable X : externals.
Variable doc : option rdoc.
Variable cf : config.
Hypothesis U : usual cf doc.

Lemma verify_fine K f p s k : fine (verify_signature K f p s k).
Proof.
  unfold verify_signature. cbv zeta. repeat (match goal with |- fine (if ?b then _ else _) => destruct b end; [try (apply fine_error; reflexivity); try apply fine_bool|]); try (apply fine_error; reflexivity); apply fine_bool.
Qed.
Lemma doc_fine d p s k : doc = Some d -> fine (d_verify d p s k).
Proof. intros D. destruct (U d D) as [K E]. rewrite E. apply verify_fine. Qed.

Ltac one :=
  match goal with
  | |- ok (mbind _ _) => apply ok_bind; [|intros ?]
  | |- ok (mret _) => apply ok_ret
  | |- ok mundef => apply ok_undef
  | |- ok (mstop (result_of_bool _)) => apply ok_stop_bool
  | |- ok (mstop (result_of_error _)) => apply ok_stop, fine_error; reflexivity
  | |- ok (mthrow X_other) => apply ok_throw_other
  | |- ok (fail _) => apply ok_fail; reflexivity
  | |- ok (guard _ _) => apply ok_guard; reflexivity
  | |- ok (need_stack _) => apply ok_need_stack
  | |- ok (need _ _) => apply ok_need; reflexivity
  | |- ok (top_at _) => apply ok_lift, ok_top
  | |- ok pop => apply ok_lift, ok_pop
  | |- ok (push_stack _) => apply ok_lift, ok_push
  | |- ok get => apply ok_get
  | |- ok get_size => apply ok_get_size
  | |- ok get_alt_size => apply ok_get_alt
  | |- ok get_main => apply ok_get_main
  | |- ok (set_ops _) => apply ok_set_ops
  | |- ok (set_control _ _) => apply ok_set_control
  | |- ok (number _ _ _) => apply ok_number
  | |- ok (num _ _) => apply ok_number
  | |- ok (code_of _) => apply ok_code_of
  | |- ok (lift (replace_back _)) => apply ok_lift, ok_replace
  | |- ok (lift (erase_range _ _)) => apply ok_lift, ok_erase_range
  | |- ok (lift (erase _)) => apply ok_lift, ok_erase
  | |- ok (lift (insert _ _)) => apply ok_lift, ok_insert
  | |- ok (lift from_alt) => apply ok_lift, ok_from_alt
  | |- ok (lift to_alt) => apply ok_lift, ok_to_alt
  | |- ok (lift (swap _ _)) => apply ok_lift, ok_swap
  | |- ok (lift (update_top _ _)) => apply ok_lift, ok_update
  | |- ok (if ?b then _ else _) => destruct b
  | |- ok (match ?x with _ => _ end) => destruct x
  end.
Ltac all := repeat (cbv zeta; one).

Lemma ok_discourage : ok (discourage cf). Proof. unfold discourage. all. Qed.
Lemma ok_cltv : ok (op_cltv doc cf). Proof. unfold op_cltv. destruct (has_flag _ _); [apply ok_discourage|all]. Qed.
Lemma ok_csv : ok (op_csv doc cf). Proof. unfold op_csv. destruct (has_flag _ _); [apply ok_discourage|all]. Qed.
Lemma ok_if n : ok (op_if cf n). Proof. unfold op_if. all. Qed.
Lemma ok_else : ok (op_else cf). Proof. unfold op_else. all. Qed.
Lemma ok_endif : ok op_endif. Proof. unfold op_endif. all. Qed.
Lemma ok_verify : ok op_verify. Proof. unfold op_verify. all. Qed.
Lemma ok_return : ok (op_return cf). Proof. unfold op_return. all. Qed.
Lemma ok_pick r : ok (op_pick cf r). Proof. unfold op_pick. all. Qed.
Lemma ok_bitwise f : ok (op_bitwise f). Proof. unfold op_bitwise. all. Qed.
Lemma ok_invert : ok op_invert. Proof. unfold op_invert. all. Qed.
Lemma ok_shift f : ok (op_shift cf f).
Proof. unfold op_shift. all. apply ok_lift, ok_modify. intros x e y E. destruct (shift_op _ _ _); discriminate E. Qed.
Lemma ok_equal v : ok (op_equal v). Proof. unfold op_equal. all. Qed.
Lemma ok_unary f : ok (op_unary cf f). Proof. unfold op_unary. all. Qed.
Lemma ok_binary f v : (forall a b e, f a b = inl e -> ok_err e) -> ok (op_binary cf f v).
Proof.
  intros F. unfold op_binary. apply ok_bind; [all|intros a]. apply ok_bind; [all|intros n1]. apply ok_bind; [all|intros b]. apply ok_bind; [all|intros n2].
  destruct (f n1 n2) as [e|n] eqn:E; [apply ok_fail; exact (F _ _ _ E)|]. all.
Qed.
Lemma ok_within : ok (op_within cf). Proof. unfold op_within. all. Qed.
Lemma ok_hash h : ok (op_hash h). Proof. unfold op_hash. all. Qed.
Lemma fine_guard r (k : unit -> M unit) : fine r -> (forall a, ok (k a)) -> ok (mbind (guard (serror_is_ok (r_error r)) (r_error r)) k).
Proof. intros [R _] K. apply ok_bind; [apply ok_guard, R|exact K]. Qed.
Lemma ok_bind_on {A B} (Q : A -> Prop) (p : M A) (f : A -> M B) : ok p -> (forall s a s', p s = Val a s' -> Q a) -> (forall a, Q a -> ok (f a)) -> ok (mbind p f).
Proof.
  intros P V F s. unfold mbind. assert (Ps := P s). destruct (p s) as [a s'|r s'|e s'|] eqn:E; auto. apply F. exact (V s a s' E).
Qed.
Lemma ok_checksig c v : ok (op_checksig doc c v).
Proof.
  unfold op_checksig. apply ok_bind; [all|intros _]. apply ok_bind; [all|intros sig]. apply ok_bind; [all|intros pub].
  apply (ok_bind_on fine).
  - destruct doc as [d|]; all.
  - intros s a s' E. assert (F := doc_fine). revert F E. destruct doc as [d|]; intros F E.
    + unfold mbind in E. destruct (code_of c s) as [p t|?|?|]; try discriminate E. unfold mret in E. assert (a = d_verify d (cleanup_script_code p sig) sig pub) as -> by congruence.
      apply F. reflexivity.
    + unfold mret in E. assert (a = result_of_bool true) as -> by congruence. apply fine_bool.
  - intros r R. apply fine_guard; [exact R|]. intros _. all.
Qed.
Lemma ok_loop code k : (forall d p, code = Some (d, p) -> doc = Some d) -> forall i j n m, ok (multisig_loop code k i j n m).
Proof.
  intros C. induction k as [|k IH]; intros i j n m; cbn [multisig_loop]; destruct (n =? 0); try apply ok_ret.
  apply ok_bind; [all|intros sig]. apply ok_bind; [all|intros pub]. cbv zeta. apply ok_bind.
  - apply ok_guard. destruct code as [[d p]|]; [|reflexivity]. apply doc_fine. exact (C d p eq_refl).
  - intros _. destruct (_ <? _); [apply ok_ret|apply IH].
Qed.
Lemma ok_cleanup k f i : ok (multisig_cleanup cf k f i).
Proof.
  revert i. induction k as [|k IH]; intros i; cbn [multisig_cleanup]; [apply ok_ret|]. apply ok_bind; [all|intros _]. apply ok_bind; [all|intros _]. apply IH.
Qed.
Lemma ok_checkmultisig c v : ok (op_checkmultisig doc cf c v).
Proof.
  unfold op_checkmultisig. apply ok_bind; [all|intros _]. apply ok_bind; [all|intros t]. apply ok_bind; [all|intros nk]. apply ok_bind; [all|intros _]. cbv zeta.
  apply ok_bind; [all|intros _]. apply ok_bind; [all|intros m]. apply ok_bind; [all|intros _]. apply ok_bind; [all|intros _]. apply ok_bind; [all|intros _].
  apply ok_bind; [all|intros u]. apply ok_bind; [all|intros ns]. apply ok_bind; [all|intros _]. apply ok_bind; [all|intros _]. apply ok_bind; [all|intros _].
  apply (ok_bind_on (fun code => forall d p, code = Some (d, p) -> doc = Some d)).
  - destruct doc; all.
  - intros s a s' E d p ->. destruct doc as [e|].
    + unfold mbind in E. destruct (code_of c s) as [q w|?|?|]; try discriminate E. unfold get_main, mret in E. congruence.
    + unfold mret in E. congruence.
  - intros code C. apply ok_bind; [apply ok_loop, C|intros b]. apply ok_bind; [apply ok_cleanup|intros _]. all.
Qed.
Lemma ok_cat : ok op_cat. Proof. unfold op_cat. all. apply ok_lift, ok_modify. intros x e y E. discriminate E. Qed.
Lemma ok_split : ok (op_split cf). Proof. unfold op_split. all. Qed.
Lemma ok_num2bin : ok (op_num2bin cf).
Proof.
  unfold op_num2bin. all. apply ok_lift, ok_modify. intros x e y E. destruct (_ <? _); [|discriminate E]. assert (e = X_script E_IMPOSSIBLE_ENCODING) as -> by congruence. reflexivity.
Qed.
Lemma ok_bin2num : ok (op_bin2num cf).
Proof.
  unfold op_bin2num. all. apply ok_lift, ok_modify. intros x e y E. cbv zeta in E. destruct (_ <? _); [|discriminate E]. assert (e = X_script E_INVALID_NUMBER_RANGE) as -> by congruence. reflexivity.
Qed.
Lemma ok_substr : ok (op_substr cf). Proof. unfold op_substr. all. Qed.
Lemma ok_left r : ok (op_left cf r). Proof. unfold op_left. all. Qed.
Lemma ok_arith f a b e : b_arith f a b = inl e -> ok_err e. Proof. discriminate. Qed.
Lemma ok_bbool f a b e : b_bool f a b = inl e -> ok_err e. Proof. discriminate. Qed.
Lemma ok_min a b e : b_min a b = inl e -> ok_err e. Proof. discriminate. Qed.
Lemma ok_max a b e : b_max a b = inl e -> ok_err e. Proof. discriminate. Qed.
Lemma ok_div a b e : b_div X a b = inl e -> ok_err e.
Proof. unfold b_div. destruct (is_zero b); intros E; [|discriminate E]. assert (e = E_DIV_BY_ZERO) as -> by congruence. reflexivity. Qed.
Lemma ok_mod a b e : b_mod X a b = inl e -> ok_err e.
Proof. unfold b_mod. destruct (is_zero b); intros E; [|discriminate E]. assert (e = E_MOD_BY_ZERO) as -> by congruence. reflexivity. Qed.

Lemma ok_exec c o : ok (exec_op X doc cf c o).
Proof.
  destruct o; cbn [exec_op];
  first [ apply ok_lift, ok_push | apply ok_ret | apply ok_cltv | apply ok_csv | apply ok_discourage | apply ok_if | apply ok_else | apply ok_endif | apply ok_verify | apply ok_return
        | apply ok_pick | apply ok_bitwise | apply ok_invert | apply ok_shift | apply ok_equal | apply ok_unary | apply ok_within | apply ok_hash | apply ok_checksig
        | apply ok_checkmultisig | apply ok_cat | apply ok_split | apply ok_num2bin | apply ok_bin2num | apply ok_substr | apply ok_left
        | apply ok_binary; first [apply ok_arith | apply ok_bbool | apply ok_div | apply ok_mod | apply ok_min | apply ok_max]
        | apply ok_fail; reflexivity | all ].
Qed.
Lemma ok_step c : ok (step X doc cf c).
Proof.
  unfold step. destruct (pc_next c) as [|o r].
  - unfold end_of_script. all.
  - apply ok_bind; [unfold count_op; all|intros _]. apply ok_bind; [all|intros m]. destruct (existsb _ _); [apply ok_ret|]. destruct (_ <=? _); [apply ok_lift, ok_push|apply ok_exec].
Qed.
Lemma run_fine k : forall c m r m' c', machine_run X doc cf k c m = Ret (r, m', c') -> fine r.
Proof.
  induction k as [|k IH]; intros c m r m' c' E; cbn [machine_run] in E; [discriminate|]. assert (P := ok_step c m).
  destruct (step X doc cf c m) as [a s|q s|e s|]; cbn [okres] in P.
  - destruct (pc_step c) as [d| |]; try discriminate E. exact (IH _ _ _ _ _ E).
  - assert (r = q) as -> by congruence. exact P.
  - assert (r = result_of_error (error_of e)) as -> by congruence. apply fine_error. exact P.
  - discriminate E.
Qed.

(* the program and the first result *)
Lemma verify_instruction_ok i : ok_err (verify_instruction i).
Proof. unfold verify_instruction. repeat (match goal with |- ok_err (match ?x with _ => _ end) => destruct x | |- ok_err (if ?x then _ else _) => destruct x end); reflexivity. Qed.
Lemma instr_verify_ok f i : ok_err (instr_verify f i).
Proof. unfold instr_verify. assert (V := verify_instruction_ok i). destruct (verify_instruction i); try exact V. destruct (_ && _); reflexivity. Qed.
Lemma valid_program_ok p f : forall c, ok_err (valid_program p c f).
Proof.
  induction p as [|i p IH]; intros c; cbn [valid_program]; [destruct c; reflexivity|]. assert (V := instr_verify_ok f i). destruct (instr_verify f i); try exact V.
  destruct (_ && _); [reflexivity|]. cbv zeta. assert (G : ok_err (match control_valid (i_op i) c with Some c' => valid_program p c' f | None => E_UNBALANCED_CONDITIONAL end)).
  { destruct (control_valid _ _); [apply IH|reflexivity]. }
  destruct (byte_eqb _ _); [|exact G]. destruct (negb _); [reflexivity|]. destruct c, p; try reflexivity; destruct (i_data i); try exact G; reflexivity.
Qed.
Lemma pre_verify_ok p f : ok_err (pre_verify p f).
Proof.
  unfold pre_verify. assert (V := valid_program_ok p f []). destruct p as [|i [|j [|]]]; [reflexivity| | |]; cbv zeta;
  repeat (match goal with |- ok_err (if ?x then _ else _) => destruct x end); try exact V; reflexivity.
Qed.
Lemma read_instr_ok b e : read_instr b = Throw (X_Invalid e) -> ok_err e.
Proof.
  unfold read_instr. destruct b as [|o r]; [intros E; assert (e = E_UNKNOWN_ERROR) as -> by congruence; reflexivity|]. destruct (is_push_data o); [|discriminate].
  unfold read_push. cbv zeta.
  repeat match goal with |- (if ?x then _ else _) = _ -> _ => destruct x | |- (match ?x with Some _ => _ | None => _ end) = _ -> _ => destruct x as [[? ?]|] end;
  try discriminate; intros E; assert (e = E_PUSH_SIZE) as -> by congruence; reflexivity.
Qed.
Lemma decompile_loop_ok k : forall c b e, decompile_loop k c b = Throw (X_Invalid e) -> ok_err e.
Proof.
  induction k as [|k IH]; intros c b e; cbn [decompile_loop]; destruct b as [|o b]; try discriminate. remember (o :: b) as l. clear Heql.
  destruct (read_instr l) as [[i r]|x|] eqn:R; [|intros E; assert (x = X_Invalid e) as -> by congruence; exact (read_instr_ok _ _ R)|discriminate].
  assert (V := instr_verify_ok 0 i). destruct (instr_verify 0 i); try (intros E; match type of E with Throw (X_Invalid ?x) = _ => assert (e = x) as -> by congruence end; exact V).
  destruct (control_decompile _ _); [|intros E; assert (e = E_UNBALANCED_CONDITIONAL) as -> by congruence; reflexivity].
  destruct (decompile_loop k l0 r) as [p|x|] eqn:D; try discriminate. intros E. assert (x = X_Invalid e) as -> by congruence. exact (IH _ _ _ D).
Qed.
Lemma setup_fine neg1 ux lx p r : setup_program cf neg1 ux lx = Ret (p, r) -> fine r.
Proof.
  unfold setup_program. cbv zeta.
  match goal with |- (match ?x with Ret _ => _ | Throw _ => _ | Undef => _ end = _) -> _ => assert (K : match x with Ret (q, s) => fine s | Throw (X_Invalid e) => ok_err e | _ => True end) end.
  { destruct (decompile ux) as [unlock|[e| |]|] eqn:DU; try exact I; [|exact (decompile_loop_ok _ _ _ _ DU)].
    destruct (decompile lx) as [lock|[e| |]|] eqn:DL; try exact I; [|exact (decompile_loop_ok _ _ _ _ DL)].
    destruct (full neg1 unlock lock _) as [q|[e| |]|] eqn:F; try exact I.
    - destruct (is_P2SH_program lock); [|exact I]. destruct (_ && _); [apply fine_error; reflexivity|]. destruct (_ && _).
      + destruct unlock; [apply fine_error; reflexivity|]. destruct (negb _); [apply fine_error; reflexivity|apply fine_bool].
      + apply fine_error, pre_verify_ok.
    - unfold full in F. cbv zeta in F. destruct (negb _); [discriminate F|]. destruct (is_P2SH_program lock) as [[]|]; try discriminate F.
      destruct (rev unlock); [discriminate F|]. match type of F with match ?t with _ => _ end = _ => destruct t as [y|x|] eqn:D end; try discriminate F. assert (EX : x = X_Invalid e) by congruence. rewrite EX in D. exact (decompile_loop_ok _ _ _ _ D). }
  destruct (match decompile ux with Ret _ => _ | Throw _ => _ | Undef => _ end) as [[q s]|[e| |]|]; try discriminate; intros E.
  - assert (r = s) as -> by congruence. exact K.
  - assert (r = result_of_error e) as -> by congruence. apply fine_error. exact K.
Qed.
Lemma evaluate_fine neg1 ux lx r : evaluate X doc cf neg1 ux lx = Ret r -> fine r.
Proof.
  unfold evaluate, interpreter. destruct (setup_program cf neg1 ux lx) as [[p q]| |] eqn:S0; try discriminate. assert (F := setup_fine _ _ _ _ _ S0).
  destruct (compile p) as [s|]; [|discriminate]. destruct (pc_start s) as [c| |]; try discriminate. unfold interp_run. cbn [in_halt in_counter in_state in_result].
  destruct (negb _); [intros E; cbn [in_result] in E; congruence|].
  destruct (machine_run X doc cf _ c _) as [[[t m] d]| |] eqn:R; try discriminate. cbn [in_result]. intros E. assert (t = r) as -> by congruence. exact (run_fine _ _ _ _ _ _ R).
Qed.
End Machine.

(* ---------------------------------------------------------------- every other error is reported *)
From Verif Require Import MachineExamples ErrorExamples.
Lemma each_reported e : unreported e = false ->
  exists X d f consensus neg1 ux lx r, usual (script_config f consensus) (Some d) /\ evaluate X (Some d) (script_config f consensus) neg1 ux lx = Ret r /\ r_error r = e.
Proof.
  intros U.
  assert (G : exists r, ex_error_run (fst (fst (ex_error_case e))) (snd (fst (ex_error_case e))) (snd (ex_error_case e)) = Ret r /\ r_error r = e).
  { destruct e; try discriminate U; (eexists; split; [vm_compute; reflexivity|reflexivity]). }
  destruct G as [r [E R]]. set (f := flags_of (fst (fst (ex_error_case e)))) in *.
  exists ex_externals, (ex_error_document f), f, true, [x81], (snd (fst (ex_error_case e))), (snd (ex_error_case e)), r.
  split; [|split; [exact E|exact R]]. intros d D. exists ex_error_checks. assert (d = ex_error_document f) as -> by congruence.
  unfold script_config. destruct (negb _); reflexivity.
Qed.
Lemma error_exact e : (exists X doc cf neg1 ux lx r, usual cf doc /\ evaluate X doc cf neg1 ux lx = Ret r /\ r_error r = e) <-> unreported e = false.
Proof.
  split.
  - intros (X & doc & cf & neg1 & ux & lx & r & U & E & <-). exact (proj1 (evaluate_fine X doc cf U neg1 ux lx r E)).
  - intros U. destruct (each_reported e U) as (X & d & f & c & neg1 & ux & lx & r & A & B & C). exists X, (Some d), (script_config f c), neg1, ux, lx, r. auto.
Qed.
Lemma success_ok X doc cf neg1 ux lx r : usual cf doc -> evaluate X doc cf neg1 ux lx = Ret r -> r_success r = true -> r_error r = E_OK.
Proof. intros U E. exact (proj2 (evaluate_fine X doc cf U neg1 ux lx r E)). Qed.
