From Coq Require Import Lia ZifyBool ZifyNat ZifyN.
From Verif Require Import Base BaseProofs ScriptModel ScriptSpec WireSpec WireProofs ScriptProofs NumModel NumSpec NumProofs WorkModel.
From Verif Require Import PatternModel PatternSpec PatternProofs PatternTemplates BoostModel BoostSpec BoostProofs BoostWrite BoostInput.
Local Open Scope N_scope.

(* ---- scripts made of instructions are read without exceptions ---- *)
Lemma whole_front i c r j d t : whole i c -> whole j d -> c ++ r = d ++ t -> c = d /\ r = t.
Proof.
  intros A B E. assert (L : len c = len d) by (rewrite <- (next_whole i c r A), <- (next_whole j d t B); now rewrite E).
  assert (length c = length d) by (unfold len in L; lia). split.
  - apply (f_equal (firstn (length c))) in E. rewrite firstn_app_exact, H, firstn_app_exact in E. exact E.
  - apply (f_equal (skipn (length c))) in E. rewrite skipn_app_exact, H, skipn_app_exact in E. exact E.
Qed.
Lemma instructions_rest i c r : whole i c -> instructions (c ++ r) -> instructions r.
Proof.
  intros W H. inversion H as [E|j d t Wj Ht E]; subst.
  - exfalso. destruct (whole_ne _ _ r W). now symmetry.
  - destruct (whole_front _ _ _ _ _ _ W Wj (eq_sym E)) as (-> & ->). exact Ht.
Qed.
Lemma instructions_tail s r : instructions s -> instructions (s ++ r) -> instructions r.
Proof.
  induction 1 as [|i c t W H IH]; intros X; [exact X|]. rewrite <- app_assoc in X. apply IH. eapply instructions_rest; eassumption.
Qed.
Definition calm (neg1 : bytes) (q : pat) : Prop :=
  forall b v, instructions b -> match snd (scan neg1 0 q b v) with Rest r => instructions r | Fail => True | _ => False end.
Lemma calm_seq neg1 l : Forall (calm neg1) l -> calm neg1 (PSeq l).
Proof.
  induction 1 as [|q l Q H IH]; intros b v B; [exact B|]. rewrite seq_cons. specialize (Q b v B).
  destruct (scan neg1 0 q b v) as [w [r| | | |]]; cbn [snd] in *; try contradiction; [|exact Logic.I]. now apply IH.
Qed.
Lemma calm_alt neg1 l : Forall (calm neg1) l -> calm neg1 (PAlt l).
Proof.
  induction 1 as [|q l Q H IH]; intros b v B; [exact Logic.I|]. rewrite alt_cons. specialize (Q b v B).
  destruct (scan neg1 0 q b v) as [w [r| | | |]]; cbn [snd] in *; try contradiction; [assumption|]. now apply IH.
Qed.
Lemma calm_push neg1 t : calm neg1 (PPush t).
Proof.
  intros b v B. change (scan neg1 0 (PPush t) b v) with (scan_push neg1 t b v). inversion B as [|i c r W R]; subst; [exact Logic.I|].
  rewrite (push_whole _ _ _ _ _ _ W). destruct (push_match neg1 t i v); [exact R|exact Logic.I].
Qed.
Lemma calm_push_size neg1 n k : calm neg1 (PPushSize n k).
Proof.
  intros b v B. change (scan neg1 0 (PPushSize n k) b v) with (scan_push_size neg1 n k b v). inversion B as [|i c r W R]; subst; [exact Logic.I|].
  rewrite (push_size_whole _ _ _ _ _ _ _ W). destruct (len (push_value neg1 i) =? n); [exact R|exact Logic.I].
Qed.
Lemma calm_optional neg1 q : calm neg1 q -> calm neg1 (POptional q).
Proof.
  intros Q b v B. specialize (Q b v B). change (scan neg1 0 (POptional q) b v) with (match scan neg1 0 q b v with (w, Fail) => (w, Rest b) | y => y end).
  destruct (scan neg1 0 q b v) as [w [r| | | |]]; cbn [snd] in *; try contradiction; assumption.
Qed.
Lemma calm_atom neg1 i : calm neg1 (PAtom i).
Proof.
  intros b v B. change (scan neg1 0 (PAtom i) b v) with (scan_atom i b v). inversion B as [|j c r W R]; subst; [exact Logic.I|].
  rewrite (atom_whole _ _ _ _ _ W). destruct (instr_eqb i j); [exact R|exact Logic.I].
Qed.
Lemma calm_string neg1 s : instructions s -> calm neg1 (PString s).
Proof.
  intros Hs b v B. destruct (scan neg1 0 (PString s) b v) as [w [r| | | |]] eqn:E; cbn [snd]; try exact Logic.I.
  - apply bytes_step in E as (_ & ->). exact (instructions_tail s r Hs B).
  - revert E. change (scan neg1 0 (PString s) b v) with (scan_string s b v). unfold scan_string. destruct (length b <? length s)%nat; [discriminate|]. destruct (bytes_eqb _ _); discriminate.
  - revert E. change (scan neg1 0 (PString s) b v) with (scan_string s b v). unfold scan_string. destruct (length b <? length s)%nat; [discriminate|]. destruct (bytes_eqb _ _); discriminate.
  - revert E. change (scan neg1 0 (PString s) b v) with (scan_string s b v). unfold scan_string. destruct (length b <? length s)%nat; [discriminate|]. destruct (bytes_eqb _ _); discriminate.
Qed.
Lemma program_instructions p : Forall (fun i => whole i (instr_write i)) p -> instructions (program_write p).
Proof. induction 1 as [|i p W H IH]; [constructor|]. rewrite write_cons. econstructor; eassumption. Qed.
Lemma op0_whole : whole (op_instr x00) [x00].
Proof. split; [exact (if_direct [] ltac:(vm_compute; discriminate))|]. split; [discriminate|vm_compute; reflexivity]. Qed.
Lemma op_write o : opcode o -> whole (op_instr o) (instr_write (op_instr o)).
Proof.
  intros O. replace (instr_write (op_instr o)) with [o]; [now apply opcode_whole|]. apply (inst_write (op_instr o) [o]). apply (opcode_whole o O).
Qed.
Ltac wholes := repeat (apply Forall_cons; [first [apply op_write; split; [vm_compute; reflexivity|discriminate] | exact op0_whole | apply push_whole_write; vm_compute; reflexivity]|]); apply Forall_nil.
Lemma positive_instructions : instructions (program_write ensure_positive).
Proof. apply program_instructions. unfold ensure_positive. wholes. Qed.
Lemma expand_instructions : instructions (program_write expand_target).
Proof. apply program_instructions. unfold expand_target, push_int. wholes. Qed.

Ltac calms := repeat (apply Forall_cons; [first [apply calm_push | apply calm_push_size | apply calm_atom | apply calm_optional, calm_push_size
  | apply calm_string, positive_instructions | apply calm_string, expand_instructions]|]); apply Forall_nil.
Lemma calm_output neg1 bits : calm neg1 (output_pattern bits).
Proof.
  apply calm_seq. unfold fields_pattern, code_pattern, start_pattern, bits_pattern, plain_pattern, end_pattern.
  destruct bits; cbn [app map construct]; calms.
Qed.
Lemma calm_pubkey neg1 k : calm neg1 (pubkey_pattern k).
Proof. apply calm_seq. cbn [map construct]. constructor; [|constructor]. apply calm_alt. calms. Qed.
Lemma calm_input neg1 : calm neg1 input_pattern.
Proof.
  apply calm_seq. cbn [map construct]. apply Forall_cons; [apply calm_push|]. apply Forall_cons; [apply calm_pubkey|]. calms.
Qed.
Lemma calm_match neg1 q b v : calm neg1 q -> instructions b -> exists w r, pmatch neg1 0 q b v = (w, Matched r).
Proof.
  intros Q B. specialize (Q b v B). unfold pmatch. destruct (scan neg1 0 q b v) as [w [r| | | |]]; cbn [snd] in *; try contradiction; eauto.
Qed.
Theorem output_total neg1 s : instructions s -> exists o, output_read neg1 s = Ret o.
Proof.
  intros B. unfold output_read. destruct (calm_match neg1 _ s output_vars (calm_output neg1 true) B) as (w & [] & ->); cbn [matched]; [eauto|].
  destruct (calm_match neg1 _ s w (calm_output neg1 false) B) as (u & [] & ->); cbn [matched]; eauto.
Qed.
Theorem input_total neg1 s : instructions s -> exists i, input_read neg1 s = Ret i.
Proof.
  intros B. unfold input_read. destruct (calm_match neg1 _ s input_vars (calm_input neg1) B) as (w & [] & ->); cbn [matched]; eauto.
Qed.
Theorem output_cut neg1 s : cut s -> output_read neg1 s = Undef.
Proof.
  intros C. unfold output_read. assert (E : pmatch neg1 0 (output_pattern true) s output_vars = (output_vars, MBeyond)).
  { unfold pmatch. rewrite pattern_split. unfold fields_pattern. cbn [map construct app]. rewrite seq_cons.
    change (scan neg1 0 (PPush (PushIs boost_word)) s output_vars) with (scan_push neg1 (PushIs boost_word) s output_vars). now rewrite push_cut. }
  rewrite E. reflexivity.
Qed.
Theorem input_cut neg1 s : cut s -> input_read neg1 s = Undef.
Proof.
  intros C. unfold input_read. assert (E : pmatch neg1 0 input_pattern s input_vars = (input_vars, MBeyond)).
  { unfold pmatch, input_pattern, pattern_of. cbn [map construct app]. rewrite seq_cons.
    change (scan neg1 0 (PPush (PushRead 0)) s input_vars) with (scan_push neg1 (PushRead 0) s input_vars). now rewrite push_cut. }
  rewrite E. reflexivity.
Qed.
Theorem output_other neg1 i c r : whole i c -> is_push_op (i_op i) && bytes_eqb boost_word (push_value neg1 i) = false -> output_read neg1 (c ++ r) = Ret no_output.
Proof.
  intros W N. assert (E : forall bits v, pmatch neg1 0 (output_pattern bits) (c ++ r) v = (v, Matched false)).
  { intros bits v. unfold pmatch. rewrite pattern_split. unfold fields_pattern. cbn [map construct app]. rewrite seq_cons.
    change (scan neg1 0 (PPush (PushIs boost_word)) (c ++ r) v) with (scan_push neg1 (PushIs boost_word) (c ++ r) v). rewrite (push_whole _ _ _ _ _ _ W).
    unfold push_match. destruct (is_push_op (i_op i)); [|reflexivity]. cbn [andb negb] in *. rewrite N. reflexivity. }
  unfold output_read. rewrite E. cbn [matched]. rewrite E. reflexivity.
Qed.
(* written scripts are made of instructions *)
Lemma push_instructions d s : len d < 2 ^ 31 -> instructions s -> instructions (instr_write (push d) ++ s).
Proof. intros L H. econstructor; [now apply push_whole_write|exact H]. Qed.
