(* Proofs about whole programs: compile/decompile, pre-verification, the program counter. *)
From Verif Require Import Base BaseProofs WireProofs ScriptModel ScriptSpec ScriptProofs.
From Coq Require Import ZifyBool ZifyNat ZifyN.
Ltac Zify.zify_post_hook ::= Z.div_mod_to_equations.
Local Open Scope N_scope.

(* running one of the two control trackers over a list of opcodes *)
Fixpoint ctl (f : byte -> list byte -> option (list byte)) (l : list byte) (c : list byte) : option (list byte) :=
  match l with
  | [] => Some c
  | o :: r => match f o c with Some c' => ctl f r c' | None => None end
  end.

Lemma segments_write p s : segments p s -> concat s = program_write p.
Proof.
  unfold program_write. induction 1 as [|i p c s Hi _ IH]; [reflexivity|]. cbn. rewrite IH. f_equal. now apply inst_write.
Qed.

Lemma segments_length p s : segments p s -> length s = length p.
Proof. induction 1; cbn; congruence. Qed.

Lemma decompile_loop_segments fuel : forall c b p, decompile_loop fuel c b = Ret p ->
  exists s, segments p s /\ b = concat s /\ Forall known_op (ops p) /\ (exists c', ctl control_decompile (ops p) c = Some c').
Proof.
  induction fuel as [|k IH]; intros c b p; destruct b as [|x b]; cbn [decompile_loop]; try discriminate.
  - intros H; injection H as <-. exists []. repeat split; try constructor. eexists; reflexivity.
  - intros H; injection H as <-. exists []. repeat split; try constructor. eexists; reflexivity.
  - destruct (read_instr (x :: b)) as [[i r]|e|] eqn:R; try discriminate.
    apply read_instr_form in R as (cc & Eb & Hi).
    rewrite verify0. destruct (verify_instruction i) eqn:V; try discriminate.
    destruct (control_decompile (i_op i) c) as [c'|] eqn:C; try discriminate.
    destruct (decompile_loop k c' r) as [q|e|] eqn:D; try discriminate.
    intros H; injection H as <-. apply IH in D as (s & Hs & -> & Hk & (c'' & Hc)).
    exists (cc :: s). split; [now constructor|]. split; [exact Eb|]. split.
    + constructor; [|assumption]. now apply (inst_size_iff_known _ _ Hi).
    + exists c''. cbn. rewrite C. exact Hc.
Qed.

Lemma concat_len_cons (c : bytes) s : length (concat (c :: s)) = (length c + length (concat s))%nat.
Proof. cbn. now rewrite app_length. Qed.

Lemma decompile_loop_of_segments fuel : forall c p s, segments p s -> (length (concat s) <= fuel)%nat ->
  decompile_loop fuel c (concat s) =
  (fix go (p : program) (c : list byte) : outcome sexn program :=
     match p with
     | [] => Ret []
     | i :: q =>
         match verify_instruction i with
         | E_OK => match control_decompile (i_op i) c with
                   | None => Throw (X_Invalid E_UNBALANCED_CONDITIONAL)
                   | Some c' => match go q c' with Ret p => Ret (i :: p) | Throw e => Throw e | Undef => Undef end
                   end
         | e => Throw (X_Invalid e)
         end
     end) p c.
Proof.
  induction fuel as [|k IH]; intros c p s Hs L.
  - destruct Hs as [|i p cc s Hi Hs]; [reflexivity|]. rewrite concat_len_cons in L.
    pose proof (inst_nonempty _ _ Hi). destruct cc; [congruence|cbn in L; lia].
  - destruct Hs as [|i p cc s Hi Hs]; [reflexivity|].
    cbn [concat]. cbn [decompile_loop].
    destruct (cc ++ concat s) as [|x b] eqn:E.
    { exfalso. apply (inst_nonempty _ _ Hi). now apply app_eq_nil in E as [-> _]. }
    rewrite <- E. rewrite (read_instr_of_form _ _ _ Hi). rewrite verify0.
    destruct (verify_instruction i); try reflexivity.
    destruct (control_decompile (i_op i) c) as [c'|]; [|reflexivity].
    rewrite (IH c' p s Hs); [reflexivity|]. rewrite concat_len_cons in L.
    pose proof (inst_nonempty _ _ Hi). destruct cc; [congruence|cbn in L; lia].
Qed.

Lemma decompile_loop_no_fuel fuel : forall c b, (length b <= fuel)%nat ->
  decompile_loop fuel c b <> Throw X_Fuel /\ decompile_loop fuel c b <> Undef.
Proof.
  induction fuel as [|k IH]; intros c b L; destruct b as [|x b]; cbn [decompile_loop]; try (split; discriminate).
  { cbn in L; lia. }
  destruct (read_instr (x :: b)) as [[i r]|e|] eqn:R.
  - destruct (instr_verify 0 i); try (split; discriminate).
    destruct (control_decompile (i_op i) c) as [c'|]; [|split; discriminate].
    apply read_instr_form in R as (cc & Eb & Hi).
    assert (L' : (length r <= k)%nat).
    { apply (f_equal (@length _)) in Eb. rewrite app_length in Eb. cbn [length] in Eb, L.
      pose proof (inst_nonempty _ _ Hi). destruct cc; [congruence|cbn in Eb; lia]. }
    specialize (IH c' r L'). destruct (decompile_loop k c' r); [split; discriminate| |tauto].
    split; [|discriminate]. intros H. injection H as ->. tauto.
  - split; [|discriminate]. intros H. injection H as ->. revert R. unfold read_instr, read_push.
    destruct (is_push_data x); [|discriminate].
    destruct (b2n x <=? 75). { destruct (len b <? b2n x); discriminate. }
    destruct (byte_eqb x x4c). { destruct (rd_le 1 b) as [[n b']|]; [destruct (len b' <? n)|]; discriminate. }
    destruct (byte_eqb x x4d). { destruct (rd_le 2 b) as [[n b']|]; [destruct (len b' <? n)|]; discriminate. }
    destruct (rd_le 4 b) as [[n b']|]; [destruct (len b' <? n)|]; discriminate.
  - exfalso. now apply (read_instr_noundef (x :: b)).
Qed.

Theorem decompile_total b : decompile b <> Throw X_Fuel /\ decompile b <> Undef.
Proof. now apply decompile_loop_no_fuel. Qed.

Theorem decompile_segments b p : decompile b = Ret p ->
  exists s, segments p s /\ b = concat s /\ Forall known_op (ops p).
Proof. intros H. apply decompile_loop_segments in H as (s & A & B & C & _). eauto. Qed.

Lemma segments_size p s : segments p s -> len (concat s) < 2 ^ 32 -> program_size p = len (concat s).
Proof.
  unfold program_size. induction 1 as [|i p c s Hi Hs IH]; intros L; [reflexivity|].
  cbn [fold_right concat] in *. rewrite len_app in *. rewrite IH by lia. f_equal.
  destruct (N.lt_ge_cases (len (i_data i) + 5) (2 ^ 32)) as [A|A]; [now apply inst_size|].
  (* the data is part of the encoding; only the five byte overhead of PUSHDATA4 may come close *)
  destruct i as [o d]. unfold is_inst in Hi. cbn [i_op i_data] in *.
  inversion Hi; subst; clear Hi; rewrite ?len_cons, ?len_app, ?len_le, ?len_nil in *; try lia.
Qed.

Lemma buffer_write_exact c : buffer_write (len c) c = Some c.
Proof.
  unfold buffer_write. rewrite N.ltb_irrefl. f_equal. unfold len. rewrite Nat2N.id, Nat.sub_diag. cbn. apply app_nil_r.
Qed.

Theorem compile_segments p s : segments p s -> len (concat s) < 2 ^ 32 -> compile p = Some (concat s).
Proof.
  intros Hs L. unfold compile. rewrite (segments_size _ _ Hs L), <- (segments_write _ _ Hs). apply buffer_write_exact.
Qed.

Theorem compile_decompile b p : decompile b = Ret p -> len b < 2 ^ 32 -> compile p = Some b.
Proof. intros H L. apply decompile_segments in H as (s & Hs & -> & _). now apply compile_segments. Qed.

(* ---- balance ---- *)

Lemma control_op_dec o : control_op o \/ ~ control_op o.
Proof.
  unfold control_op. destruct (Byte.byte_eq_dec o OP_IF), (Byte.byte_eq_dec o OP_NOTIF), (Byte.byte_eq_dec o OP_ELSE),
    (Byte.byte_eq_dec o OP_ENDIF); try (left; tauto); right; tauto.
Qed.

Lemma control_decompile_plain o c : ~ control_op o -> control_decompile o c = Some c.
Proof.
  unfold control_op, control_decompile. intros H.
  replace (byte_eqb o OP_ENDIF) with false by (symmetry; apply byte_eqb_neq; tauto).
  replace (byte_eqb o OP_ELSE) with false by (symmetry; apply byte_eqb_neq; tauto).
  replace (byte_eqb o OP_IF) with false by (symmetry; apply byte_eqb_neq; tauto).
  replace (byte_eqb o OP_NOTIF) with false by (symmetry; apply byte_eqb_neq; tauto). reflexivity.
Qed.

Lemma control_valid_plain o c : ~ control_op o -> control_valid o c = Some c.
Proof.
  unfold control_op, control_valid. intros H.
  replace (byte_eqb o OP_ENDIF) with false by (symmetry; apply byte_eqb_neq; tauto).
  replace (byte_eqb o OP_ELSE) with false by (symmetry; apply byte_eqb_neq; tauto).
  replace (byte_eqb o OP_IF) with false by (symmetry; apply byte_eqb_neq; tauto).
  replace (byte_eqb o OP_NOTIF) with false by (symmetry; apply byte_eqb_neq; tauto). reflexivity.
Qed.

Lemma balanced_decompile l : balanced l -> forall c r, ctl control_decompile (l ++ r) c = ctl control_decompile r c.
Proof.
  induction 1 as [|o p Ho Hp IH|o a p Ho Ha IHa Hp IHp|o a b p Ho Ha IHa Hb IHb Hp IHp]; intros c r.
  - reflexivity.
  - cbn [app ctl]. rewrite control_decompile_plain by assumption. apply IH.
  - cbn [app ctl]. rewrite <- app_assoc. cbn [app].
    assert (E : control_decompile o c = Some (o :: c)) by (destruct Ho as [-> | ->]; reflexivity). rewrite E.
    rewrite IHa. cbn [ctl]. assert (E2 : control_decompile OP_ENDIF (o :: c) = Some c) by (destruct Ho as [-> | ->]; reflexivity).
    rewrite E2. apply IHp.
  - cbn [app ctl]. rewrite <- app_assoc. cbn [app]. rewrite <- app_assoc. cbn [app].
    assert (E : control_decompile o c = Some (o :: c)) by (destruct Ho as [-> | ->]; reflexivity). rewrite E.
    rewrite IHa. cbn [ctl]. change (control_decompile OP_ELSE (o :: c)) with (Some (OP_ELSE :: o :: c)). cbn iota.
    rewrite IHb. cbn [ctl]. change (control_decompile OP_ENDIF (OP_ELSE :: o :: c)) with (Some c). cbn iota. apply IHp.
Qed.

Lemma balanced_valid l : balanced l -> forall c r, ctl control_valid (l ++ r) c = ctl control_valid r c.
Proof.
  induction 1 as [|o p Ho Hp IH|o a p Ho Ha IHa Hp IHp|o a b p Ho Ha IHa Hb IHb Hp IHp]; intros c r.
  - reflexivity.
  - cbn [app ctl]. rewrite control_valid_plain by assumption. apply IH.
  - cbn [app ctl]. rewrite <- app_assoc. cbn [app].
    assert (E : control_valid o c = Some (o :: c)) by (destruct Ho as [-> | ->]; reflexivity). rewrite E.
    rewrite IHa. cbn [ctl]. assert (E2 : control_valid OP_ENDIF (o :: c) = Some c) by (destruct Ho as [-> | ->]; reflexivity).
    rewrite E2. apply IHp.
  - cbn [app ctl]. rewrite <- app_assoc. cbn [app]. rewrite <- app_assoc. cbn [app].
    assert (E : control_valid o c = Some (o :: c)) by (destruct Ho as [-> | ->]; reflexivity). rewrite E.
    rewrite IHa. cbn [ctl]. change (control_valid OP_ELSE (o :: c)) with (Some (OP_ELSE :: o :: c)). cbn iota.
    rewrite IHb. cbn [ctl].
    assert (E2 : control_valid OP_ENDIF (OP_ELSE :: o :: c) = Some c) by (destruct Ho as [-> | ->]; reflexivity).
    rewrite E2. apply IHp.
Qed.

(* a remaining opcode list that closes the open conditionals on a control stack *)
Inductive closes : list byte -> list byte -> Prop :=
| cl_nil l : balanced l -> closes [] l
| cl_if o a c l : o = OP_IF \/ o = OP_NOTIF -> balanced a -> closes c l -> closes (o :: c) (a ++ OP_ENDIF :: l)
| cl_ifelse o a b c l : o = OP_IF \/ o = OP_NOTIF -> balanced a -> balanced b -> closes c l ->
    closes (o :: c) (a ++ OP_ELSE :: b ++ OP_ENDIF :: l)
| cl_else o b c l : o = OP_IF \/ o = OP_NOTIF -> balanced b -> closes c l -> closes (OP_ELSE :: o :: c) (b ++ OP_ENDIF :: l).

Lemma balanced_prepend (f : list byte -> list byte) c l :
  (forall p r, f (p ++ r) = f p ++ r) -> (forall p, balanced p -> balanced (f p)) -> closes c l -> closes c (f l).
Proof.
  intros Hf Hb H. destruct H as [l H|o a c l Ho Ha H|o a b c l Ho Ha Hb' H|o b c l Ho Hb' H].
  - constructor. auto.
  - rewrite Hf. apply cl_if; auto.
  - rewrite Hf. apply cl_ifelse; auto.
  - rewrite Hf. apply cl_else; auto.
Qed.

Lemma valid_closes l : forall c, ctl control_valid l c = Some [] -> closes c l.
Proof.
  induction l as [|x l IH]; intros c; cbn [ctl].
  - intros H; injection H as ->. constructor. constructor.
  - destruct (control_op_dec x) as [[-> | [-> | [-> | ->]]] | Hx].
    + change (control_valid OP_IF c) with (Some (OP_IF :: c)). cbn iota. intros H. apply IH in H.
      inversion H; subst.
      * apply (balanced_prepend (fun p => OP_IF :: a ++ OP_ENDIF :: p)); [intros; cbn; now rewrite <- app_assoc| |assumption].
        intros; apply bal_if; auto.
      * apply (balanced_prepend (fun p => OP_IF :: a ++ OP_ELSE :: b ++ OP_ENDIF :: p)); [intros; cbn; rewrite <- app_assoc; cbn; now rewrite <- app_assoc| |assumption].
        intros; apply bal_else; auto.
    + change (control_valid OP_NOTIF c) with (Some (OP_NOTIF :: c)). cbn iota. intros H. apply IH in H.
      inversion H; subst.
      * apply (balanced_prepend (fun p => OP_NOTIF :: a ++ OP_ENDIF :: p)); [intros; cbn; now rewrite <- app_assoc| |assumption].
        intros; apply bal_if; auto.
      * apply (balanced_prepend (fun p => OP_NOTIF :: a ++ OP_ELSE :: b ++ OP_ENDIF :: p)); [intros; cbn; rewrite <- app_assoc; cbn; now rewrite <- app_assoc| |assumption].
        intros; apply bal_else; auto.
    + change (control_valid OP_ELSE c) with (Some (OP_ELSE :: c)). cbn iota. intros H. apply IH in H.
      inversion H; subst; try (match goal with E : _ \/ _ |- _ => destruct E; discriminate end).
      apply (cl_ifelse o [] b c0); auto. constructor.
    + unfold control_valid. change (byte_eqb OP_ENDIF OP_ENDIF) with true. cbn iota.
      destruct c as [|prev c1]; [discriminate|].
      destruct (byte_eqb prev OP_ELSE) eqn:Ee.
      * apply byte_eqb_eq in Ee; subst prev. destruct c1 as [|p c2]; [discriminate|].
        destruct (byte_eqb p OP_IF || byte_eqb p OP_NOTIF) eqn:Eo; [|discriminate].
        intros H. apply (cl_else p [] c2); [|constructor|auto].
        apply orb_prop in Eo as [Eo|Eo]; apply byte_eqb_eq in Eo; auto.
      * destruct (byte_eqb prev OP_IF || byte_eqb prev OP_NOTIF) eqn:Eo; [|discriminate].
        intros H. apply (cl_if prev [] c1); [|constructor|auto].
        apply orb_prop in Eo as [Eo|Eo]; apply byte_eqb_eq in Eo; auto.
    + rewrite control_valid_plain by assumption. intros H. apply IH in H.
      apply (balanced_prepend (cons x)); [reflexivity| |assumption]. intros; now constructor.
Qed.

Theorem balanced_exact l : ctl control_valid l [] = Some [] <-> balanced l.
Proof.
  split.
  - intros H. apply valid_closes in H. now inversion H.
  - intros H. pose proof (balanced_valid l H [] []) as E. rewrite app_nil_r in E. rewrite E. reflexivity.
Qed.

(* ---- decompile of a concatenation of encodings ---- *)

Lemma ctl_none_app f l r c : ctl f l c = None -> ctl f (l ++ r) c = None.
Proof.
  revert c. induction l as [|o l IH]; intros c; cbn; [discriminate|]. destruct (f o c); auto.
Qed.

Theorem decompile_of_segments p s : segments p s ->
  (Forall known_op (ops p) -> balanced (ops p) -> decompile (concat s) = Ret p) /\
  (decompile (concat s) = Ret p \/
   (decompile (concat s) = Throw (X_Invalid E_BAD_OPCODE) /\ ~ Forall known_op (ops p)) \/
   (decompile (concat s) = Throw (X_Invalid E_UNBALANCED_CONDITIONAL) /\ ~ balanced (ops p))).
Proof.
  intros Hs. unfold decompile. rewrite (decompile_loop_of_segments _ [] p s Hs) by lia.
  set (go := fix go (p : program) (c : list byte) : outcome sexn program := _).
  assert (M : forall p s c, segments p s ->
     (Forall known_op (ops p) -> ctl control_decompile (ops p) c <> None -> go p c = Ret p) /\
     (go p c = Ret p \/ (go p c = Throw (X_Invalid E_BAD_OPCODE) /\ ~ Forall known_op (ops p)) \/
      (go p c = Throw (X_Invalid E_UNBALANCED_CONDITIONAL) /\ ctl control_decompile (ops p) c = None))).
  { clear p s Hs. induction p as [|i p IH]; intros s c Hs.
    - split; [reflexivity|now left].
    - inversion Hs as [|? ? cc s' Hi Hs']; subst. destruct (inst_size_iff_known _ _ Hi) as [V K].
      cbn [go ops map ctl] in *. fold (ops p).
      destruct V as [V|V]; rewrite V in *.
      + destruct (control_decompile (i_op i) c) as [c'|].
        * destruct (IH s' c' Hs') as [A B]. split.
          -- intros Hk Hc. inversion Hk; subst. rewrite A by assumption. reflexivity.
          -- destruct B as [-> | [(-> & B) | (-> & B)]]; [now left|right; left|right; right].
             ++ split; [reflexivity|]. intros Hk. inversion Hk; subst. tauto.
             ++ split; [reflexivity|assumption].
        * split; [congruence|]. right; right. split; reflexivity.
      + assert (NK : ~ known_op (i_op i)) by (intros Hk; apply K in Hk; congruence).
        split; [intros Hk; inversion Hk; subst; tauto|]. right; left. split; [reflexivity|].
        intros Hk; inversion Hk; subst; tauto. }
  destruct (M p s [] Hs) as [A B].
  assert (Bal : balanced (ops p) -> ctl control_decompile (ops p) [] <> None).
  { intros Hb. pose proof (balanced_decompile _ Hb [] []) as E. rewrite app_nil_r in E. rewrite E. discriminate. }
  split; [intros; apply A; auto|].
  destruct B as [B|[B|(B & C)]]; [now left|right; now left|right; right]. split; [assumption|]. intros Hb. now apply Bal in Hb.
Qed.

(* ---- the end-of-stream exception ---- *)


Lemma read_instr_eos b : read_instr b = Throw X_EndOfStream <->
  exists o t, b = o :: t /\ (length t < size_bytes o)%nat.
Proof.
  split.
  - destruct b as [|o b]; [discriminate|]. unfold read_instr, read_push. intros H. exists o, b. split; [reflexivity|].
    revert H. destruct (is_push_data o) eqn:E; [|discriminate].
    destruct (b2n o <=? 75) eqn:E7. { destruct (len b <? b2n o); discriminate. }
    unfold size_bytes.
    destruct (byte_eqb o x4c) eqn:E1. { destruct (rd_le 1 b) as [[n b']|] eqn:R; [destruct (len b' <? n); discriminate|]. intros _. now apply rd_le_none. }
    destruct (byte_eqb o x4d) eqn:E2. { destruct (rd_le 2 b) as [[n b']|] eqn:R; [destruct (len b' <? n); discriminate|]. intros _. now apply rd_le_none. }
    destruct (byte_eqb o x4e) eqn:E3.
    2:{ exfalso. unfold is_push_data in E. byteq. lia. }
    destruct (rd_le 4 b) as [[n b']|] eqn:R; [destruct (len b' <? n); discriminate|]. intros _. now apply rd_le_none.
  - intros (o & t & -> & L). unfold size_bytes in L. unfold read_instr, read_push.
    destruct (byte_eqb o x4c) eqn:E1. { apply byte_eqb_eq in E1; subst o. apply rd_le_none in L. cbn -[rd_le]. now rewrite L. }
    destruct (byte_eqb o x4d) eqn:E2. { apply byte_eqb_eq in E2; subst o. apply rd_le_none in L. cbn -[rd_le]. now rewrite L. }
    destruct (byte_eqb o x4e) eqn:E3; [|lia]. apply byte_eqb_eq in E3; subst o. apply rd_le_none in L. cbn -[rd_le]. now rewrite L.
Qed.

Theorem decompile_eos b : decompile b = Throw X_EndOfStream ->
  exists p s o t, segments p s /\ b = concat s ++ o :: t /\ (length t < size_bytes o)%nat.
Proof.
  unfold decompile. generalize (length b) at 1. intros fuel. generalize (@nil byte) as c.
  revert b. induction fuel as [|k IH]; intros b c; destruct b as [|x b]; cbn [decompile_loop]; try discriminate.
  destruct (read_instr (x :: b)) as [[i r]|e|] eqn:R; try discriminate.
  - destruct (instr_verify 0 i); try discriminate.
    destruct (control_decompile (i_op i) c) as [c'|]; try discriminate.
    destruct (decompile_loop k c' r) as [q|e|] eqn:D; try discriminate. intros H; injection H as ->.
    apply IH in D as (p & s & o & t & Hs & -> & L).
    apply read_instr_form in R as (cc & Eb & Hi).
    exists (i :: p), (cc :: s), o, t. split; [now constructor|]. split; [|assumption].
    rewrite Eb. cbn. now rewrite app_assoc.
  - intros H; injection H as ->. apply read_instr_eos in R as (o & t & E & L).
    exists [], [], o, t. split; [constructor|]. split; assumption.
Qed.

(* ---- pre-verification ---- *)

Lemma verify_ok_minimal f i : instr_verify f i = E_OK ->
  has_flag FLAG_MINIMALDATA f && negb (is_minimal_instruction i) = false.
Proof.
  unfold instr_verify, is_minimal_instruction. destruct (verify_instruction i) eqn:V; try discriminate.
  destruct (has_flag FLAG_MINIMALDATA f) eqn:F; [|reflexivity]. cbn [andb serror_is_ok].
  destruct (is_minimal_push (i_op i) (i_data i)); [reflexivity|discriminate].
Qed.

Lemma verify_ok_nodata f i : instr_verify f i = E_OK -> is_push_data (i_op i) = false -> i_data i = [].
Proof.
  unfold instr_verify. destruct (verify_instruction i) eqn:V; try discriminate. intros _ P.
  unfold verify_instruction in V. rewrite P in V. cbn [negb] in V.
  destruct ((b2n (i_op i) =? 255) || _ || _ || _ || _); [discriminate|].
  destruct (0 <? len (i_data i)) eqn:E; [discriminate|]. apply len_0. lia.
Qed.

Lemma valid_program_exact p : forall c f, valid_program p c f = E_OK <->
  Forall (fun i => instr_verify f i = E_OK) p /\ ctl control_valid (ops p) c = Some [] /\
  (In OP_RETURN (ops p) -> has_flag FLAG_SAFE_RETURN f = true).
Proof.
  induction p as [|i p IH]; intros c f; cbn [valid_program ops map ctl].
  - destruct c as [|x c].
    + split; [|reflexivity]. intros _. split; [constructor|]. split; [reflexivity|]. intros [].
    + split; [discriminate|]. intros (_ & H & _). discriminate.
  - fold (ops p).
    destruct (instr_verify f i) eqn:V;
      try (split; [discriminate|intros (H & _); inversion H; congruence]).
    rewrite (verify_ok_minimal _ _ V).
    assert (G : match control_valid (i_op i) c with
                | None => E_UNBALANCED_CONDITIONAL
                | Some c' => valid_program p c' f end = E_OK <->
       Forall (fun i => instr_verify f i = E_OK) p /\
       match control_valid (i_op i) c with Some c' => ctl control_valid (ops p) c' | None => None end = Some [] /\
       (In OP_RETURN (ops p) -> has_flag FLAG_SAFE_RETURN f = true)).
    { destruct (control_valid (i_op i) c) as [c'|]; [apply IH|]. split; [discriminate|intros (_ & H & _); discriminate]. }
    destruct (byte_eqb (i_op i) OP_RETURN) eqn:ER.
    + apply byte_eqb_eq in ER. rewrite ER in *.
      assert (D : i_data i = []). { eapply verify_ok_nodata; eauto. rewrite ER. reflexivity. }
      rewrite D. destruct (has_flag FLAG_SAFE_RETURN f) eqn:SR; cbn [negb].
      * assert (X : (match c, p with [], [] => E_OK | _, _ =>
           match control_valid OP_RETURN c with None => E_UNBALANCED_CONDITIONAL | Some c' => valid_program p c' f end end = E_OK) <->
           match control_valid OP_RETURN c with None => E_UNBALANCED_CONDITIONAL | Some c' => valid_program p c' f end = E_OK).
        { destruct c, p; try reflexivity. }
        rewrite X, G. split.
        -- intros (A & B & C). repeat split; auto.
        -- intros (A & B & C). inversion A; subst. repeat split; auto.
      * split; [discriminate|]. intros (_ & _ & C). discriminate C. now left.
    + rewrite G. split.
      * intros (A & B & C). repeat split; auto. intros [E|E]; auto. apply byte_eqb_neq in ER. congruence.
      * intros (A & B & C). inversion A; subst. repeat split; auto. intros. apply C. now right.
Qed.

Theorem pre_verify_exact p f : pre_verify p f = E_OK <->
  (Forall (fun i => instr_verify f i = E_OK) p /\ balanced (ops p) /\
     (In OP_RETURN (ops p) -> has_flag FLAG_SAFE_RETURN f = true)) \/
  (has_flag FLAG_SAFE_RETURN f = false /\ ops p = [OP_RETURN]) \/
  (has_flag FLAG_SAFE_RETURN f = true /\ exists j, p = [op_instr OP_0; j] /\ i_op j = OP_RETURN).
Proof.
  rewrite <- balanced_exact.
  destruct p as [|i p].
  - cbn. split; [|reflexivity]. intros _. left. repeat split; [constructor|tauto].
  - cbn [pre_verify]. rewrite <- valid_program_exact.
    destruct (has_flag FLAG_SAFE_RETURN f) eqn:SR.
    + destruct p as [|j [|k p]].
      * split; [now left|]. intros [H | [(? & _) | (_ & j & H & _)]]; [assumption|discriminate|discriminate].
      * destruct (byte_eqb (i_op i) OP_0 && serror_is_ok (instr_verify genesis_profile i) && byte_eqb (i_op j) OP_RETURN) eqn:E.
        -- apply andb_prop in E as [E E3]. apply andb_prop in E as [E1 E2].
           split; [|reflexivity]. intros _. right; right. split; [reflexivity|]. exists j.
           apply byte_eqb_eq in E1, E3. split; [|assumption]. f_equal. destruct i as [o d]; cbn in *. subst o. unfold op_instr. f_equal.
           assert (V : verify_instruction {| i_op := x00; i_data := d |} = E_OK).
           { revert E2. unfold instr_verify. destruct (verify_instruction _); try discriminate. reflexivity. }
           unfold verify_instruction in V. cbn [i_op i_data] in V. destruct d; [reflexivity|]. rewrite len_cons in V.
           change (is_push_data x00) with true in V. change (b2n x00) with 0 in V. cbn -[N.eqb N.add N.leb len] in V.
           exfalso. revert V. change (0 <=? 75) with true. replace (0 =? 1 + len d) with false by lia. discriminate.
        -- split; [now left|]. intros [H | [(? & _) | (_ & j' & H & J)]]; [assumption|discriminate|].
           injection H as -> <-. exfalso. rewrite J in E. revert E. vm_compute. discriminate.
      * split; [now left|]. intros [H | [(? & _) | (_ & j' & H & J)]]; [assumption|discriminate|discriminate].
    + destruct p as [|j p].
      * destruct (byte_eqb (i_op i) OP_RETURN) eqn:E.
        -- split; [|reflexivity]. intros _. right; left. split; [reflexivity|]. cbn. f_equal. now apply byte_eqb_eq.
        -- split; [now left|]. intros [H | [(_ & H) | (? & _)]]; [assumption| |discriminate].
           cbn in H. injection H as H. rewrite H in E. discriminate.
      * split; [now left|]. intros [H | [(_ & H) | (? & _)]]; [assumption|discriminate|discriminate].
Qed.

(* ---- the program counter ---- *)

Lemma pc_read_inst i c r : is_inst i c -> len (c ++ r) < 2 ^ 31 -> pc_read (c ++ r) = Ret c.
Proof.
  destruct i as [o d]. unfold is_inst; cbn [i_op i_data]. intros H L; inversion H; subst; clear H; unfold pc_read.
  - cbn [app]. unfold is_push_data. rewrite n2b_val by lia.
    replace (len d <=? 0x4e) with true by lia. cbn [negb]. replace (len d <=? 75) with true by lia.
    rewrite len_cons, len_app. rewrite N.min_l by lia.
    change (n2b (len d) :: d ++ r) with ((n2b (len d) :: d) ++ r).
    replace (len d + 1) with (len (n2b (len d) :: d)) by (rewrite len_cons; lia). now rewrite firstn_len.
  - cbn [app] in *. rewrite <- app_assoc in *. change (is_push_data x4c) with true. change (b2n x4c <=? 75) with false.
    change (byte_eqb x4c x4c) with true. cbn [negb]. cbn iota. rewrite rd_le_app by assumption.
    rewrite len_cons, !len_app, len_le. replace (1 + (N.of_nat 1 + (len d + len r)) <? 2 + len d) with false by lia.
    f_equal. replace (2 + len d) with (len (x4c :: le 1 (len d) ++ d)) by (rewrite len_cons, len_app, len_le; lia).
    replace (x4c :: le 1 (len d) ++ d ++ r) with ((x4c :: le 1 (len d) ++ d) ++ r) by (cbn [app]; now rewrite <- app_assoc).
    apply firstn_len.
  - cbn [app] in *. rewrite <- app_assoc in *. change (is_push_data x4d) with true. change (b2n x4d <=? 75) with false.
    change (byte_eqb x4d x4c) with false. change (byte_eqb x4d x4d) with true. cbn [negb]. cbn iota. rewrite rd_le_app by assumption.
    rewrite len_cons, !len_app, len_le. replace (1 + (N.of_nat 2 + (len d + len r)) <? 3 + len d) with false by lia.
    f_equal. replace (3 + len d) with (len (x4d :: le 2 (len d) ++ d)) by (rewrite len_cons, len_app, len_le; lia).
    replace (x4d :: le 2 (len d) ++ d ++ r) with ((x4d :: le 2 (len d) ++ d) ++ r) by (cbn [app]; now rewrite <- app_assoc).
    apply firstn_len.
  - cbn [app] in *. rewrite <- app_assoc in *. change (is_push_data x4e) with true. change (b2n x4e <=? 75) with false.
    change (byte_eqb x4e x4c) with false. change (byte_eqb x4e x4d) with false. cbn [negb]. cbn iota. rewrite rd_le_app by assumption.
    rewrite len_cons, !len_app, len_le in *. rewrite N.mod_small by lia.
    replace (1 + (N.of_nat 4 + (len d + len r)) <? 5 + len d) with false by lia.
    f_equal. replace (5 + len d) with (len (x4e :: le 4 (len d) ++ d)) by (rewrite len_cons, len_app, len_le; lia).
    replace (x4e :: le 4 (len d) ++ d ++ r) with ((x4e :: le 4 (len d) ++ d) ++ r) by (cbn [app]; now rewrite <- app_assoc).
    apply firstn_len.
  - cbn [app]. unfold is_push_data. replace (b2n o <=? 0x4e) with false by lia. reflexivity.
Qed.

Theorem pc_read_undef_exact s : pc_read s = Undef <->
  exists size r, s = x4e :: le 4 size ++ r /\ 2 ^ 32 - 5 <= size < 2 ^ 32 /\ len r < size.
Proof.
  split.
  - destruct s as [|o s]; [discriminate|]. unfold pc_read. destruct (is_push_data o) eqn:P; [|discriminate]. cbn [negb].
    destruct (b2n o <=? 75) eqn:E7; [discriminate|].
    destruct (byte_eqb o x4c) eqn:E1. { destruct (rd_le 1 s) as [[n b]|]; [destruct (_ <? _)|]; discriminate. }
    destruct (byte_eqb o x4d) eqn:E2. { destruct (rd_le 2 s) as [[n b]|]; [destruct (_ <? _)|]; discriminate. }
    destruct (rd_le 4 s) as [[n b]|] eqn:R; [|discriminate]. apply rd_le_inv in R as [-> Hn]. change (pow256 4) with (2 ^ 32) in Hn.
    rewrite len_cons, len_app, len_le.
    destruct (1 + (N.of_nat 4 + len b) <? (5 + n) mod 2 ^ 32) eqn:A; [discriminate|].
    destruct (1 + (N.of_nat 4 + len b) <? 5 + n) eqn:B; [|discriminate]. intros _.
    exists n, b. split.
    + f_equal. apply b2n_inj. change (b2n x4e) with 0x4e. unfold is_push_data in P. rewrite byte_eqb_n in E1, E2.
      change (b2n x4c) with 0x4c in *; change (b2n x4d) with 0x4d in *. lia.
    + destruct (N.lt_ge_cases (5 + n) (2 ^ 32)) as [C|C].
      * rewrite N.mod_small in A by assumption. lia.
      * lia.
  - intros (size & r & -> & S & L). unfold pc_read. change (is_push_data x4e) with true. change (b2n x4e <=? 75) with false.
    change (byte_eqb x4e x4c) with false. change (byte_eqb x4e x4d) with false. cbn [negb]. cbn iota.
    rewrite rd_le_app by (change (pow256 4) with (2 ^ 32); lia). rewrite len_cons, len_app, len_le.
    replace (1 + (N.of_nat 4 + len r) <? (5 + size) mod 2 ^ 32) with false by lia.
    replace (1 + (N.of_nat 4 + len r) <? 5 + size) with true by lia. reflexivity.
Qed.

(* on any bytes: the slice is a non-empty prefix, and it is a whole instruction unless it is everything *)
Theorem pc_read_prefix s n : pc_read s = Ret n ->
  exists r, s = n ++ r /\ (s <> [] -> n <> []) /\ (r <> [] -> exists i, is_inst i n).
Proof.
  destruct s as [|o s]. { intros H; injection H as <-. exists []. repeat split; congruence. }
  unfold pc_read. destruct (is_push_data o) eqn:P; cbn [negb].
  2:{ intros H; injection H as <-. exists s. split; [reflexivity|]. split; [discriminate|]. intros _. exists (op_instr o).
      constructor. unfold is_push_data in P. lia. }
  assert (W : forall m, @Ret unit bytes (o :: s) = Ret m -> exists r, o :: s = m ++ r /\ (o :: s <> [] -> m <> []) /\ (r <> [] -> exists i, is_inst i m)).
  { intros m H; injection H as <-. exists []. rewrite app_nil_r. repeat split; congruence. }
  assert (C : forall k m, @Ret unit bytes (firstn (N.to_nat k) (o :: s)) = Ret m -> 0 < k -> (k <= len s -> exists i, is_inst i (firstn (N.to_nat k) (o :: s))) ->
     exists r, o :: s = m ++ r /\ (o :: s <> [] -> m <> []) /\ (r <> [] -> exists i, is_inst i m)).
  { intros k m H K I. injection H as <-. exists (skipn (N.to_nat k) (o :: s)). split; [symmetry; apply firstn_skipn|]. split.
    - intros _. destruct (N.to_nat k) eqn:E; [lia|discriminate].
    - intros R. apply I. destruct (N.le_gt_cases k (len s)); [assumption|]. exfalso. apply R. apply skipn_all2. unfold len in *. cbn. lia. }
  destruct (b2n o <=? 75) eqn:E7.
  { intros H. apply C in H; [assumption|rewrite len_cons; lia|]. intros K. rewrite len_cons in K.
    rewrite N.min_l by (rewrite len_cons; lia).
    exists {| i_op := o; i_data := firstn (N.to_nat (b2n o)) s |}.
    replace (N.to_nat (b2n o + 1)) with (S (N.to_nat (b2n o))) by lia. cbn [firstn]. unfold is_inst; cbn [i_op i_data].
    set (d := firstn _ s). assert (Hd : len d = b2n o) by (apply len_firstn; lia).
    assert (Ho : o = n2b (len d)) by (rewrite Hd; now rewrite n2b_b2n). rewrite Ho at 1 2. constructor. lia. }
  destruct (byte_eqb o x4c) eqn:E1.
  { apply byte_eqb_eq in E1; subst o. destruct (rd_le 1 s) as [[k b]|] eqn:R; [|apply W]. apply rd_le_inv in R as [-> Hn].
    destruct (_ <? _) eqn:A; [apply W|]. intros H. apply C in H; [assumption|lia|]. intros K.
    rewrite len_cons in A. rewrite len_app, len_le in *.
    exists {| i_op := x4c; i_data := firstn (N.to_nat k) b |}.
    set (d := firstn _ b). assert (Hd : len d = k) by (apply len_firstn; lia).
    replace (x4c :: le 1 k ++ b) with ((x4c :: le 1 k ++ d) ++ skipn (N.to_nat k) b) by (cbn [app]; rewrite <- ?app_assoc; unfold d; now rewrite firstn_skipn).
    replace (2 + k) with (len (x4c :: le 1 k ++ d)) by (rewrite len_cons, len_app, len_le; lia). rewrite firstn_len.
    unfold is_inst; cbn [i_op i_data]. rewrite <- Hd. constructor. rewrite Hd. exact Hn. }
  destruct (byte_eqb o x4d) eqn:E2.
  { apply byte_eqb_eq in E2; subst o. destruct (rd_le 2 s) as [[k b]|] eqn:R; [|apply W]. apply rd_le_inv in R as [-> Hn].
    destruct (_ <? _) eqn:A; [apply W|]. intros H. apply C in H; [assumption|lia|]. intros K.
    rewrite len_cons in A. rewrite len_app, len_le in *.
    exists {| i_op := x4d; i_data := firstn (N.to_nat k) b |}.
    set (d := firstn _ b). assert (Hd : len d = k) by (apply len_firstn; lia).
    replace (x4d :: le 2 k ++ b) with ((x4d :: le 2 k ++ d) ++ skipn (N.to_nat k) b) by (cbn [app]; rewrite <- ?app_assoc; unfold d; now rewrite firstn_skipn).
    replace (3 + k) with (len (x4d :: le 2 k ++ d)) by (rewrite len_cons, len_app, len_le; lia). rewrite firstn_len.
    unfold is_inst; cbn [i_op i_data]. rewrite <- Hd. constructor. rewrite Hd. exact Hn. }
  assert (o = x4e) as ->.
  { apply b2n_inj. change (b2n x4e) with 0x4e. unfold is_push_data in P. byteq. lia. }
  destruct (rd_le 4 s) as [[k b]|] eqn:R; [|apply W]. apply rd_le_inv in R as [-> Hn].
  destruct (_ <? _) eqn:A; [apply W|]. destruct (len (x4e :: le 4 k ++ b) <? 5 + k) eqn:B; [discriminate|].
  intros H. apply C in H; [assumption|lia|]. intros K.
  rewrite len_cons in A, B. rewrite len_app, len_le in *.
  exists {| i_op := x4e; i_data := firstn (N.to_nat k) b |}.
  set (d := firstn _ b). assert (Hd : len d = k) by (apply len_firstn; lia).
  replace (x4e :: le 4 k ++ b) with ((x4e :: le 4 k ++ d) ++ skipn (N.to_nat k) b) by (cbn [app]; rewrite <- ?app_assoc; unfold d; now rewrite firstn_skipn).
  replace (5 + k) with (len (x4e :: le 4 k ++ d)) by (rewrite len_cons, len_app, len_le; lia). rewrite firstn_len.
  unfold is_inst; cbn [i_op i_data]. rewrite <- Hd. constructor. rewrite Hd. exact Hn.
Qed.

Lemma concat_split (s : list bytes) k : concat s = concat (firstn k s) ++ concat (skipn k s).
Proof. rewrite <- (firstn_skipn k s) at 1. apply concat_app. Qed.

Lemma segments_skip p s : segments p s -> forall k, segments (skipn k p) (skipn k s).
Proof. induction 1 as [|i p c s Hi Hs IH]; intros [|k]; cbn; try constructor; auto. Qed.

Lemma pc_read_segments p s k : segments p s -> len (concat s) < 2 ^ 31 ->
  pc_read (concat (skipn k s)) = Ret (nth k s []).
Proof.
  intros Hs L. pose proof (segments_skip _ _ Hs k) as Hk.
  assert (Lk : len (concat (skipn k s)) < 2 ^ 31) by (rewrite (concat_split s k), len_app in L; lia).
  replace (nth k s []) with (nth 0 (skipn k s) []).
  2:{ clear. revert s. induction k; intros [|x s]; cbn; auto. }
  destruct Hk as [|i q c t Hi Hq]; [reflexivity|]. cbn [nth concat] in *. now apply (pc_read_inst i).
Qed.

Lemma firstn_S_nth (s : list bytes) k : concat (firstn (S k) s) = concat (firstn k s) ++ nth k s [].
Proof.
  revert s. induction k as [|k IH]; intros [|x s]; cbn; rewrite ?app_nil_r; auto. rewrite <- app_assoc. f_equal. apply IH.
Qed.

Lemma skipn_concat (s : list bytes) k : skipn (N.to_nat (len (concat (firstn k s)))) (concat s) = concat (skipn k s).
Proof. rewrite (concat_split s k) at 1. apply skipn_len. Qed.

Lemma segments_nth p s k : segments p s -> nth_error (ops p) k = match nth k s [] with [] => None | o :: _ => nth_error (ops p) k end.
Proof.
  intros H. revert k. induction H as [|i p c s Hi Hs IH]; intros [|k]; cbn [nth ops map nth_error]; auto.
  destruct c; [|reflexivity]. now apply inst_nonempty in Hi.
Qed.

Lemma segments_nth_op p s k : segments p s -> nth_error (ops p) k = match nth k s [] with [] => None | o :: _ => Some o end.
Proof.
  intros H. revert k. induction H as [|i p c s Hi Hs IH]; intros [|k]; cbn [nth ops map nth_error]; auto.
  destruct i as [o d]. unfold is_inst in Hi; cbn in *. inversion Hi; subst; reflexivity.
Qed.

Theorem counter_visits p s k : segments p s -> len (concat s) < 2 ^ 31 ->
  exists c0 c j, pc_start (concat s) = Ret c0 /\ pc_steps k c0 = Ret c /\
    pc_next c = nth k s [] /\ pc_script c = concat s /\ pc_pos c = len (concat (firstn k s)) /\
    after_last_separator p k j /\ pc_sep c = len (concat (firstn j s)) /\
    script_code c = decompile (concat (skipn j s)).
Proof.
  intros Hs L.
  assert (S0 : pc_start (concat s) = Ret {| pc_next := nth 0 s []; pc_script := concat s; pc_pos := 0; pc_sep := 0 |}).
  { unfold pc_start. pose proof (pc_read_segments p s 0 Hs L) as E. cbn [skipn] in E. now rewrite E. }
  exists {| pc_next := nth 0 s []; pc_script := concat s; pc_pos := 0; pc_sep := 0 |}.
  assert (G : exists c j, pc_steps k {| pc_next := nth 0 s []; pc_script := concat s; pc_pos := 0; pc_sep := 0 |} = Ret c /\
    pc_next c = nth k s [] /\ pc_script c = concat s /\ pc_pos c = len (concat (firstn k s)) /\
    after_last_separator p k j /\ pc_sep c = len (concat (firstn j s))).
  { assert (Sn : forall m c, pc_steps (S m) c = match pc_steps m c with Ret c' => pc_step c' | Throw e => Throw e | Undef => Undef end).
    { induction m; intros c0; cbn [pc_steps]; [destruct (pc_step c0); reflexivity|].
      destruct (pc_step c0) as [c'| |] eqn:E; [|reflexivity|reflexivity].
      specialize (IHm c'). cbn [pc_steps] in IHm. rewrite IHm. reflexivity. }
    induction k as [|k IH].
    - eexists _, O. split; [reflexivity|]. cbn. repeat split; try lia.
    - destruct IH as (c & j & E & A1 & A2 & A3 & A4 & A5). rewrite Sn, E. unfold pc_step.
      rewrite A1, A2, A3.
      replace (len (concat (firstn k s)) + len (nth k s [])) with (len (concat (firstn (S k) s))) by (now rewrite firstn_S_nth, len_app).
      assert (B : len (concat (firstn (S k) s)) < 2 ^ 31). { rewrite (concat_split s (S k)), len_app in L. lia. }
      replace (2 ^ 31 <=? len (concat (firstn (S k) s))) with false by lia.
      rewrite skipn_concat, (pc_read_segments p s (S k) Hs L).
      pose proof (segments_nth_op p s k Hs) as Eop.
      set (j' := match nth k s [] with o :: _ => if byte_eqb o OP_CODESEPARATOR then S k else j | [] => j end).
      eexists _, j'. split; [reflexivity|]. cbn [pc_next pc_script pc_pos pc_sep]. split; [reflexivity|]. split; [reflexivity|]. split; [reflexivity|].
      destruct A4 as (J1 & J2 & J3). subst j'.
      destruct (nth k s []) as [|o t] eqn:En.
      { split; [|assumption]. split; [lia|]. split; [assumption|]. intros m Hm. destruct (Nat.eq_dec m k) as [-> |]; [congruence|apply J3; lia]. }
      destruct (byte_eqb o OP_CODESEPARATOR) eqn:Eo.
      + apply byte_eqb_eq in Eo; subst o. split; [|reflexivity]. split; [lia|]. split; [|intros; lia].
        right. replace (S k - 1)%nat with k by lia. exact Eop.
      + apply byte_eqb_neq in Eo. split; [|assumption]. split; [lia|]. split; [assumption|].
        intros m Hm. destruct (Nat.eq_dec m k) as [-> |]; [congruence|apply J3; lia]. }
  destruct G as (c & j & E & A1 & A2 & A3 & A4 & A5). exists c, j. repeat (split; [assumption|]).
  unfold script_code. now rewrite A2, A5, skipn_concat.
Qed.
