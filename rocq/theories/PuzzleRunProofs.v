From Verif Require Import Base BaseProofs WireModel WireProofs ScriptModel ScriptSpec ScriptProofs ProgramProofs NumModel NumSpec NumProofs.
From Verif Require Import StackModel StackSpec StackProofs MachineModel MachineSpec MachineProofs OpcodeProofs RunProofs ControlProofs FlowProofs SpendProofs.
From Verif Require Import PatternModel PatternTemplates StraightSpec StraightProofs StraightEval PayRunSpec PayRunProofs MultiRunProofs CheckRunSpec CheckRunProofs CheckSpendProofs PuzzleRunSpec.
From Coq Require Import Lia ZifyBool ZifyNat ZifyN.
Ltac Zify.zify_post_hook ::= Z.div_mod_to_equations.
Local Open Scope N_scope.

Section Puzzle.
Variable X : externals.
Variable doc : option rdoc.
Variable cf : config.
Variable neg1 : bytes.
Hypothesis St : standard X.
Hypothesis Cm : c_max_memory cf < 2 ^ 63.

Lemma digest_len o x : hash_op o -> len (digest X o x) <= 32.
Proof.
  intros Ho. destruct St as [_ Sh]. unfold digest.
  destruct Ho as [->|[->|[->|[->| ->]]]]; cbn [byte_eqb]; match goal with |- len ?t <= _ => change t with t end;
  repeat match goal with |- context [if byte_eqb ?a ?b then _ else _] => let v := eval vm_compute in (byte_eqb a b) in change (byte_eqb a b) with v; cbv iota end.
  - destruct (Sh x) as (-> & _). lia.
  - destruct (Sh x) as (_ & -> & _). lia.
  - destruct (Sh x) as (_ & _ & ->). lia.
  - destruct (Sh (x_sha256 X x)) as (-> & _). lia.
  - destruct (Sh (x_sha256 X x)) as (_ & _ & ->). lia.
Qed.
Lemma hash_step o : hash_op o -> impure o = false /\ o <> OP_CODESEPARATOR /\ positional o = false /\ counted [o] = 1 /\ ~ control_op o /\ o <> OP_RETURN /\
  (forall x r a, instr_effect X cf (op_instr o) (x :: r) a = Some (digest X o x :: r, a)) /\ (forall a, instr_effect X cf (op_instr o) [] a = None).
Proof.
  intros Ho. unfold control_op. destruct Ho as [->|[->|[->|[->| ->]]]];
  (split; [reflexivity|split; [discriminate|split; [reflexivity|split; [reflexivity|split; [intuition discriminate|split; [discriminate|split; [reflexivity|reflexivity]]]]]]]).
Qed.
Lemma plain_push v : len v < 2 ^ 31 -> ~ control_op (i_op (push v)) /\ i_op (push v) <> OP_RETURN.
Proof. intros L. destruct (push_is_push v L) as [P _]. destruct (push_op_direct _ P) as (_ & _ & _ & _ & K). exact K. Qed.

Section Start.
Variables (o : byte) (h : bytes).
Hypothesis Ho : hash_op o.
Hypothesis Lh : len h < 2 ^ 31.
(* the hash is taken and the other is put on it *)
Lemma start_runs B code q x r e : footprint (x :: r) + len h + 200 <= B -> check_runs X doc cf code B q (h :: digest X o x :: r) [] e ->
  check_runs X doc cf code B (op_instr o :: push h :: q) (x :: r) [] (after 1 e).
Proof.
  intros R H. destruct (hash_step o Ho) as (A1 & A2 & A3 & A4 & _ & _ & A5 & _). pose proof (digest_len o x Ho) as Ld.
  rewrite <- A4. apply (direct_step X doc cf B code (op_instr o) _ (x :: r) [] (digest X o x :: r) []); [exact A1|exact A2|exact A3|apply A5|unfold room; rewrite footprint_nil; lia|].
  apply push_runs; [exact Lh| |exact H]. unfold room. rewrite footprint_cons in *. rewrite footprint_nil. lia.
Qed.
Lemma start_empty B code q : check_runs X doc cf code B (op_instr o :: q) [] [] Refused.
Proof.
  destruct (hash_step o Ho) as (A1 & A2 & A3 & A4 & _ & _ & _ & A6). apply check_refused; [unfold room; rewrite footprint_nil; lia|].
  apply step_wrong; [|apply A6]. split; [exact A1|]. split; [exact A2|]. intros Z. change (positional o = true) in Z. congruence.
Qed.
End Start.

Lemma nonzero_bool b : nonzeroZ (sn_val (sn_bool b)) = b.
Proof. destruct b; reflexivity. Qed.
Lemma bool_len b : len (sn_bool b) <= 1.
Proof. destruct b; vm_compute; discriminate. Qed.

Theorem puzzle_spends ux lx u o h : let l := puzzle o h in let B := footprint (stack_after u) + len h + 200 in
  hash_op o -> B < 2 ^ 31 -> decompile ux = Ret u -> is_push_program u = true -> decompile lx = Ret l ->
  has_flag FLAG_P2SH (c_flags cf) = false \/ is_P2SH lx = false -> 2 * len ux + len lx + len neg1 + 2 < 2 ^ 31 ->
  (spends X doc cf neg1 ux lx -> exists x r, stack_after u = x :: r /\ digest X o x = h /\ clean cf r) /\
  (forall x r, stack_after u = x :: r -> digest X o x = h -> clean cf r -> enough cf B 3 -> well_pushed cf (u ++ l) -> spends X doc cf neg1 ux lx).
Proof.
  intros l B Ho LB Eu Pu El P2 Len. assert (Lh : len h < 2 ^ 31) by (unfold B in LB; lia).
  pose proof (fun e => check_spends X doc cf neg1 St Cm B ux lx u l e LB Eu Pu El P2 Len) as V.
  destruct (stack_after u) as [|x r] eqn:Es.
  - split; [|intros; discriminate]. intros Sp. exfalso.
    pose proof (start_empty o h Ho Lh B l [push h; op_instr OP_EQUAL]) as H. change (op_instr o :: _) with l in H.
    destruct (V _ H) as [A _]. destruct (A Sp) as (_ & y & [Z|(? & ? & ? & Z & _)] & _); discriminate.
  - pose proof (digest_len o x Ho) as Ld.
    assert (H : check_runs X doc cf l B l (x :: r) [] (after 1 (after 1 (Goes (sn_bool (bytes_eqb (digest X o x) h) :: r) [] 0)))).
    { apply (start_runs o h Ho Lh); [apply N.le_refl|].
      apply (direct_step X doc cf B l (op_instr OP_EQUAL) [] (h :: digest X o x :: r) [] (sn_bool (bytes_eqb (digest X o x) h) :: r) []);
        [reflexivity|discriminate|reflexivity|reflexivity| |].
      - unfold room, B. repeat rewrite footprint_cons. rewrite footprint_nil. lia.
      - apply check_end. unfold room, B. repeat rewrite footprint_cons. rewrite footprint_nil. pose proof (bool_len (bytes_eqb (digest X o x) h)). lia. }
    destruct (V _ H) as [A1 A2]. cbn [after] in A1, A2. split.
    + intros Sp. destruct (A1 Sp) as (_ & y & [Z|(t & r1 & a & Z & Nz & Cl)] & _); [discriminate|]. exists x, r. split; [reflexivity|].
      injection Z as <- <- <- _. rewrite nonzero_bool in Nz. split; [now apply bytes_eqb_eq|exact Cl].
    + intros x1 r1 Q Dg Cl En Wp. injection Q as <- <-. apply (A2 2); [|exact En| |exact Wp].
      * right. exists (sn_bool (bytes_eqb (digest X o x) h)), r, []. split; [reflexivity|]. rewrite nonzero_bool. split; [now apply bytes_eqb_eq|exact Cl].
      * destruct (hash_step o Ho) as (_ & _ & _ & _ & K1 & K2 & _). unfold plain_ops, l, puzzle. cbn [map op_instr i_op].
        constructor; [auto|]. constructor; [now apply plain_push|]. constructor; [split; [unfold control_op; intuition discriminate|discriminate]|constructor].
Qed.

Theorem puzzle_key_spends ux lx u o h k : let l := puzzle_key o h k in let B := footprint (stack_after u) + len h + len k + 200 in
  hash_op o -> B < 2 ^ 31 -> decompile ux = Ret u -> is_push_program u = true -> decompile lx = Ret l ->
  has_flag FLAG_P2SH (c_flags cf) = false \/ is_P2SH lx = false -> 2 * len ux + len lx + len neg1 + 2 < 2 ^ 31 ->
  (spends X doc cf neg1 ux lx -> exists x sig r, stack_after u = x :: sig :: r /\ digest X o x = h /\ signed doc l sig k /\ clean cf r) /\
  (forall x sig r, stack_after u = x :: sig :: r -> digest X o x = h -> signed doc l sig k -> clean cf r -> enough cf B 4 -> well_pushed cf (u ++ l) ->
   spends X doc cf neg1 ux lx).
Proof.
  intros l B Ho LB Eu Pu El P2 Len. assert (Lh : len h < 2 ^ 31) by (unfold B in LB; lia). assert (Lk : len k < 2 ^ 31) by (unfold B in LB; lia).
  pose proof (fun e => check_spends X doc cf neg1 St Cm B ux lx u l e LB Eu Pu El P2 Len) as V.
  assert (Not : check_runs X doc cf l B l (stack_after u) [] Refused -> ~ spends X doc cf neg1 ux lx).
  { intros H Sp. destruct (V _ H) as [A _]. destruct (A Sp) as (_ & y & [Z|(? & ? & ? & Z & _)] & _); discriminate. }
  destruct (stack_after u) as [|x s] eqn:Es.
  { split; [|intros; discriminate]. intros Sp. exfalso. apply (Not (start_empty o h Ho Lh B l _) Sp). }
  pose proof (digest_len o x Ho) as Ld.
  set (q := [push k; op_instr OP_CHECKSIG]).
  assert (R0 : room (h :: digest X o x :: s) [] <= B) by (unfold room, B; repeat rewrite footprint_cons; rewrite footprint_nil; lia).
  assert (Rk : room (k :: s) [] <= B) by (unfold room, B; repeat rewrite footprint_cons; rewrite footprint_nil; lia).
  assert (Rs : room s [] <= B) by (unfold room, B; repeat rewrite footprint_cons; rewrite footprint_nil; lia).
  assert (EV : instr_effect X cf (op_instr OP_EQUALVERIFY) (h :: digest X o x :: s) [] = if bytes_eqb (digest X o x) h then Some (s, []) else None) by reflexivity.
  assert (Start : forall e, check_runs X doc cf l B (op_instr OP_EQUALVERIFY :: q) (h :: digest X o x :: s) [] e -> check_runs X doc cf l B l (x :: s) [] (after 1 e)).
  { intros e H. apply (start_runs o h Ho Lh); [unfold B; lia|exact H]. }
  destruct (bytes_eqb (digest X o x) h) eqn:Q.
  2:{ split.
      - intros Sp. exfalso. refine (Not (Start Refused _) Sp). apply check_refused; [exact R0|]. apply step_wrong; [|exact EV].
        split; [reflexivity|]. split; discriminate.
      - intros x1 sig r Z Dg. injection Z as <- ->. apply bytes_eqb_eq in Dg. congruence. }
  assert (Eq : forall e, check_runs X doc cf l B [op_instr OP_CHECKSIG] (k :: s) [] e -> check_runs X doc cf l B l (x :: s) [] (after 1 (after 1 e))).
  { intros e H. apply Start. apply (direct_step X doc cf B l (op_instr OP_EQUALVERIFY) q (h :: digest X o x :: s) [] s []); [reflexivity|discriminate|reflexivity|exact EV|exact R0|].
    apply push_runs; [exact Lk|exact Rs|exact H]. }
  apply bytes_eqb_eq in Q.
  destruct s as [|sig r].
  { split; [|intros; discriminate]. intros Sp. exfalso. refine (Not (Eq Refused _) Sp). apply check_refused; [exact Rk|]. apply step_short; [now left|]. cbn [length]. lia. }
  destruct (serror_is_ok (r_error (check_one doc l sig k))) eqn:Ok.
  2:{ assert (Ne : r_error (check_one doc l sig k) <> E_OK) by (intros Z; apply serror_ok_iff in Z; congruence). split.
      - intros Sp. exfalso. refine (Not (Eq Refused _) Sp). apply check_refused; [exact Rk|]. apply step_error; [now left|exact Ne].
      - intros x1 sig1 r1 Z _ Sg. injection Z as <- <- <-. apply signed_check in Sg as [Z _]. congruence. }
  apply serror_ok_iff in Ok. set (b := r_success (check_one doc l sig k)).
  assert (H : check_runs X doc cf l B l (x :: sig :: r) [] (after 1 (after 1 (after 1 (Goes (sn_bool b :: r) [] 0))))).
  { apply Eq. eapply check_on; [exact Rk|apply step_sig; exact Ok|]. apply check_end. unfold room, B. repeat rewrite footprint_cons. rewrite footprint_nil. fold b. pose proof (bool_len b). lia. }
  destruct (V _ H) as [A1 A2]. cbn [after] in A1, A2. split.
  - intros Sp. destruct (A1 Sp) as (_ & y & [Z|(t & r1 & a & Z & Nz & Cl)] & _); [discriminate|]. exists x, sig, r. split; [reflexivity|]. split; [exact Q|].
    injection Z as <- <- <- _. rewrite nonzero_bool in Nz. split; [apply signed_check; auto|exact Cl].
  - intros x1 sig1 r1 Z _ Sg Cl En Wp. injection Z as <- <- <-. apply signed_check in Sg as [_ Sc]. apply (A2 3); [|exact En| |exact Wp].
    + right. exists (sn_bool b), r, []. split; [reflexivity|]. rewrite nonzero_bool. split; [exact Sc|exact Cl].
    + destruct (hash_step o Ho) as (_ & _ & _ & _ & K1 & K2 & _). unfold plain_ops, l, puzzle_key. cbn [map op_instr i_op].
      constructor; [auto|]. constructor; [now apply plain_push|]. constructor; [split; [unfold control_op; intuition discriminate|discriminate]|].
      constructor; [now apply plain_push|]. constructor; [split; [unfold control_op; intuition discriminate|discriminate]|constructor].
Qed.
End Puzzle.
