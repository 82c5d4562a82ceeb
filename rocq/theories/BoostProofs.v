From Coq Require Import Lia ZifyBool ZifyNat ZifyN.
From Verif Require Import Base BaseProofs ScriptModel ScriptSpec WireSpec WireProofs ScriptProofs NumModel NumSpec NumProofs WorkModel.
From Verif Require Import PatternModel PatternSpec PatternProofs PatternTemplates BoostModel BoostSpec.
Local Open Scope N_scope.

(* ---- steps of a sequence ---- *)
Section Steps.
Variable neg1 : bytes.
Notation scan := (scan neg1 0).

Lemma seq_step x l b v w r : scan (PSeq (x :: l)) b v = (w, Rest r) <->
  exists u t, scan x b v = (u, Rest t) /\ scan (PSeq l) t u = (w, Rest r).
Proof.
  rewrite seq_cons. split.
  - destruct (scan x b v) as [u [t| | | |]]; try discriminate. intros E. exists u, t. auto.
  - intros (u & t & -> & E). exact E.
Qed.
Lemma seq_go x l b v u t : scan x b v = (u, Rest t) -> scan (PSeq (x :: l)) b v = scan (PSeq l) t u.
Proof. intros E. rewrite seq_cons, E. reflexivity. Qed.
Lemma seq_stop x l b v u : scan x b v = (u, Fail) -> scan (PSeq (x :: l)) b v = (u, Fail).
Proof. intros E. rewrite seq_cons, E. reflexivity. Qed.

(* ---- the pieces ---- *)
Lemma is_step d b v w r : 1 < len d -> len neg1 < len d -> len d < 2 ^ 31 ->
  scan (PPush (PushIs d)) b v = (w, Rest r) <-> w = v /\ exists c, data_push d c /\ b = c ++ r.
Proof.
  intros L1 L2 L3. rewrite (proj1 (push_exact neg1 0 (PushIs d) b v)). split.
  - intros (i & c & H & E & M). unfold push_match in M. destruct (is_push_op (i_op i)); [|discriminate]. cbn [negb] in M.
    destruct (bytes_eqb d (push_value neg1 i)) eqn:Q; [|discriminate]. apply bytes_eqb_eq in Q. split; [congruence|].
    exists c. split; [|assumption]. rewrite Q. apply (value_data neg1 i c (len d) H); congruence || lia.
  - intros (-> & c & D & E). destruct (data_whole neg1 d c D L3) as (i & W & V). exists i, c. split; [assumption|]. split; [assumption|].
    unfold push_match. rewrite V. replace (bytes_eqb d d) with true by (symmetry; now apply bytes_eqb_eq).
    destruct W as (W & _). apply data_push_header in D as (h & Hh & Ec). apply inst_header in W as [(O & X & _) | (h' & _ & _ & O)].
    + exfalso. rewrite X in Ec. apply (f_equal len) in Ec. rewrite len_app in Ec.
      destruct Hh; rewrite ?len_cons, ?len_nil, ?len_le in Ec; lia.
    + replace (is_push_op (i_op i)) with true; [reflexivity|]. unfold is_push_op. rewrite byte_eqb_n. change (b2n OP_RESERVED) with 80. lia.
Qed.
Lemma read_step k b v w r :
  scan (PPush (PushRead k)) b v = (w, Rest r) <-> exists d c, pushes neg1 d c /\ b = c ++ r /\ w = put k d v.
Proof.
  rewrite (proj1 (push_exact neg1 0 (PushRead k) b v)). split.
  - intros (i & c & H & E & M). unfold push_match in M. destruct (is_push_op (i_op i)) eqn:P; [|discriminate]. cbn [negb] in M.
    exists (push_value neg1 i), c. split; [exists i; auto|]. split; [assumption|congruence].
  - intros (d & c & (i & W & P & V) & E & ->). exists i, c. split; [assumption|]. split; [assumption|]. unfold push_match. rewrite P, V. reflexivity.
Qed.
Lemma number_step z b v w r :
  scan (PPush (PushValue z)) b v = (w, Rest r) <-> w = v /\ exists c, token_form neg1 (Num z) c /\ b = c ++ r.
Proof.
  rewrite (proj1 (push_exact neg1 0 (PushValue z) b v)). split.
  - intros (i & c & H & E & M). unfold push_match in M. destruct (is_push_op (i_op i)) eqn:P; [|discriminate]. cbn [negb] in M.
    destruct (z =? sn_val (push_value neg1 i))%Z eqn:Q; [|discriminate]. split; [congruence|]. exists c. split; [|assumption].
    exists (push_value neg1 i). split; [exists i; auto|]. apply number_of_iff. lia.
  - intros (-> & c & (d & (i & W & P & V) & Nn) & E). exists i, c. split; [assumption|]. split; [assumption|].
    apply number_of_iff in Nn. unfold push_match. rewrite P, V, Nn, Z.eqb_refl. reflexivity.
Qed.
Lemma number_fails z y c r v : token_form neg1 (Num y) c -> z <> y -> scan (PPush (PushValue z)) (c ++ r) v = (v, Fail).
Proof.
  intros (d & (i & W & P & V) & Nn) D. apply number_of_iff in Nn. change (scan_push neg1 (PushValue z) (c ++ r) v = (v, Fail)).
  rewrite (push_whole _ _ _ _ _ _ W). unfold push_match. rewrite P, V, Nn. replace (z =? y)%Z with false by lia. reflexivity.
Qed.
Lemma op_step o b v w r : opcode o -> scan (PAtom (op_instr o)) b v = (w, Rest r) <-> w = v /\ b = [o] ++ r.
Proof.
  intros O. change (scan (PAtom (op_instr o)) b v) with (scan_atom (op_instr o) b v). rewrite atom_op by assumption. destruct b as [|c b].
  - split; [discriminate|]. intros (_ & E). discriminate.
  - destruct (byte_eqb c o) eqn:E.
    + apply byte_eqb_eq in E. subst c. cbn [app]. split; [intros X; split; congruence|intros (-> & X); congruence].
    + split; [discriminate|]. cbn [app]. intros (_ & X). assert (c = o) by congruence. apply byte_eqb_eq in H. congruence.
Qed.
Lemma bytes_step s b v w r : scan (PString s) b v = (w, Rest r) <-> w = v /\ b = s ++ r.
Proof.
  change (scan (PString s) b v) with (scan_string s b v). unfold scan_string. destruct (length b <? length s)%nat eqn:L.
  - split; [discriminate|]. intros (_ & ->). rewrite app_length in L. lia.
  - destruct (bytes_eqb (firstn (length s) b) s) eqn:E.
    + apply bytes_eqb_eq in E. split.
      * intros X. split; [congruence|]. rewrite <- E at 1. replace r with (skipn (length s) b) by congruence. now rewrite firstn_skipn.
      * intros (-> & ->). rewrite skipn_app, skipn_all, Nat.sub_diag. reflexivity.
    + split; [discriminate|]. intros (_ & ->). rewrite firstn_app, firstn_all, Nat.sub_diag, firstn_O, app_nil_r in E.
      assert (bytes_eqb s s = true) by now apply bytes_eqb_eq. congruence.
Qed.
Lemma instr_step i c b v w r : whole i c -> scan (PAtom i) b v = (w, Rest r) <-> w = v /\ b = c ++ r.
Proof.
  intros W. change (scan (PAtom i) b v) with (scan_atom i b v). split.
  - intros E. destruct b as [|o b]; [discriminate|]. destruct (front (o :: b)) as [(j & cj & t & F & Wj) | U]; [discriminate| |].
    + rewrite F, (atom_whole i j cj t v Wj) in E. destruct (instr_eqb i j) eqn:Q; [|discriminate]. apply instr_eqb_eq in Q. subst j.
      split; [congruence|]. rewrite F. f_equal; [|congruence]. pose proof (inst_write _ _ (proj1 W)). pose proof (inst_write _ _ (proj1 Wj)). congruence.
    + exfalso. revert E. unfold scan_atom. destruct (negb (byte_eqb o (i_op i))); [discriminate|]. cbv zeta.
      destruct (len (o :: b) <? next_size (o :: b)); [discriminate|]. destruct U as [U|[U|U]].
      * rewrite (front_cut _ _ _ U). discriminate.
      * rewrite (front_sizeless _ _ _ U). discriminate.
      * rewrite (front_oversize _ _ _ U). discriminate.
  - intros (-> & ->). rewrite (atom_whole i i c r v W). replace (instr_eqb i i) with true by (symmetry; now apply instr_eqb_eq). reflexivity.
Qed.
(* an optional push of n bytes *)
Lemma optional_step n k b v w r : 1 < n -> len neg1 < n -> n < 2 ^ 31 ->
  scan (POptional (PPushSize n (Some k))) b v = (w, Rest r) <->
  (exists d c, data_push d c /\ len d = n /\ b = c ++ r /\ w = put k d v) \/
  (w = v /\ b = r /\ (b = [] \/ exists i c t, whole i c /\ b = c ++ t /\ len (push_value neg1 i) <> n)).
Proof.
  intros L1 L2 L3. pose proof (push_size_data neg1 0 n k b v) as S. destruct (push_size_exact neg1 0 n (Some k) b v) as (_ & F & _).
  change (scan (POptional (PPushSize n (Some k))) b v) with
    (match scan (PPushSize n (Some k)) b v with (w, Fail) => (w, Rest b) | y => y end).
  destruct (scan (PPushSize n (Some k)) b v) as [u [t| |e| |]] eqn:E; cbn [snd] in F.
  - split.
    + intros X. left. apply (S w r); assumption.
    + intros [X|(_ & _ & X)]; [apply (S w r L1 L2 L3); exact X|]. apply F in X. discriminate.
  - change (scan_push_size neg1 n (Some k) b v = (u, Fail)) in E. apply push_size_fail_v in E. subst u. split.
    + intros X. right. split; [congruence|]. split; [congruence|]. now apply F.
    + intros [X|(-> & -> & _)]; [apply (S w r L1 L2 L3) in X; discriminate|reflexivity].
  - split; [discriminate|]. intros [X|(_ & _ & X)]; [apply (S w r L1 L2 L3) in X; discriminate|apply F in X; discriminate].
  - split; [discriminate|]. intros [X|(_ & _ & X)]; [apply (S w r L1 L2 L3) in X; discriminate|apply F in X; discriminate].
  - split; [discriminate|]. intros [X|(_ & _ & X)]; [apply (S w r L1 L2 L3) in X; discriminate|apply F in X; discriminate].
Qed.
End Steps.

(* ---- fixed code ---- *)
Section Code.
Variable neg1 : bytes.
Notation scan := (scan neg1 0).

Lemma formed_app l m c d : formed neg1 l c -> formed neg1 m d -> formed neg1 (l ++ m) (c ++ d).
Proof. induction 1 as [|t l c r T F IH]; intros M; [exact M|]. cbn [app]. rewrite <- app_assoc. constructor; auto. Qed.
Lemma formed_split l m c : formed neg1 (l ++ m) c -> exists a b, formed neg1 l a /\ formed neg1 m b /\ c = a ++ b.
Proof.
  revert c. induction l as [|t l IH]; intros c F; cbn [app] in F.
  - exists [], c. split; [constructor|auto].
  - inversion F as [|t' l' x y T R]; subst. destruct (IH _ R) as (a & b & A & B & ->). exists (x ++ a), b.
    split; [now constructor|]. split; [assumption|now rewrite app_assoc].
Qed.

Definition token_of (a : parg) : token :=
  match a with
  | AOp o => Exact [o]
  | AInstr i => Exact (instr_write i)
  | AProgram p => Exact (program_write p)
  | APush (PushValue z) => Num z
  | _ => Exact []
  end.
Definition code_arg (a : parg) : Prop :=
  match a with
  | AOp o => opcode o
  | AInstr i => whole i (instr_write i)
  | AProgram _ | APush (PushValue _) => True
  | _ => False
  end.
Lemma arg_step a b v w r : code_arg a ->
  scan (construct a) b v = (w, Rest r) <-> w = v /\ exists c, token_form neg1 (token_of a) c /\ b = c ++ r.
Proof.
  destruct a as [o|i|p|[|z| |]| | | | | | |]; cbn [code_arg construct token_of]; try contradiction; intros O.
  - rewrite op_step by assumption. split; [intros (-> & ->)|intros (-> & c & -> & ->)]; (split; [reflexivity|]); [exists [o]; split; reflexivity|reflexivity].
  - rewrite (instr_step neg1 i _ _ _ _ _ O). split; [intros (-> & ->)|intros (-> & c & -> & ->)]; (split; [reflexivity|]); [exists (instr_write i); split; reflexivity|reflexivity].
  - rewrite bytes_step. split; [intros (-> & ->)|intros (-> & c & -> & ->)]; (split; [reflexivity|]); [exists (program_write p); split; reflexivity|reflexivity].
  - apply number_step.
Qed.
Lemma code_step l b v w r : Forall code_arg l ->
  scan (PSeq (map construct l)) b v = (w, Rest r) <-> w = v /\ exists c, formed neg1 (map token_of l) c /\ b = c ++ r.
Proof.
  intros A. revert b. induction A as [|a l Ha A IH]; intros b; cbn [map].
  - rewrite seq_nil. split.
    + intros E. split; [congruence|]. exists []. split; [constructor|cbn [app]; congruence].
    + intros (-> & c & F & ->). inversion F; subst. reflexivity.
  - rewrite seq_step. split.
    + intros (u & t & E & R). apply arg_step in E as (-> & c & T & ->); [|assumption]. apply IH in R as (-> & d & F & ->).
      split; [reflexivity|]. exists (c ++ d). split; [now constructor|now rewrite app_assoc].
    + intros (-> & c & F & ->). inversion F as [|t l' x y T R]; subst. exists v, (y ++ r). split.
      * apply arg_step; [assumption|]. split; [reflexivity|]. exists x. split; [assumption|now rewrite app_assoc].
      * apply IH. split; [reflexivity|]. exists y. auto.
Qed.

(* runs of fixed bytes can be joined *)
Fixpoint merge (l : list token) : list token :=
  match l with
  | [] => []
  | Exact b :: l => match merge l with Exact d :: r => Exact (b ++ d) :: r | r => Exact b :: r end
  | Num z :: l => Num z :: merge l
  end.
Lemma merge_formed l c : formed neg1 (merge l) c <-> formed neg1 l c.
Proof.
  revert c. induction l as [|t l IH]; intros c; [reflexivity|]. destruct t as [b|z]; cbn [merge].
  - split.
    + destruct (merge l) as [|[d|z] r] eqn:M; intros F; inversion F as [|t' l' x y T R]; subst; cbn [token_form] in T.
      * subst x. constructor; [reflexivity|]. apply IH. exact R.
      * subst x. rewrite <- app_assoc. constructor; [reflexivity|]. apply IH. constructor; [reflexivity|assumption].
      * subst x. constructor; [reflexivity|]. apply IH. exact R.
    + intros F. inversion F as [|t' l' x y T R]; subst; cbn [token_form] in T. subst x. apply IH in R.
      destruct (merge l) as [|[d|z] r] eqn:M.
      * constructor; [reflexivity|exact R].
      * inversion R as [|t' l' x' y' T' R']; subst; cbn [token_form] in T'. subst x'. rewrite app_assoc. constructor; [reflexivity|assumption].
      * constructor; [reflexivity|exact R].
  - split; intros F; inversion F as [|t' l' x y T R]; subst; (constructor; [assumption|]); now apply IH.
Qed.
End Code.

Lemma mask_whole : whole push_mask (instr_write push_mask).
Proof.
  split; [|split].
  - apply push_inst. vm_compute. reflexivity.
  - vm_compute. discriminate.
  - vm_compute. reflexivity.
Qed.
Ltac code_args := repeat (apply Forall_cons; [first [exact Logic.I | exact mask_whole | split; [vm_compute; reflexivity|discriminate]]|]); apply Forall_nil.
Lemma code_args bits : Forall code_arg (code_pattern bits).
Proof. unfold code_pattern, start_pattern, bits_pattern, plain_pattern, end_pattern. destruct bits; cbn [app]; code_args. Qed.
Lemma code_tokens bits : merge (map token_of (code_pattern bits)) = tokens bits.
Proof. destruct bits; vm_compute; reflexivity. Qed.
Lemma code_exact neg1 bits b v w : scan neg1 0 (PSeq (map construct (code_pattern bits))) b v = (w, Rest []) <->
  w = v /\ formed neg1 (tokens bits) b.
Proof.
  rewrite code_step by apply code_args. rewrite <- code_tokens. split.
  - intros (-> & c & F & ->). split; [reflexivity|]. rewrite app_nil_r. now apply merge_formed.
  - intros (-> & F). split; [reflexivity|]. exists b. split; [now apply merge_formed|now rewrite app_nil_r].
Qed.
(* the code of a plain output does not match the code with version bits, and the scan fails *)
Lemma plain_not_bits neg1 b v : formed neg1 (tokens false) b -> scan neg1 0 (PSeq (map construct (code_pattern true))) b v = (v, Fail).
Proof.
  intros F. rewrite <- code_tokens in F. apply (proj1 (merge_formed _ _ _)) in F. unfold code_pattern in F. rewrite map_app in F.
  apply formed_split in F as (a & c & A & C & ->). rewrite map_app in C. apply formed_split in C as (p & e & P & E & ->).
  unfold plain_pattern in P. cbn [map token_of] in P. inversion P as [|t l x y T R]; subst.
  unfold code_pattern. rewrite !map_app. assert (SA : forall l v t, scan neg1 0 (PSeq (map construct start_pattern ++ l)) (a ++ t) v = scan neg1 0 (PSeq l) t v).
  { assert (G : forall args, Forall code_arg args -> forall a, formed neg1 (map token_of args) a -> forall l v t,
      scan neg1 0 (PSeq (map construct args ++ l)) (a ++ t) v = scan neg1 0 (PSeq l) t v).
    { intros args HA. induction HA as [|g args Hg HA IH]; intros a' F' l' v' t'; inversion F' as [|t0 l0 x0 y0 T0 R0]; subst; [reflexivity|].
      cbn [map app]. rewrite (seq_go neg1 _ _ _ _ v' (y0 ++ t')); [now apply IH|]. apply arg_step; [assumption|]. split; [reflexivity|].
      exists x0. split; [assumption|now rewrite app_assoc]. }
    intros. apply G; [|assumption]. unfold start_pattern. code_args. }
  rewrite SA. unfold bits_pattern. cbn [map construct app]. rewrite <- app_assoc. apply seq_stop. apply (number_fails neg1 6 5); [assumption|lia].
Qed.

(* ---- the fields of an output ---- *)
Definition filled (h : option bytes) (a b c d e f : bytes) (v : vars) : vars :=
  put 6 f (put 5 e (put 4 d (put 3 c (put 2 b (put 1 a (match h with Some x => put 0 x v | None => v end)))))).

Lemma nm1 x neg1 : len neg1 < 4 -> 4 <= x -> 1 < x /\ len neg1 < x. Proof. lia. Qed.
Lemma word_len : len boost_word = 8. Proof. reflexivity. Qed.

Lemma fields_step neg1 L b v w r : len neg1 < 4 ->
  scan neg1 0 (PSeq (map construct fields_pattern ++ L)) b v = (w, Rest r) <->
  exists h a1 a2 a3 a4 a5 a6 c e, b = c ++ e /\ fields_form neg1 h a1 a2 a3 a4 a5 a6 c /\
    scan neg1 0 (PSeq L) e (filled h a1 a2 a3 a4 a5 a6 v) = (w, Rest r).
Proof.
  intros Ng. unfold fields_pattern. cbn [map construct app]. split.
  - intros E. apply seq_step in E as (u0 & t0 & E0 & E). apply is_step in E0 as (-> & w0 & W0 & ->); [|rewrite word_len; lia..].
    apply seq_step in E as (u1 & t1 & E1 & E). apply op_step in E1 as (-> & ->); [|split; [vm_compute; reflexivity|discriminate]].
    apply seq_step in E as (u2 & t2 & E2 & E).
    apply seq_step in E as (u3 & t3 & E3 & E). apply push_size_data in E3 as (a1 & c1 & D1 & L1 & -> & ->); [|lia..].
    apply seq_step in E as (u4 & t4 & E4 & E). apply push_size_data in E4 as (a2 & c2 & D2 & L2 & -> & ->); [|lia..].
    apply seq_step in E as (u5 & t5 & E5 & E). apply push_size_data in E5 as (a3 & c3 & D3 & L3 & -> & ->); [|lia..].
    apply seq_step in E as (u6 & t6 & E6 & E). apply read_step in E6 as (a4 & c4 & D4 & -> & ->).
    apply seq_step in E as (u7 & t7 & E7 & E). apply push_size_data in E7 as (a5 & c5 & D5 & L5 & -> & ->); [|lia..].
    apply seq_step in E as (u8 & t8 & E8 & E). apply read_step in E8 as (a6 & c6 & D6 & -> & ->).
    apply optional_step in E2 as [(h & ch & Dh & Lh & -> & ->)|(-> & -> & _)]; [| |lia..].
    + exists (Some h), a1, a2, a3, a4, a5, a6, (w0 ++ [x75] ++ ch ++ c1 ++ c2 ++ c3 ++ c4 ++ c5 ++ c6), t8.
      split; [now rewrite <- !app_assoc|]. split; [|exact E].
      exists w0, ch, c1, c2, c3, c4, c5, c6. tauto.
    + exists None, a1, a2, a3, a4, a5, a6, (w0 ++ [x75] ++ [] ++ c1 ++ c2 ++ c3 ++ c4 ++ c5 ++ c6), t8.
      split; [now rewrite <- !app_assoc|]. split; [|exact E].
      exists w0, [], c1, c2, c3, c4, c5, c6. tauto.
  - intros (h & a1 & a2 & a3 & a4 & a5 & a6 & c & e & -> & (w0 & ch & c1 & c2 & c3 & c4 & c5 & c6 & -> & W0 & Dh & (D1 & L1) & (D2 & L2) & (D3 & L3) & D4 & (D5 & L5) & D6) & E).
    rewrite <- !app_assoc.
    apply seq_step. exists v, ([x75] ++ ch ++ c1 ++ c2 ++ c3 ++ c4 ++ c5 ++ c6 ++ e). split.
    { apply is_step; [rewrite word_len; lia..|]. split; [reflexivity|]. exists w0. auto. }
    apply seq_step. exists v, (ch ++ c1 ++ c2 ++ c3 ++ c4 ++ c5 ++ c6 ++ e). split.
    { apply op_step; [split; [vm_compute; reflexivity|discriminate]|]. auto. }
    apply seq_step. exists (match h with Some x => put 0 x v | None => v end), (c1 ++ c2 ++ c3 ++ c4 ++ c5 ++ c6 ++ e). split.
    { apply optional_step; [lia..|]. destruct h as [h|].
      - left. exists h, ch. tauto.
      - right. subst ch. split; [reflexivity|]. split; [reflexivity|]. right.
        destruct (data_whole neg1 a1 c1 D1) as (i & Wi & Vi); [lia|]. exists i, c1, (c2 ++ c3 ++ c4 ++ c5 ++ c6 ++ e).
        split; [assumption|]. split; [reflexivity|]. rewrite Vi. lia. }
    apply seq_step. eexists _, _. split; [apply push_size_data; [lia..|]; exists a1, c1; split; [exact D1|]; split; [exact L1|]; split; reflexivity|].
    apply seq_step. eexists _, _. split; [apply push_size_data; [lia..|]; exists a2, c2; split; [exact D2|]; split; [exact L2|]; split; reflexivity|].
    apply seq_step. eexists _, _. split; [apply push_size_data; [lia..|]; exists a3, c3; split; [exact D3|]; split; [exact L3|]; split; reflexivity|].
    apply seq_step. eexists _, _. split; [apply read_step; exists a4, c4; split; [exact D4|]; split; reflexivity|].
    apply seq_step. eexists _, _. split; [apply push_size_data; [lia..|]; exists a5, c5; split; [exact D5|]; split; [exact L5|]; split; reflexivity|].
    apply seq_step. eexists _, _. split; [apply read_step; exists a6, c6; split; [exact D6|]; split; reflexivity|].
    exact E.
Qed.
(* the same, for any ending *)
Lemma fields_go neg1 L h a1 a2 a3 a4 a5 a6 c e v : len neg1 < 4 -> fields_form neg1 h a1 a2 a3 a4 a5 a6 c ->
  scan neg1 0 (PSeq (map construct fields_pattern ++ L)) (c ++ e) v = scan neg1 0 (PSeq L) e (filled h a1 a2 a3 a4 a5 a6 v).
Proof.
  unfold fields_pattern. cbn [map construct app].
  intros Ng (w0 & ch & c1 & c2 & c3 & c4 & c5 & c6 & -> & W0 & Dh & (D1 & L1) & (D2 & L2) & (D3 & L3) & D4 & (D5 & L5) & D6).
  rewrite <- !app_assoc.
  rewrite (seq_go neg1 _ _ _ _ v ([x75] ++ ch ++ c1 ++ c2 ++ c3 ++ c4 ++ c5 ++ c6 ++ e)) by
    (apply is_step; [rewrite word_len; lia..|]; split; [reflexivity|]; exists w0; auto).
  rewrite (seq_go neg1 _ _ _ _ v (ch ++ c1 ++ c2 ++ c3 ++ c4 ++ c5 ++ c6 ++ e)) by
    (apply op_step; [split; [vm_compute; reflexivity|discriminate]|]; auto).
  rewrite (seq_go neg1 _ _ _ _ (match h with Some x => put 0 x v | None => v end) (c1 ++ c2 ++ c3 ++ c4 ++ c5 ++ c6 ++ e)).
  2: { apply optional_step; [lia..|]. destruct h as [h|].
      - left. exists h, ch. tauto.
      - right. subst ch. split; [reflexivity|]. split; [reflexivity|]. right.
        destruct (data_whole neg1 a1 c1 D1) as (i & Wi & Vi); [lia|]. exists i, c1, (c2 ++ c3 ++ c4 ++ c5 ++ c6 ++ e).
        split; [assumption|]. split; [reflexivity|]. rewrite Vi. lia. }
  erewrite seq_go by (apply push_size_data; [lia..|]; exists a1, c1; split; [exact D1|]; split; [exact L1|]; split; reflexivity).
  erewrite seq_go by (apply push_size_data; [lia..|]; exists a2, c2; split; [exact D2|]; split; [exact L2|]; split; reflexivity).
  erewrite seq_go by (apply push_size_data; [lia..|]; exists a3, c3; split; [exact D3|]; split; [exact L3|]; split; reflexivity).
  erewrite seq_go by (apply read_step; exists a4, c4; split; [exact D4|]; split; reflexivity).
  erewrite seq_go by (apply push_size_data; [lia..|]; exists a5, c5; split; [exact D5|]; split; [exact L5|]; split; reflexivity).
  erewrite seq_go by (apply read_step; exists a6, c6; split; [exact D6|]; split; reflexivity).
  reflexivity.
Qed.

(* ---- reading an output ---- *)
Lemma match_iff neg1 q b v w : pmatch neg1 0 q b v = (w, Matched true) <-> scan neg1 0 q b v = (w, Rest []).
Proof.
  unfold pmatch. destruct (scan neg1 0 q b v) as [u [r| | | |]]; try (split; discriminate).
  split; intros E.
  - assert (len r =? 0 = true) by congruence. apply nil_len in H. congruence.
  - assert (r = []) by congruence. subst r. rewrite len_nil. change (0 =? 0) with true. congruence.
Qed.
Lemma pattern_split bits : output_pattern bits = PSeq (map construct fields_pattern ++ map construct (code_pattern bits)).
Proof. unfold output_pattern, pattern_of. now rewrite map_app. Qed.
Lemma output_match neg1 bits b v w : len neg1 < 4 ->
  pmatch neg1 0 (output_pattern bits) b v = (w, Matched true) <->
  exists h a1 a2 a3 a4 a5 a6 c e, b = c ++ e /\ fields_form neg1 h a1 a2 a3 a4 a5 a6 c /\ formed neg1 (tokens bits) e /\
    w = filled h a1 a2 a3 a4 a5 a6 v.
Proof.
  intros Ng. rewrite match_iff, pattern_split, fields_step by assumption. split.
  - intros (h & a1 & a2 & a3 & a4 & a5 & a6 & c & e & E & F & G). apply code_exact in G as (-> & G). exists h, a1, a2, a3, a4, a5, a6, c, e. auto.
  - intros (h & a1 & a2 & a3 & a4 & a5 & a6 & c & e & E & F & G & ->). exists h, a1, a2, a3, a4, a5, a6, c, e.
    split; [assumption|]. split; [assumption|]. apply code_exact. auto.
Qed.
Lemma output_mismatch neg1 h a1 a2 a3 a4 a5 a6 c e v : len neg1 < 4 -> fields_form neg1 h a1 a2 a3 a4 a5 a6 c -> formed neg1 (tokens false) e ->
  pmatch neg1 0 (output_pattern true) (c ++ e) v = (filled h a1 a2 a3 a4 a5 a6 v, Matched false).
Proof.
  intros Ng F G. unfold pmatch. rewrite pattern_split, (fields_go neg1 _ h a1 a2 a3 a4 a5 a6) by assumption. now rewrite plain_not_bits.
Qed.

(* the output that the fields stand for *)
Definition field_output (bits : bool) (h : option bytes) (a1 a2 a3 a4 a5 a6 : bytes) : output :=
  {| bo_type := match h with Some _ => Contract | None => Bounty end; bo_hash := match h with Some d => d | None => zero20 end;
     bo_category := sle_val a1; bo_bits := bits; bo_content := a2; bo_target := le_val a3; bo_tag := a4; bo_nonce := le_val a5; bo_data := a6 |}.
Lemma filled_output neg1 bits h a1 a2 a3 a4 a5 a6 c : fields_form neg1 h a1 a2 a3 a4 a5 a6 c ->
  output_of bits (filled h a1 a2 a3 a4 a5 a6 output_vars) = (if 20 <? len a4 then no_output else field_output bits h a1 a2 a3 a4 a5 a6) /\
  output_of bits (filled h a1 a2 a3 a4 a5 a6 (filled h a1 a2 a3 a4 a5 a6 output_vars)) = (if 20 <? len a4 then no_output else field_output bits h a1 a2 a3 a4 a5 a6).
Proof.
  intros (w0 & ch & c1 & c2 & c3 & c4 & c5 & c6 & _ & _ & Dh & _).
  destruct h as [d|]; unfold filled, output_vars, output_of; cbn [repeat put get nth].
  - destruct Dh as (_ & Ld). rewrite Ld. split; reflexivity.
  - split; reflexivity.
Qed.
Lemma output_reads neg1 bits h a1 a2 a3 a4 a5 a6 c e : len neg1 < 4 -> fields_form neg1 h a1 a2 a3 a4 a5 a6 c -> formed neg1 (tokens bits) e ->
  output_read neg1 (c ++ e) = Ret (if 20 <? len a4 then no_output else field_output bits h a1 a2 a3 a4 a5 a6).
Proof.
  intros Ng F G. destruct (filled_output neg1 bits _ _ _ _ _ _ _ _ F) as (O1 & O2). unfold output_read. destruct bits.
  - assert (E : pmatch neg1 0 (output_pattern true) (c ++ e) output_vars = (filled h a1 a2 a3 a4 a5 a6 output_vars, Matched true)).
    { apply output_match; [assumption|]. exists h, a1, a2, a3, a4, a5, a6, c, e. auto. }
    rewrite E. cbn [matched]. now rewrite O1.
  - rewrite (output_mismatch neg1 h a1 a2 a3 a4 a5 a6) by assumption. cbn [matched].
    assert (E : pmatch neg1 0 (output_pattern false) (c ++ e) (filled h a1 a2 a3 a4 a5 a6 output_vars) =
      (filled h a1 a2 a3 a4 a5 a6 (filled h a1 a2 a3 a4 a5 a6 output_vars), Matched true)).
    { apply output_match; [assumption|]. exists h, a1, a2, a3, a4, a5, a6, c, e. auto. }
    rewrite E. cbn [matched]. now rewrite O2.
Qed.
Lemma output_reads_only neg1 s o : len neg1 < 4 -> output_read neg1 s = Ret o -> output_valid o = true ->
  exists bits h a1 a2 a3 a4 a5 a6 c e, s = c ++ e /\ fields_form neg1 h a1 a2 a3 a4 a5 a6 c /\ formed neg1 (tokens bits) e /\
    len a4 <= 20 /\ o = field_output bits h a1 a2 a3 a4 a5 a6.
Proof.
  intros Ng E V.
  assert (X : exists bits h a1 a2 a3 a4 a5 a6 c e, s = c ++ e /\ fields_form neg1 h a1 a2 a3 a4 a5 a6 c /\ formed neg1 (tokens bits) e).
  { revert E. unfold output_read. destruct (pmatch neg1 0 (output_pattern true) s output_vars) as [u [[]|x| |]] eqn:E1; cbn [matched]; try discriminate.
    - intros _. apply output_match in E1 as (h & a1 & a2 & a3 & a4 & a5 & a6 & c & e & E & F & G & _); [|assumption]. exists true, h, a1, a2, a3, a4, a5, a6, c, e. auto.
    - destruct (pmatch neg1 0 (output_pattern false) s u) as [u' [[]|x| |]] eqn:E2; cbn [matched]; try discriminate.
      + intros _. apply output_match in E2 as (h & a1 & a2 & a3 & a4 & a5 & a6 & c & e & E & F & G & _); [|assumption]. exists false, h, a1, a2, a3, a4, a5, a6, c, e. auto.
      + intros X. assert (no_output = o) by congruence. subst o. discriminate. }
  destruct X as (bits & h & a1 & a2 & a3 & a4 & a5 & a6 & c & e & -> & F & G). exists bits, h, a1, a2, a3, a4, a5, a6, c, e.
  rewrite (output_reads neg1 bits h a1 a2 a3 a4 a5 a6) in E by assumption. split; [reflexivity|]. split; [assumption|]. split; [assumption|].
  destruct (20 <? len a4) eqn:T.
  - assert (no_output = o) by congruence. subst o. discriminate.
  - split; [lia|congruence].
Qed.

Lemma len_length k (b : bytes) : len b = N.of_nat k <-> length b = k.
Proof. unfold len. lia. Qed.
Lemma i32_range z : i32 z <-> srange 4 z.
Proof. unfold i32, srange. change (pow256 4) with (2 ^ 32). lia. Qed.
Lemma le4_back b : len b = 4 -> le 4 (le_val b) = b /\ u32 (le_val b).
Proof.
  intros L. assert (length b = 4%nat) by (unfold len in L; lia). split.
  - rewrite <- H. apply le_le_val.
  - unfold u32. pose proof (le_val_bound b) as B. rewrite H in B. exact B.
Qed.
Lemma sle4_back b : len b = 4 -> sle 4 (sle_val b) = b /\ i32 (sle_val b).
Proof.
  intros L. assert (length b = 4%nat) by (unfold len in L; lia). split.
  - rewrite <- H. apply sle_sle_val.
  - apply i32_range. rewrite <- H. apply sle_val_range.
Qed.
Lemma le4_val n : u32 n -> le_val (le 4 n) = n.
Proof. intros U. rewrite le_val_le. apply N.mod_small. exact U. Qed.
Lemma sle4_val z : i32 z -> sle_val (sle 4 z) = z.
Proof. intros U. apply sle_val_sle. now apply i32_range. Qed.
Lemma len_sle k z : len (sle k z) = N.of_nat k.
Proof. unfold len. now rewrite sle_length. Qed.

Theorem output_exact neg1 s o : len neg1 < 4 ->
  (output_read neg1 s = Ret o /\ output_valid o = true) <-> (sound_output o /\ output_form neg1 o s).
Proof.
  intros Ng. split.
  - intros (E & V). destruct (output_reads_only neg1 s o Ng E V) as (bits & h & a1 & a2 & a3 & a4 & a5 & a6 & c & e & -> & F & G & L4 & ->).
    assert (K := F). destruct K as (w0 & ch & c1 & c2 & c3 & c4 & c5 & c6 & _ & _ & Dh & (D1 & L1) & (D2 & L2) & (D3 & L3) & D4 & (D5 & L5) & D6).
    destruct (sle4_back a1 L1) as (S1 & R1). destruct (le4_back a3 L3) as (S3 & R3). destruct (le4_back a5 L5) as (S5 & R5). split.
    + unfold sound_output, output_fields, field_output. cbn [bo_type bo_hash bo_category bo_bits bo_content bo_target bo_tag bo_nonce bo_data].
      destruct h as [d|]; (split; [|split; [assumption|auto]]); [destruct Dh as (_ & Ld)|]; repeat (split; [assumption || reflexivity|]); assumption.
    + exists c, e. split; [reflexivity|]. unfold field_output. cbn [bo_type bo_hash bo_category bo_bits bo_content bo_target bo_tag bo_nonce bo_data].
      rewrite S1, S3, S5. split; [|assumption]. destruct h; assumption.
  - intros (((Lh & Rc & Lc & Rt & Rn) & Lt & T) & c & e & -> & F & G).
    rewrite (output_reads neg1 (bo_bits o) _ _ _ _ _ _ _ _ _ Ng F G). replace (20 <? len (bo_tag o)) with false by lia.
    destruct o as [ty hash cat bits content target tag nonce data]. cbn [bo_type bo_hash bo_category bo_bits bo_content bo_target bo_tag bo_nonce bo_data] in *.
    unfold field_output. rewrite sle4_val, !le4_val by assumption. destruct ty; [contradiction| |]; cbn [output_valid is_invalid bo_type negb]; (split; [|reflexivity]); [rewrite T|]; reflexivity.
Qed.
Theorem long_tag neg1 s o : len neg1 < 4 -> 20 < len (bo_tag o) -> output_form neg1 o s -> output_read neg1 s = Ret no_output.
Proof.
  intros Ng Lt (c & e & -> & F & G). rewrite (output_reads neg1 (bo_bits o) _ _ _ _ _ _ _ _ _ Ng F G). now replace (20 <? len (bo_tag o)) with true by lia.
Qed.
