From Coq Require Import Lia ZifyBool ZifyNat ZifyN.
From Verif Require Import Base BaseProofs ScriptModel ScriptSpec WireSpec WireProofs ScriptProofs NumModel NumSpec NumProofs WorkModel.
From Verif Require Import PatternModel PatternSpec PatternProofs PatternTemplates BoostModel BoostSpec BoostProofs.
Local Open Scope N_scope.

(* ---- pushes ---- *)
Lemma shortest d : len d < 2 ^ 31 -> shortest_push d (instr_write (push d)).
Proof. intros L. split; [now apply push_inst|]. intros e F. now apply push_shortest. Qed.
Lemma shortest_unique d c : len d < 2 ^ 31 -> shortest_push d c <-> c = instr_write (push d).
Proof.
  intros L. split; [|intros ->; now apply shortest]. intros (F & M). destruct (push_shortest d c L F) as (A & B). apply B.
  pose proof (M _ (proj2 (push_inst d L))). lia.
Qed.
Lemma plain_write d : 1 < len d -> len d <= 75 -> instr_write (push d) = plain_push d.
Proof. apply write_direct. Qed.
Lemma push_op_write d : len d < 2 ^ 31 -> is_push_op (i_op (push d)) = true /\ i_op (push d) <> xff /\ len (instr_write (push d)) < 2 ^ 32.
Proof.
  intros L. destruct (push_inst d L) as (P & _). pose proof (inst_len _ _ P). pose proof (push_data_len d L). split; [|split; [|lia]].
  - unfold is_push_op. rewrite byte_eqb_n. change (b2n OP_RESERVED) with 80.
    destruct (push_cases d L) as [(-> & ->) | [(k & Hk & -> & ->) | (_ & [(B & ->)|[(B & ->)|[(B & ->)|(B & ->)]]])]]; cbn [i_op op_instr];
      rewrite ?n2b_val by lia; try (vm_compute; reflexivity); lia.
  - destruct (push_cases d L) as [(-> & ->) | [(k & Hk & -> & ->) | (_ & [(B & ->)|[(B & ->)|[(B & ->)|(B & ->)]]])]]; cbn [i_op op_instr]; try discriminate;
      intros E; apply (f_equal b2n) in E; rewrite n2b_val in E by lia; change (b2n xff) with 255 in E; lia.
Qed.
Lemma push_whole_write d : len d < 2 ^ 31 -> whole (push d) (instr_write (push d)).
Proof. intros L. destruct (push_op_write d L) as (_ & A & B). split; [now apply push_inst|auto]. Qed.
Lemma pushes_back neg1 d : len d < 2 ^ 31 -> pushes neg1 (back neg1 d) (instr_write (push d)).
Proof.
  intros L. exists (push d). split; [now apply push_whole_write|]. split; [now apply push_op_write|]. now apply push_value_push.
Qed.
Lemma plain_data d : len d <= 75 -> data_push d (plain_push d).
Proof. apply data_direct. Qed.
Lemma len_plain d : len (plain_push d) = len d + 1.
Proof. unfold plain_push. rewrite len_cons. lia. Qed.
Lemma back_kept neg1 d : back neg1 d = d <-> kept neg1 d.
Proof.
  unfold back, kept. destruct (bytes_eqb d [x81]) eqn:E.
  - apply bytes_eqb_eq in E. subst d. split; auto.
  - split; [|reflexivity]. intros _ ->. discriminate.
Qed.
Lemma len_back neg1 d n : len neg1 <= n -> len d <= n -> len (back neg1 d) <= n.
Proof. intros A B. unfold back. destruct (bytes_eqb d [x81]); assumption. Qed.
Lemma small_form neg1 z : In z [2; 4; 5; 6; 8; 32]%Z -> token_form neg1 (Num z) (token_bytes (Num z)).
Proof.
  assert (D : forall o k, opcode o -> is_push_op o = true -> push_value neg1 (op_instr o) = [n2b k] -> pushes neg1 [n2b k] [o]).
  { intros o k O P V. exists (op_instr o). split; [now apply opcode_whole|]. auto. }
  intros [<- | [<- | [<- | [<- | [<- | [<- | []]]]]]]; cbn [token_form];
    [exists [n2b 2]|exists [n2b 4]|exists [n2b 5]|exists [n2b 6]|exists [n2b 8]|exists [x20]].
  1-5: split; [apply D; [split; [vm_compute; reflexivity|discriminate]|reflexivity|reflexivity]|apply number_of_iff; vm_compute; reflexivity].
  split; [|apply number_of_iff; vm_compute; reflexivity]. change (token_bytes (Num 32)) with (instr_write (push [x20])).
  change (pushes neg1 (back neg1 [x20]) (instr_write (push [x20]))). apply pushes_back. vm_compute. reflexivity.
Qed.
Definition small_token (t : token) : Prop := match t with Exact _ => True | Num z => In z [2; 4; 5; 6; 8; 32]%Z end.
Lemma formed_small neg1 l : Forall small_token l -> formed neg1 l (concat (map token_bytes l)).
Proof.
  induction 1 as [|t l T F IH]; [constructor|]. cbn [map concat]. constructor; [|exact IH]. destruct t; [reflexivity|]. now apply small_form.
Qed.
Lemma small_tokens bits : Forall small_token (tokens bits).
Proof.
  assert (G : forall l, forallb (fun t => match t with Exact _ => true | Num z => existsb (Z.eqb z) [2; 4; 5; 6; 8; 32]%Z end) l = true -> Forall small_token l).
  { intros l E. rewrite forallb_forall in E. apply Forall_forall. intros t I. specialize (E t I). destruct t; [exact Logic.I|].
    apply existsb_exists in E as (x & X & Q). apply Z.eqb_eq in Q. subst x. exact X. }
  apply G. destruct bits; vm_compute; reflexivity.
Qed.
Lemma check_formed neg1 bits : formed neg1 (tokens bits) (check_bytes bits).
Proof. apply formed_small, small_tokens. Qed.
Lemma check_write bits : program_write (code bits) = check_bytes bits.
Proof. destruct bits; vm_compute; reflexivity. Qed.
Lemma check_size bits : program_size (code bits) = len (check_bytes bits) /\ len (check_bytes bits) = if bits then 130 else 113.
Proof. destruct bits; vm_compute; split; reflexivity. Qed.

(* ---- programs ---- *)
Definition sized (p : program) : Prop := program_size p = len (program_write p).
Lemma sized_compile p : sized p -> compile p = Some (program_write p).
Proof. intros S0. unfold compile. rewrite S0. now apply buffer_write_exact. Qed.
Lemma sized_app p q : sized p -> sized q -> sized (p ++ q).
Proof. unfold sized. intros A B. rewrite program_size_app, program_write_app, len_app. lia. Qed.
Lemma sized_push d : len d < 2 ^ 31 -> sized [push d].
Proof.
  intros L. destruct (push_round_trip d [] L) as (_ & _ & _ & E). unfold sized. change (program_size [push d]) with (instr_size (push d) + 0).
  change (program_write [push d]) with (instr_write (push d) ++ []). rewrite app_nil_r. lia.
Qed.
Lemma sized_op o : opcode o -> sized [op_instr o].
Proof.
  intros O. unfold sized. change [op_instr o] with (map op_instr [o]). rewrite size_ops, write_ops; [reflexivity| |]; constructor; auto.
Qed.
Lemma sized_cons x p : sized [x] -> sized p -> sized (x :: p).
Proof. intros A B. change (x :: p) with ([x] ++ p). now apply sized_app. Qed.
Lemma sized_nil : sized []. Proof. reflexivity. Qed.
Lemma write_cons x p : program_write (x :: p) = instr_write x ++ program_write p.
Proof. reflexivity. Qed.

Lemma len_be k n : len (be k n) = N.of_nat k.
Proof. unfold len, be. now rewrite rev_length, le_length. Qed.
Lemma output_program_write o : writable_output o ->
  program_write (output_program o) = output_bytes o (instr_write (push (bo_tag o))) (instr_write (push (bo_data o))).
Proof.
  intros ((Lh & Rc & Lc & Rt & Rn) & Lt & Ld & T). unfold output_program, output_bytes. rewrite !program_write_app, check_write.
  change (program_write [push boost_word; op_instr x75]) with (plain_push boost_word ++ [x75]).
  rewrite !write_cons. rewrite !(plain_write (sle 4 _)) by (rewrite len_sle; lia). rewrite !(plain_write (le 4 _)) by (rewrite len_le; lia).
  rewrite (plain_write (bo_content o)) by lia. change (program_write []) with ([] : bytes). rewrite <- !app_assoc.
  do 2 f_equal. destruct (bo_type o); try reflexivity. rewrite write_cons, plain_write by lia. change (program_write []) with ([] : bytes). rewrite app_nil_r. reflexivity.
Qed.
Lemma output_write_exact o : writable_output o ->
  output_write o = Some (output_bytes o (instr_write (push (bo_tag o))) (instr_write (push (bo_data o)))).
Proof.
  intros W. assert (E := output_program_write o W). destruct W as ((Lh & Rc & Lc & Rt & Rn) & Lt & Ld & T).
  assert (Z : sized (output_program o)).
  { unfold output_program. apply sized_app; [|apply sized_app; [|apply sized_app]].
    - apply sized_cons; [apply sized_push; vm_compute; reflexivity|]. apply sized_op. split; [vm_compute; reflexivity|discriminate].
    - destruct (bo_type o); try apply sized_nil. apply sized_push. lia.
    - repeat (apply sized_cons; [apply sized_push; rewrite ?len_sle, ?len_le; lia|]). apply sized_nil.
    - unfold sized. rewrite check_write. apply check_size. }
  unfold output_write. rewrite <- E, <- sized_compile by assumption. destruct (bo_type o); [contradiction|reflexivity|reflexivity].
Qed.
Theorem output_written o : writable_output o ->
  exists tag data, shortest_push (bo_tag o) tag /\ shortest_push (bo_data o) data /\ output_write o = Some (output_bytes o tag data).
Proof.
  intros W. assert (X := W). destruct X as (_ & Lt & Ld & _). exists (instr_write (push (bo_tag o))), (instr_write (push (bo_data o))).
  split; [now apply shortest|]. split; [now apply shortest|]. now apply output_write_exact.
Qed.
Lemma written_form neg1 o : writable_output o ->
  output_form neg1 (output_back neg1 o) (output_bytes o (instr_write (push (bo_tag o))) (instr_write (push (bo_data o)))).
Proof.
  intros ((Lh & Rc & Lc & Rt & Rn) & Lt & Ld & T). unfold output_bytes.
  exists (plain_push boost_word ++ [x75] ++
  (match bo_type o with Contract => plain_push (bo_hash o) | _ => [] end) ++
  plain_push (sle 4 (bo_category o)) ++ plain_push (bo_content o) ++ plain_push (le 4 (bo_target o)) ++ instr_write (push (bo_tag o)) ++
  plain_push (le 4 (bo_nonce o)) ++ instr_write (push (bo_data o))), (check_bytes (bo_bits o)).
  split; [now rewrite <- !app_assoc|]. unfold output_back. cbn [bo_type bo_hash bo_category bo_bits bo_content bo_target bo_tag bo_nonce bo_data].
  split; [|apply check_formed].
  eexists _, _, _, _, _, _, _, _. split; [reflexivity|]. split; [apply plain_data; vm_compute; discriminate|].
  split; [destruct (bo_type o); [contradiction|reflexivity|split; [apply plain_data; lia|assumption]]|].
  split; [split; [apply plain_data|]; rewrite len_sle; lia|]. split; [split; [apply plain_data|]; lia|].
  split; [split; [apply plain_data|]; rewrite len_le; lia|]. split; [now apply pushes_back|].
  split; [split; [apply plain_data|]; rewrite len_le; lia|]. now apply pushes_back.
Qed.
(* what is written is read back *)
Theorem output_round_trip neg1 o s : len neg1 < 4 -> writable_output o -> (bo_type o = Bounty -> bo_hash o = zero20) -> output_write o = Some s ->
  output_read neg1 s = Ret (if 20 <? len (bo_tag o) then no_output else output_back neg1 o).
Proof.
  intros Ng W Hb E. rewrite output_write_exact in E by assumption. assert (s = output_bytes o (instr_write (push (bo_tag o))) (instr_write (push (bo_data o)))) by congruence. subst s.
  pose proof (written_form neg1 o W) as F. destruct (20 <? len (bo_tag o)) eqn:T.
  - apply (long_tag neg1 _ (output_back neg1 o)); [assumption| |assumption]. cbn [output_back bo_tag]. unfold back.
    destruct (bytes_eqb (bo_tag o) [x81]) eqn:Q; [|lia]. apply bytes_eqb_eq in Q. rewrite Q in T. vm_compute in T. discriminate.
  - apply output_exact; [assumption|]. split; [|exact F]. destruct W as (Fl & Lt & Ld & Ty). split; [exact Fl|].
    cbn [output_back bo_tag bo_type bo_hash]. split; [apply len_back; lia|]. destruct (bo_type o); [now apply Ty|now apply Hb|exact Logic.I].
Qed.
Theorem output_kept neg1 o s : len neg1 < 4 -> sound_output o -> len (bo_data o) < 2 ^ 31 -> output_write o = Some s ->
  output_read neg1 s = Ret o <-> kept neg1 (bo_tag o) /\ kept neg1 (bo_data o).
Proof.
  intros Ng (F & Lt & T) Ld E. assert (W : writable_output o).
  { split; [exact F|]. split; [lia|]. split; [assumption|]. intros X. rewrite X in T. exact T. }
  rewrite (output_round_trip neg1 o s Ng W); [|intros X; rewrite X in T; exact T|assumption]. replace (20 <? len (bo_tag o)) with false by lia.
  rewrite <- !back_kept. destruct o as [ty hash cat bits content target tag nonce data].
  unfold output_back. cbn [bo_type bo_hash bo_category bo_bits bo_content bo_target bo_tag bo_nonce bo_data]. split.
  - intros X. split; congruence.
  - intros (-> & ->). reflexivity.
Qed.
(* sizes *)
Ltac ifs := repeat match goal with |- context [if ?c then _ else _] => destruct c eqn:? end; lia.
Lemma min_push_miscount d : len d < 2 ^ 31 -> min_push_size d = len (instr_write (push d)) + miscounted d.
Proof.
  intros L. destruct (min_push_size_exact d L) as (A & B & C & D). unfold miscounted.
  assert (G : forall n, 75 <= len d -> n = len (instr_write (push d)) ->
    n = len d + (if len d <=? 75 then 1 else if len d <? 256 then 2 else if len d <? 65536 then 3 else 5)).
  { intros n G ->. destruct (push_cases d L) as [(-> & _) | [(k & Hk & -> & _) | (_ & Q)]]; [vm_compute in G; contradiction|vm_compute in G; contradiction|].
    destruct Q as [(Q & ->)|[(Q & ->)|[(Q & ->)|(Q & ->)]]].
    - rewrite <- (inst_write {| i_op := n2b (len d); i_data := d |} (n2b (len d) :: d)) by (constructor; lia). rewrite len_cons. ifs.
    - rewrite <- (inst_write {| i_op := x4c; i_data := d |} (x4c :: le 1 (len d) ++ d)) by (constructor; lia). rewrite len_cons, len_app, len_le. ifs.
    - rewrite <- (inst_write {| i_op := x4d; i_data := d |} (x4d :: le 2 (len d) ++ d)) by (constructor; lia). rewrite len_cons, len_app, len_le. ifs.
    - rewrite <- (inst_write {| i_op := x4e; i_data := d |} (x4e :: le 4 (len d) ++ d)) by (constructor; lia). rewrite len_cons, len_app, len_le. ifs. }
  destruct (N.eq_dec (len d) 75) as [E1|E1]; [rewrite (B E1); rewrite E1 in *; specialize (G _ ltac:(lia) eq_refl); cbn in *; lia|].
  destruct (N.eq_dec (len d) 255) as [E2|E2]; [rewrite (C E2); rewrite E2 in *; specialize (G _ ltac:(lia) eq_refl); cbn in *; lia|].
  destruct (N.eq_dec (len d) 65535) as [E3|E3]; [rewrite (D E3); rewrite E3 in *; specialize (G _ ltac:(lia) eq_refl); cbn in *; lia|].
  replace ((len d =? 75) || (len d =? 255)) with false by lia. replace (len d =? 65535) with false by lia. rewrite (proj2 A) by auto. lia.
Qed.
Theorem output_sized o s : sound_output o -> len (bo_data o) < 2 ^ 31 -> output_write o = Some s -> output_size o = len s + miscounted (bo_data o).
Proof.
  intros (F & Lt & T) Ld E. assert (W : writable_output o).
  { split; [exact F|]. split; [lia|]. split; [assumption|]. intros X. rewrite X in T. exact T. }
  rewrite output_write_exact in E by assumption. assert (s = output_bytes o (instr_write (push (bo_tag o))) (instr_write (push (bo_data o)))) by congruence. subst s.
  unfold output_size, output_bytes. rewrite !min_push_miscount by lia. replace (miscounted (bo_tag o)) with 0.
  2: { unfold miscounted. replace ((len (bo_tag o) =? 75) || (len (bo_tag o) =? 255)) with false by lia. replace (len (bo_tag o) =? 65535) with false by lia. reflexivity. }
  rewrite !len_app, !len_plain, (proj2 (check_size (bo_bits o))), !len_sle, !len_le. destruct F as (Lh & _ & Lc & _). rewrite Lc. change (len boost_word) with 8. change (len [x75]) with 1.
  destruct (bo_type o); [contradiction| |]; destruct (bo_bits o); rewrite ?len_plain, ?len_nil, ?Lh; lia.
Qed.

(* ---- the constructors ---- *)
Theorem outputs_made category content target tag nonce data bits hash :
  i32 category -> len content = 32 -> u32 target -> u32 nonce -> len hash = 20 ->
  (output_valid (bounty_output category content target tag nonce data bits) = true <-> len tag <= 20) /\
  (sound_output (bounty_output category content target tag nonce data bits) <-> len tag <= 20) /\
  output_valid (contract_output category content target tag nonce data hash bits) = true /\
  (sound_output (contract_output category content target tag nonce data hash bits) <-> len tag <= 20).
Proof.
  intros C L T N H. unfold bounty_output. destruct (20 <? len tag) eqn:E.
  - split; [split; [discriminate|lia]|]. split; [split; [intros (_ & _ & X); contradiction X|lia]|]. split; [reflexivity|]. unfold sound_output. cbn [contract_output bo_tag]. split; [tauto|lia].
  - split; [split; [lia|reflexivity]|]. split; [|split; [reflexivity|]].
    + split; [lia|]. intros _. split; [split; [reflexivity|]|split; [|reflexivity]]; cbn [bo_tag bo_category bo_content bo_target bo_nonce]; [tauto|lia].
    + split; [lia|]. intros _. split; [split; [exact H|]|split; [|exact I]]; cbn [contract_output bo_tag bo_category bo_content bo_target bo_nonce]; [tauto|lia].
Qed.
