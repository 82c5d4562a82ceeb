From Coq Require Import Lia ZifyBool ZifyNat ZifyN.
From Verif Require Import Base BaseProofs ScriptModel ScriptSpec WireProofs ScriptProofs PatternModel PatternSpec.
Local Open Scope N_scope.


(* ---- the front of a script ---- *)
Lemma push_data_ff o : is_push_data o = true -> byte_eqb o xff = false.
Proof. unfold is_push_data. rewrite byte_eqb_n. change (b2n xff) with 255. lia. Qed.
Lemma firstn_le k n r : firstn k (le k n ++ r) = le k n.
Proof. rewrite <- (le_length k n) at 1. apply firstn_app_exact. Qed.
Lemma pow256_1 : pow256 1 = 2 ^ 8. Proof. reflexivity. Qed.
Lemma pow256_2 : pow256 2 = 2 ^ 16. Proof. reflexivity. Qed.
Lemma pow256_4 : pow256 4 = 2 ^ 32. Proof. reflexivity. Qed.

Lemma next_header h n d : push_header h n -> next_size (h ++ d) = (len h + n) mod 2 ^ 32.
Proof.
  intros H. destruct H as [n H|n H|n H|n H]; cbn [app]; unfold next_size.
  - rewrite push_data_ff by (unfold is_push_data; rewrite n2b_val by lia; lia).
    unfold is_push_data. rewrite n2b_val by lia.
    replace (n <=? 0x4e) with true by lia. cbn [negb]. replace (n <=? 75) with true by lia.
    rewrite N.mod_small; unfold len; cbn [length]; lia.
  - change (byte_eqb x4c xff) with false. change (is_push_data x4c) with true. change (b2n x4c <=? 75) with false.
    change (byte_eqb x4c OP_PUSHDATA1) with true. cbn [negb]. rewrite !len_cons, len_app, len_le.
    replace (1 + (N.of_nat 1 + len d) <? 2) with false by lia. rewrite firstn_le, le_val_le, N.mod_small by (rewrite pow256_1; lia).
    rewrite N.mod_small; lia.
  - change (byte_eqb x4d xff) with false. change (is_push_data x4d) with true. change (b2n x4d <=? 75) with false.
    change (byte_eqb x4d OP_PUSHDATA1) with false. change (byte_eqb x4d OP_PUSHDATA2) with true. cbn [negb]. rewrite !len_cons, len_app, len_le.
    replace (1 + (N.of_nat 2 + len d) <? 3) with false by lia. rewrite firstn_le, le_val_le, N.mod_small by (rewrite pow256_2; lia).
    rewrite N.mod_small; lia.
  - change (byte_eqb x4e xff) with false. change (is_push_data x4e) with true. change (b2n x4e <=? 75) with false.
    change (byte_eqb x4e OP_PUSHDATA1) with false. change (byte_eqb x4e OP_PUSHDATA2) with false. cbn [negb]. rewrite !len_cons, len_app, len_le.
    replace (1 + (N.of_nat 4 + len d) <? 5) with false by lia. rewrite firstn_le, le_val_le, (N.mod_small n) by (rewrite pow256_4; lia).
    f_equal. lia.
Qed.

Lemma next_op o r : 0x4e < b2n o -> o <> xff -> next_size (o :: r) = 1.
Proof.
  intros H D. unfold next_size. destruct (byte_eqb o xff) eqn:E; [apply byte_eqb_eq in E; contradiction|].
  unfold is_push_data. replace (b2n o <=? 0x4e) with false by lia. reflexivity.
Qed.

Lemma inst_header i c : is_inst i c ->
  (0x4e < b2n (i_op i) /\ c = [i_op i] /\ i_data i = []) \/
  (exists h, push_header h (len (i_data i)) /\ c = h ++ i_data i /\ b2n (i_op i) <= 0x4e).
Proof.
  destruct i as [o d]. unfold is_inst; cbn [i_op i_data]. intros H. inversion H; subst; clear H.
  - right. exists [n2b (len d)]. split; [now constructor|]. split; [reflexivity|]. rewrite n2b_val; lia.
  - right. exists (x4c :: le 1 (len d)). split; [now constructor|]. split; [reflexivity|]. vm_compute; discriminate.
  - right. exists (x4d :: le 2 (len d)). split; [now constructor|]. split; [reflexivity|]. vm_compute; discriminate.
  - right. exists (x4e :: le 4 (len d)). split; [now constructor|]. split; [reflexivity|]. vm_compute; discriminate.
  - left. auto.
Qed.

Lemma header_inst h d : push_header h (len d) -> exists i, is_inst i (h ++ d) /\ i_data i = d /\ b2n (i_op i) <= 0x4e.
Proof.
  intros H. inversion H; subst.
  - exists {| i_op := n2b (len d); i_data := d |}. cbn [i_op i_data]. split; [now constructor|]. split; [reflexivity|]. rewrite n2b_val; lia.
  - exists {| i_op := x4c; i_data := d |}. cbn [i_op i_data]. split; [now constructor|]. split; [reflexivity|]. vm_compute; discriminate.
  - exists {| i_op := x4d; i_data := d |}. cbn [i_op i_data]. split; [now constructor|]. split; [reflexivity|]. vm_compute; discriminate.
  - exists {| i_op := x4e; i_data := d |}. cbn [i_op i_data]. split; [now constructor|]. split; [reflexivity|]. vm_compute; discriminate.
Qed.

Lemma next_whole i c r : whole i c -> next_size (c ++ r) = len c.
Proof.
  intros (H & D & L). apply inst_header in H as [(O & -> & _) | (h & H & -> & _)].
  - apply next_op; assumption.
  - rewrite <- app_assoc, (next_header _ _ _ H). rewrite N.mod_small; rewrite len_app in *; lia.
Qed.

Lemma read_whole i c : is_inst i c -> instr_read c = Ret i.
Proof. intros H. unfold instr_read. rewrite <- (app_nil_r c), (read_instr_of_form _ _ _ H). reflexivity. Qed.

Lemma front_whole found v i c r : whole i c -> read_front (next_size (c ++ r)) (c ++ r) found v = found i.
Proof.
  intros H. unfold read_front. rewrite (next_whole _ _ _ H), len_app.
  replace (len c + len r <? len c) with false by lia. rewrite firstn_len, (read_whole i); [reflexivity|apply H].
Qed.
Lemma next_cut b : cut b -> len b < next_size b.
Proof.
  intros (h & n & d & H & -> & L & B). rewrite (next_header _ _ _ H), len_app, N.mod_small; lia.
Qed.
Lemma front_cut found v b : cut b -> read_front (next_size b) b found v = (v, Beyond).
Proof. intros H. apply next_cut in H. unfold read_front. replace (len b <? next_size b) with true by lia. reflexivity. Qed.
Lemma next_sizeless b : sizeless b -> next_size b = 0.
Proof.
  intros [(r & ->) | [-> | [(r & -> & L) | [(r & -> & L) | (r & ->)]]]].
  - reflexivity.
  - reflexivity.
  - unfold next_size. change (byte_eqb x4d xff) with false. change (is_push_data x4d) with true. change (b2n x4d <=? 75) with false.
    change (byte_eqb x4d OP_PUSHDATA1) with false. change (byte_eqb x4d OP_PUSHDATA2) with true. cbn [negb]. rewrite len_cons.
    replace (1 + len r <? 3) with true by lia. reflexivity.
  - unfold next_size. change (byte_eqb x4e xff) with false. change (is_push_data x4e) with true. change (b2n x4e <=? 75) with false.
    change (byte_eqb x4e OP_PUSHDATA1) with false. change (byte_eqb x4e OP_PUSHDATA2) with false. cbn [negb]. rewrite len_cons.
    replace (1 + len r <? 5) with true by lia. reflexivity.
  - exact (next_header _ _ r (ph_data4 (2 ^ 32 - 5) eq_refl)).
Qed.
Lemma front_sizeless found v b : sizeless b -> read_front (next_size b) b found v = (v, Escape (X_Invalid E_UNKNOWN_ERROR)).
Proof. intros H. unfold read_front. rewrite next_sizeless by assumption. replace (len b <? 0) with false by lia. reflexivity. Qed.
Lemma next_oversize b : oversize b -> 0 < next_size b < 5.
Proof.
  intros (n & r & -> & L). pose proof (next_header _ _ r (ph_data4 n (proj2 L))) as H. cbn [app] in H. rewrite H.
  rewrite len_cons, len_le. replace (1 + N.of_nat 4 + n) with ((n - (2 ^ 32 - 5)) + 1 * 2 ^ 32) by lia.
  rewrite N.mod_add by lia. rewrite N.mod_small by lia. lia.
Qed.
Lemma front_oversize found v b : oversize b -> read_front (next_size b) b found v = (v, Escape X_EndOfStream).
Proof.
  intros H. pose proof (next_oversize _ H) as B. destruct H as (n & r & E & L). rewrite E in *. clear E.
  unfold read_front. rewrite len_cons, len_app, len_le. replace (1 + (N.of_nat 4 + len r) <? _) with false by lia.
  set (k := next_size _) in *. clearbody k.
  replace (N.to_nat k) with (S (N.to_nat (k - 1))) by lia. cbn [firstn].
  unfold instr_read, read_instr, read_push. change (is_push_data x4e) with true. change (b2n x4e <=? 75) with false.
  change (byte_eqb x4e OP_PUSHDATA1) with false. change (byte_eqb x4e OP_PUSHDATA2) with false. cbv iota.
  destruct (rd_le 4 _) as [[? ?]|] eqn:R; [|reflexivity].
  assert (X : rd_le 4 (firstn (N.to_nat (k - 1)) (le 4 n ++ r)) = None) by (apply rd_le_none; rewrite firstn_length; lia).
  congruence.
Qed.

Lemma headed h n d : push_header h n -> (exists i c r, h ++ d = c ++ r /\ whole i c) \/ unreadable (h ++ d).
Proof.
  intros H. destruct (N.lt_ge_cases (len h + n) (2 ^ 32)) as [B|B].
  - destruct (N.lt_ge_cases (len d) n) as [C|C].
    + right. left. exists h, n, d. auto.
    + left. set (e := firstn (N.to_nat n) d). assert (E : len e = n) by (apply len_firstn; lia).
      rewrite <- E in H. destruct (header_inst _ _ H) as (i & Hi & Hd & Ho).
      exists i, (h ++ e), (skipn (N.to_nat n) d). split; [rewrite <- app_assoc; unfold e; now rewrite firstn_skipn|].
      split; [assumption|]. split; [intros X; rewrite X in Ho; revert Ho; vm_compute; congruence|]. rewrite len_app. lia.
  - right. right. destruct H as [n H|n H|n H|n H]; try (rewrite ?len_cons, ?len_le, ?len_nil in B; lia).
    rewrite len_cons, len_le in B. destruct (N.eq_dec n (2 ^ 32 - 5)) as [->|D].
    + left. do 4 right. exists d. reflexivity.
    + right. exists n, d. split; [reflexivity|lia].
Qed.

Lemma front b : b <> [] -> (exists i c r, b = c ++ r /\ whole i c) \/ unreadable b.
Proof.
  intros NE. destruct b as [|o b]; [contradiction|]. clear NE.
  destruct (is_push_data o) eqn:P; unfold is_push_data in P.
  2:{ destruct (byte_eqb o xff) eqn:F.
      - right. right. left. left. exists b. f_equal. now apply byte_eqb_eq.
      - left. exists (op_instr o), [o], b. split; [reflexivity|]. split; [constructor; cbn; lia|].
        split; [cbn [op_instr i_op]; intros ->; discriminate|]. vm_compute. reflexivity. }
  destruct (N.le_gt_cases (b2n o) 75) as [L|L].
  { replace o with (n2b (b2n o)) by apply n2b_b2n. apply (headed [n2b (b2n o)] (b2n o)). now constructor. }
  destruct (N.eq_dec (b2n o) 0x4c) as [E|E1].
  { apply (byte_of o x4c) in E. subst o. destruct b as [|s b]; [right; right; left; right; left; reflexivity|].
    replace (s :: b) with (le 1 (b2n s) ++ b). 2:{ change (le 1 (b2n s)) with [n2b (b2n s)]. rewrite n2b_b2n. reflexivity. }
    apply (headed (x4c :: le 1 (b2n s)) (b2n s)). constructor. pose proof (b2n_lt s). lia. }
  destruct (N.eq_dec (b2n o) 0x4d) as [E|E2].
  { apply (byte_of o x4d) in E. subst o. destruct (N.lt_ge_cases (len b) 2) as [C|C].
    - right; right; left. do 2 right. left. exists b. auto.
    - rewrite <- (firstn_skipn 2 b). assert (Q : length (firstn 2 b) = 2%nat) by (unfold len in C; rewrite firstn_length; lia).
      rewrite <- (le_le_val (firstn 2 b)), Q. apply (headed (x4d :: le 2 (le_val (firstn 2 b))) (le_val (firstn 2 b))). constructor.
      pose proof (le_val_bound (firstn 2 b)) as X. rewrite Q in X. exact X. }
  assert (E : b2n o = 0x4e) by lia. apply (byte_of o x4e) in E. subst o.
  destruct (N.lt_ge_cases (len b) 4) as [C|C].
  - right; right; left. do 3 right. left. exists b. auto.
  - rewrite <- (firstn_skipn 4 b). assert (Q : length (firstn 4 b) = 4%nat) by (unfold len in C; rewrite firstn_length; lia).
    rewrite <- (le_le_val (firstn 4 b)), Q. apply (headed (x4e :: le 4 (le_val (firstn 4 b))) (le_val (firstn 4 b))). constructor.
    pose proof (le_val_bound (firstn 4 b)) as X. rewrite Q in X. exact X.
Qed.

(* ---- push_size and push ---- *)
Lemma nonempty_match {A} (b : bytes) (x y : A) : b <> [] -> match b with [] => x | _ => y end = y.
Proof. destruct b; [contradiction|reflexivity]. Qed.
Lemma cut_ne b : cut b -> b <> [].
Proof. intros (h & n & d & H & -> & _). destruct H; discriminate. Qed.
Lemma sizeless_ne b : sizeless b -> b <> [].
Proof. intros [(r & ->) | [-> | [(r & -> & L) | [(r & -> & L) | (r & ->)]]]]; discriminate. Qed.
Lemma oversize_ne b : oversize b -> b <> [].
Proof. intros (n & r & -> & L). discriminate. Qed.
Lemma whole_ne i c r : whole i c -> c ++ r <> [].
Proof. intros (H & _). apply inst_nonempty in H. destruct c; [contradiction|discriminate]. Qed.
Lemma whole_pos i c : whole i c -> 0 < len c.
Proof. intros (H & _). apply inst_nonempty in H. destruct c; [contradiction|]. rewrite len_cons. lia. Qed.

Section Scans.
Variable neg1 : bytes.
Variable fuel : nat.
Notation scan := (scan neg1 fuel).
Notation pmatch := (pmatch neg1 fuel).

Lemma after_app (c r : bytes) : after (len c) (c ++ r) = Rest r.
Proof. unfold after. now rewrite skipn_len. Qed.

Lemma push_size_whole n var i c r v : whole i c ->
  scan_push_size neg1 n var (c ++ r) v =
  if len (push_value neg1 i) =? n then (put_opt var (push_value neg1 i) v, Rest r) else (v, Fail).
Proof.
  intros H. unfold scan_push_size. rewrite nonempty_match by (eapply whole_ne; eassumption).
  cbv zeta. rewrite (front_whole _ _ _ _ _ H), (next_whole _ _ _ H), after_app. reflexivity.
Qed.
Lemma push_size_cut n var b v : cut b -> scan_push_size neg1 n var b v = (v, Beyond).
Proof. intros H. unfold scan_push_size. rewrite nonempty_match by now apply cut_ne. now apply front_cut. Qed.
Lemma push_size_sizeless n var b v : sizeless b -> scan_push_size neg1 n var b v = (v, Escape (X_Invalid E_UNKNOWN_ERROR)).
Proof. intros H. unfold scan_push_size. rewrite nonempty_match by now apply sizeless_ne. now apply front_sizeless. Qed.
Lemma push_size_oversize n var b v : oversize b -> scan_push_size neg1 n var b v = (v, Escape X_EndOfStream).
Proof. intros H. unfold scan_push_size. rewrite nonempty_match by now apply oversize_ne. now apply front_oversize. Qed.

Theorem push_size_exact n var b v :
  (forall w r, scan (PPushSize n var) b v = (w, Rest r) <->
     exists i c, whole i c /\ b = c ++ r /\ len (push_value neg1 i) = n /\ w = put_opt var (push_value neg1 i) v) /\
  (snd (scan (PPushSize n var) b v) = Fail <->
     b = [] \/ exists i c r, whole i c /\ b = c ++ r /\ len (push_value neg1 i) <> n) /\
  (snd (scan (PPushSize n var) b v) = Beyond <-> cut b) /\
  (snd (scan (PPushSize n var) b v) = Escape (X_Invalid E_UNKNOWN_ERROR) <-> sizeless b) /\
  (snd (scan (PPushSize n var) b v) = Escape X_EndOfStream <-> oversize b).
Proof.
  change (scan (PPushSize n var) b v) with (scan_push_size neg1 n var b v).
  assert (W : forall i c r, whole i c -> b = c ++ r -> scan_push_size neg1 n var b v =
     if len (push_value neg1 i) =? n then (put_opt var (push_value neg1 i) v, Rest r) else (v, Fail))
    by (intros i c r H ->; now apply push_size_whole).
  assert (F : b = [] \/ (exists i c r, b = c ++ r /\ whole i c) \/ unreadable b)
    by (destruct b as [|o b']; [left; reflexivity|right; apply front; discriminate]).
  assert (K : forall i c r i' c' r', whole i c -> whole i' c' -> b = c ++ r -> b = c' ++ r' -> i = i' /\ r = r').
  { intros i c r i' c' r' H H' E E'. pose proof (read_instr_of_form _ _ r (proj1 H)) as A.
    pose proof (read_instr_of_form _ _ r' (proj1 H')) as A'. rewrite <- E in A. rewrite <- E' in A'.
    split; congruence. }
  assert (N : b = [] -> scan_push_size neg1 n var b v = (v, Fail)) by (intros ->; reflexivity).
  pose proof (push_size_cut n var b v) as C. pose proof (push_size_sizeless n var b v) as Z. pose proof (push_size_oversize n var b v) as O.
  set (x := scan_push_size neg1 n var b v) in *. clearbody x.
  split; [|split; [|split; [|split]]].
  - intros w r. split.
    + intros E. destruct F as [F | [(i & c & r' & F & H) | [F | [F | F]]]].
      * rewrite (N F) in E. discriminate.
      * rewrite (W i c r' H F) in E. destruct (len (push_value neg1 i) =? n) eqn:D; [|discriminate].
        exists i, c. split; [assumption|]. assert (r' = r) by congruence. assert (w = put_opt var (push_value neg1 i) v) by congruence.
        subst r'. split; [assumption|]. split; [lia|assumption].
      * rewrite (C F) in E. discriminate.
      * rewrite (Z F) in E. discriminate.
      * rewrite (O F) in E. discriminate.
    + intros (i & c & H & E & L & ->). rewrite (W i c r H E). replace (_ =? n) with true by lia. reflexivity.
  - split.
    + intros E. destruct F as [F | [(i & c & r' & F & H) | [F | [F | F]]]].
      * now left.
      * right. exists i, c, r'. split; [assumption|]. split; [assumption|]. intros D. rewrite (W i c r' H F), D, N.eqb_refl in E. discriminate.
      * rewrite (C F) in E. discriminate.
      * rewrite (Z F) in E. discriminate.
      * rewrite (O F) in E. discriminate.
    + intros [E | (i & c & r & H & E & L)]; [rewrite (N E); reflexivity|].
      rewrite (W i c r H E). replace (_ =? n) with false by lia. reflexivity.
  - split.
    + intros E. destruct F as [F | [(i & c & r' & F & H) | [F | [F | F]]]]; auto.
      * rewrite (N F) in E. discriminate.
      * rewrite (W i c r' H F) in E. destruct (len (push_value neg1 i) =? n); discriminate.
      * rewrite (Z F) in E. discriminate.
      * rewrite (O F) in E. discriminate.
    + intros E. rewrite (C E). reflexivity.
  - split.
    + intros E. destruct F as [F | [(i & c & r' & F & H) | [F | [F | F]]]]; auto.
      * rewrite (N F) in E. discriminate.
      * rewrite (W i c r' H F) in E. destruct (len (push_value neg1 i) =? n); discriminate.
      * rewrite (C F) in E. discriminate.
      * rewrite (O F) in E. discriminate.
    + intros E. rewrite (Z E). reflexivity.
  - split.
    + intros E. destruct F as [F | [(i & c & r' & F & H) | [F | [F | F]]]]; auto.
      * rewrite (N F) in E. discriminate.
      * rewrite (W i c r' H F) in E. destruct (len (push_value neg1 i) =? n); discriminate.
      * rewrite (C F) in E. discriminate.
      * rewrite (Z F) in E. discriminate.
    + intros E. rewrite (O E). reflexivity.
Qed.

Lemma push_whole t i c r v : whole i c ->
  scan_push neg1 t (c ++ r) v = match push_match neg1 t i v with Some w => (w, Rest r) | None => (v, Fail) end.
Proof.
  intros H. unfold scan_push. rewrite nonempty_match by (eapply whole_ne; eassumption).
  cbv zeta. rewrite (front_whole _ _ _ _ _ H), (next_whole _ _ _ H), after_app.
  pose proof (whole_pos _ _ H). replace (len c =? 0) with false by lia. reflexivity.
Qed.
Lemma push_cut t b v : cut b -> scan_push neg1 t b v = (v, Beyond).
Proof.
  intros H. unfold scan_push. rewrite nonempty_match by now apply cut_ne. cbv zeta. pose proof (next_cut _ H).
  replace (next_size b =? 0) with false by lia. now apply front_cut.
Qed.
Lemma push_sizeless t b v : sizeless b -> scan_push neg1 t b v = (v, Fail).
Proof.
  intros H. unfold scan_push. rewrite nonempty_match by now apply sizeless_ne. cbv zeta. now rewrite (next_sizeless _ H).
Qed.
Lemma push_oversize t b v : oversize b -> scan_push neg1 t b v = (v, Escape X_EndOfStream).
Proof.
  intros H. unfold scan_push. rewrite nonempty_match by now apply oversize_ne. cbv zeta. pose proof (next_oversize _ H).
  replace (next_size b =? 0) with false by lia. now apply front_oversize.
Qed.

Theorem push_exact t b v :
  (forall w r, scan (PPush t) b v = (w, Rest r) <->
     exists i c, whole i c /\ b = c ++ r /\ push_match neg1 t i v = Some w) /\
  (snd (scan (PPush t) b v) = Fail <->
     b = [] \/ sizeless b \/ exists i c r, whole i c /\ b = c ++ r /\ push_match neg1 t i v = None) /\
  (snd (scan (PPush t) b v) = Beyond <-> cut b) /\
  (snd (scan (PPush t) b v) = Escape X_EndOfStream <-> oversize b).
Proof.
  change (scan (PPush t) b v) with (scan_push neg1 t b v).
  assert (W : forall i c r, whole i c -> b = c ++ r -> scan_push neg1 t b v =
     match push_match neg1 t i v with Some w => (w, Rest r) | None => (v, Fail) end)
    by (intros i c r H ->; now apply push_whole).
  assert (F : b = [] \/ (exists i c r, b = c ++ r /\ whole i c) \/ unreadable b)
    by (destruct b as [|o b']; [left; reflexivity|right; apply front; discriminate]).
  assert (N : b = [] -> scan_push neg1 t b v = (v, Fail)) by (intros ->; reflexivity).
  pose proof (push_cut t b v) as C. pose proof (push_sizeless t b v) as Z. pose proof (push_oversize t b v) as O.
  set (x := scan_push neg1 t b v) in *. clearbody x.
  split; [|split; [|split]].
  - intros w r. split.
    + intros E. destruct F as [F | [(i & c & r' & F & H) | [F | [F | F]]]].
      * rewrite (N F) in E. discriminate.
      * rewrite (W i c r' H F) in E. destruct (push_match neg1 t i v) as [w'|] eqn:D; [|discriminate].
        exists i, c. split; [assumption|]. assert (r' = r) by congruence. assert (w' = w) by congruence.
        subst r' w'. split; [assumption|reflexivity || assumption].
      * rewrite (C F) in E. discriminate.
      * rewrite (Z F) in E. discriminate.
      * rewrite (O F) in E. discriminate.
    + intros (i & c & H & E & L). rewrite (W i c r H E), L. reflexivity.
  - split.
    + intros E. destruct F as [F | [(i & c & r' & F & H) | [F | [F | F]]]].
      * now left.
      * right. right. exists i, c, r'. split; [assumption|]. split; [assumption|]. rewrite (W i c r' H F) in E.
        destruct (push_match neg1 t i v); [discriminate|reflexivity].
      * rewrite (C F) in E. discriminate.
      * auto.
      * rewrite (O F) in E. discriminate.
    + intros [E | [E | (i & c & r & H & E & L)]]; [rewrite (N E); reflexivity|rewrite (Z E); reflexivity|].
      rewrite (W i c r H E), L. reflexivity.
  - split.
    + intros E. destruct F as [F | [(i & c & r' & F & H) | [F | [F | F]]]]; auto.
      * rewrite (N F) in E. discriminate.
      * rewrite (W i c r' H F) in E. destruct (push_match neg1 t i v); discriminate.
      * rewrite (Z F) in E. discriminate.
      * rewrite (O F) in E. discriminate.
    + intros E. rewrite (C E). reflexivity.
  - split.
    + intros E. destruct F as [F | [(i & c & r' & F & H) | [F | [F | F]]]]; auto.
      * rewrite (N F) in E. discriminate.
      * rewrite (W i c r' H F) in E. destruct (push_match neg1 t i v); discriminate.
      * rewrite (C F) in E. discriminate.
      * rewrite (Z F) in E. discriminate.
    + intros E. rewrite (O E). reflexivity.
Qed.

(* ---- atoms ---- *)
Definition opcode (o : byte) : Prop := 0x4e < b2n o /\ o <> xff.
Lemma opcode_whole o : opcode o -> whole (op_instr o) [o].
Proof. intros (H & D). split; [now constructor|]. split; [assumption|]. vm_compute. reflexivity. Qed.
Lemma instr_eqb_eq i j : instr_eqb i j = true <-> i = j.
Proof.
  destruct i as [o d], j as [o' d']. unfold instr_eqb; cbn [i_op i_data]. rewrite andb_true_iff, byte_eqb_eq, bytes_eqb_eq. split.
  - intros [-> ->]. reflexivity.
  - intros E. split; congruence.
Qed.
Lemma inst_op i c : is_inst i c -> exists s, c = i_op i :: s.
Proof. intros H. destruct H; eexists; reflexivity. Qed.
Lemma atom_whole i j c r v : whole j c ->
  scan_atom i (c ++ r) v = if instr_eqb i j then (v, Rest r) else (v, Fail).
Proof.
  intros H. unfold scan_atom. destruct (inst_op _ _ (proj1 H)) as (s & E).
  rewrite (front_whole _ _ _ _ _ H), (next_whole _ _ _ H), after_app, E. cbn [app].
  destruct (byte_eqb (i_op j) (i_op i)) eqn:O; cbn [negb].
  - rewrite !len_cons, len_app. replace (1 + (len s + len r) <? 1 + len s) with false by lia. reflexivity.
  - destruct (instr_eqb i j) eqn:Q; [|reflexivity]. apply instr_eqb_eq in Q. subst j.
    assert (byte_eqb (i_op i) (i_op i) = true) by now apply byte_eqb_eq. congruence.
Qed.
Lemma atom_op o p v : opcode o -> scan_atom (op_instr o) p v = match p with c :: r => if byte_eqb c o then (v, Rest r) else (v, Fail) | [] => (v, Fail) end.
Proof.
  intros H. destruct p as [|c r]; [reflexivity|]. unfold scan_atom. cbn [op_instr i_op].
  destruct (byte_eqb c o) eqn:E; [|reflexivity]. apply byte_eqb_eq in E. subst c. cbn [negb]. cbv zeta.
  pose proof (next_whole _ _ r (opcode_whole o H)) as X. cbn [app] in X. rewrite X.
  pose proof (front_whole (fun j => if instr_eqb (op_instr o) j then (v, after (len [o]) (o :: r)) else (v, Fail)) v _ _ r (opcode_whole o H)) as Y. cbn [app] in Y. rewrite X in Y. change (op_instr o) with {| i_op := o; i_data := [] |} in *.
  rewrite Y. replace (instr_eqb _ _) with true by (symmetry; now apply instr_eqb_eq).
  replace (len (o :: r) <? len [o]) with false by (rewrite !len_cons, len_nil; lia). reflexivity.
Qed.

Fixpoint strip (l : list byte) (p : bytes) : option bytes :=
  match l with
  | [] => Some p
  | o :: l => match p with c :: r => if byte_eqb c o then strip l r else None | [] => None end
  end.
Lemma strip_exact l p r : strip l p = Some r <-> p = l ++ r.
Proof.
  revert p. induction l as [|o l IH]; intros p; cbn [strip app].
  - split; congruence.
  - destruct p as [|c p]; [split; discriminate|]. destruct (byte_eqb c o) eqn:E.
    + apply byte_eqb_eq in E. subst c. rewrite IH. split; congruence.
    + split; [discriminate|]. intros X. assert (c = o) by congruence. apply byte_eqb_eq in H. congruence.
Qed.
Lemma seq_cons x l p v : scan (PSeq (x :: l)) p v = match scan x p v with (w, Rest r) => scan (PSeq l) r w | y => y end.
Proof. reflexivity. Qed.
Lemma seq_nil p v : scan (PSeq []) p v = (v, Rest p).
Proof. reflexivity. Qed.
Lemma alt_cons x l p v : scan (PAlt (x :: l)) p v = match scan x p v with (w, Fail) => scan (PAlt l) p w | y => y end.
Proof. reflexivity. Qed.
Lemma alt_nil p v : scan (PAlt []) p v = (v, Fail).
Proof. reflexivity. Qed.
Lemma seq_ops l q p v : Forall opcode l ->
  scan (PSeq (map (fun o => PAtom (op_instr o)) l ++ q)) p v = match strip l p with Some r => scan (PSeq q) r v | None => (v, Fail) end.
Proof.
  intros H. revert p. induction H as [|o l O H IH]; intros p; [reflexivity|].
  cbn [map app strip]. rewrite seq_cons. change (scan (PAtom (op_instr o)) p v) with (scan_atom (op_instr o) p v). rewrite atom_op by assumption.
  destruct p as [|c r]; [reflexivity|]. destruct (byte_eqb c o); [apply IH|reflexivity].
Qed.

(* ---- templates ---- *)
Lemma data_push_header d c : data_push d c <-> exists h, push_header h (len d) /\ c = h ++ d.
Proof.
  clear. split.
  - intros H. destruct H.
    + exists [n2b (len d)]. split; [now constructor|reflexivity].
    + exists (x4c :: le 1 (len d)). split; [now constructor|reflexivity].
    + exists (x4d :: le 2 (len d)). split; [now constructor|reflexivity].
    + exists (x4e :: le 4 (len d)). split; [now constructor|reflexivity].
  - intros (h & H & ->). inversion H; subst; now constructor.
Qed.
Lemma value_data i c n : whole i c -> len (push_value neg1 i) = n -> 1 < n -> len neg1 < n -> data_push (push_value neg1 i) c.
Proof.
  intros (H & _) L N1 N2. apply inst_header in H as [(O & -> & D) | (h & H & -> & O)].
  - exfalso. unfold push_value, is_push_data in L. replace (b2n (i_op i) <=? 0x4e) with false in L by lia.
    rewrite D in L. destruct (byte_eqb (i_op i) OP_RETURN); cbn [orb] in L; [rewrite len_nil in L; lia|].
    destruct (is_push_op (i_op i)); cbn [negb] in L; [|rewrite len_nil in L; lia].
    destruct (byte_eqb (i_op i) OP_1NEGATE); [lia|]. rewrite len_cons, len_nil in L. lia.
  - assert (E : push_value neg1 i = i_data i).
    { unfold push_value, is_push_data. replace (b2n (i_op i) <=? 0x4e) with true by lia. reflexivity. }
    rewrite E. apply data_push_header. exists h. auto.
Qed.
Lemma data_whole d c : data_push d c -> len d < 2 ^ 31 -> exists i, whole i c /\ push_value neg1 i = d.
Proof.
  intros H L. apply data_push_header in H as (h & H & ->). destruct (header_inst _ _ H) as (i & Hi & D & O).
  exists i. split.
  - split; [assumption|]. split; [intros X; rewrite X in O; revert O; vm_compute; congruence|].
    rewrite len_app. inversion H; subst; rewrite ?len_cons, ?len_le, ?len_nil; lia.
  - unfold push_value, is_push_data. replace (b2n (i_op i) <=? 0x4e) with true by lia. exact D.
Qed.

Lemma push_size_data n k b v w r : 1 < n -> len neg1 < n -> n < 2 ^ 31 ->
  scan (PPushSize n (Some k)) b v = (w, Rest r) <-> exists d c, data_push d c /\ len d = n /\ b = c ++ r /\ w = put k d v.
Proof.
  intros N1 N2 N3. rewrite (proj1 (push_size_exact n (Some k) b v)). split.
  - intros (i & c & H & E & L & ->). exists (push_value neg1 i), c. split; [eapply value_data; eassumption|]. auto.
  - intros (d & c & H & L & E & ->). destruct (data_whole d c H) as (i & Hi & V); [lia|].
    exists i, c. rewrite V. auto.
Qed.

(* opcodes, a push of n bytes, opcodes *)
Definition around (pre post : list byte) (n : N) : pat :=
  PSeq (map (fun o => PAtom (op_instr o)) pre ++ PPushSize n (Some 0%nat) :: map (fun o => PAtom (op_instr o)) post).
Lemma around_scan pre post n s v : Forall opcode pre -> Forall opcode post ->
  scan (around pre post n) s v =
  match strip pre s with
  | None => (v, Fail)
  | Some t =>
    match scan (PPushSize n (Some 0%nat)) t v with
    | (w, Rest r) => match strip post r with Some u => (w, Rest u) | None => (w, Fail) end
    | y => y
    end
  end.
Proof.
  intros A B. unfold around. rewrite seq_ops by assumption. destruct (strip pre s) as [t|]; [|reflexivity].
  rewrite seq_cons. destruct (scan (PPushSize n (Some 0%nat)) t v) as [w [r| | | |]]; try reflexivity.
  rewrite <- (app_nil_r (map _ post)), seq_ops by assumption. destruct (strip post r); reflexivity.
Qed.

Lemma around_exact pre post n s v w : Forall opcode pre -> Forall opcode post -> 1 < n -> len neg1 < n -> n < 2 ^ 31 ->
  pmatch (around pre post n) s v = (w, Matched true) <->
  exists d c, data_push d c /\ len d = n /\ s = pre ++ c ++ post /\ w = put 0 d v.
Proof.
  intros A B N1 N2 N3. unfold PatternModel.pmatch. rewrite around_scan by assumption. split.
  - destruct (strip pre s) as [t|] eqn:P; [|discriminate]. apply strip_exact in P. subst s.
    destruct (scan (PPushSize n (Some 0%nat)) t v) as [x [r| | | |]] eqn:E; try discriminate.
    apply push_size_data in E as (d & c & H & L & -> & ->); try assumption.
    destruct (strip post r) as [u|] eqn:Q; [|discriminate]. apply strip_exact in Q. subst r.
    intros X. assert (L0 : (len u =? 0) = true) by congruence. assert (u = []) by (apply len_0; lia). subst u.
    rewrite app_nil_r. exists d, c. split; [assumption|]. split; [assumption|]. split; [reflexivity|congruence].
  - intros (d & c & H & L & -> & ->). replace (strip pre (pre ++ c ++ post)) with (Some (c ++ post)) by (symmetry; now apply strip_exact).
    assert (E : scan (PPushSize n (Some 0%nat)) (c ++ post) v = (put 0 d v, Rest post)).
    { apply push_size_data; try assumption. exists d, c. auto. }
    rewrite E. replace (strip post post) with (Some (@nil byte)) by (symmetry; apply strip_exact; now rewrite app_nil_r). reflexivity.
Qed.

Lemma around_ends pre post n s v : Forall opcode pre -> Forall opcode post ->
  (exists b, snd (pmatch (around pre post n) s v) = Matched b) <-> ~ exists t, s = pre ++ t /\ unreadable t.
Proof.
  intros A B. unfold PatternModel.pmatch. rewrite around_scan by assumption.
  destruct (strip pre s) as [t|] eqn:P.
  2:{ split; [|intros _; exists false; reflexivity]. intros _ (t & E & _). apply strip_exact in E. congruence. }
  apply strip_exact in P. subst s.
  assert (T : (exists t', pre ++ t = pre ++ t' /\ unreadable t') <-> unreadable t).
  { split; [intros (t' & E & U); apply app_inv_head in E; now subst|]. intros U. now exists t. }
  rewrite T. clear T. destruct (push_size_exact n (Some 0%nat) t v) as (E1 & E2 & E3 & E4 & E5).
  destruct (scan (PPushSize n (Some 0%nat)) t v) as [w [r| |e| |]] eqn:E; cbn [snd] in *.
  - split.
    + intros _ [U | [U | U]]; [apply E3 in U|apply E4 in U|apply E5 in U]; discriminate.
    + intros _. destruct (strip post r); eexists; reflexivity.
  - split; [|intros _; exists false; reflexivity]. intros _ [U | [U | U]]; [apply E3 in U|apply E4 in U|apply E5 in U]; discriminate.
  - split; [intros (b & X); discriminate|]. intros U. exfalso. apply U.
    assert (O : sizeless t \/ oversize t).
    { change (scan (PPushSize n (Some 0%nat)) t v) with (scan_push_size neg1 n (Some 0%nat) t v) in E.
      destruct t as [|o t]; [discriminate|]. destruct (front (o :: t)) as [(i & c & r & F & H) | [F | F]]; [discriminate| | |exact F].
      - rewrite F, (push_size_whole _ _ _ _ _ _ H) in E. destruct (len (push_value neg1 i) =? n); discriminate.
      - rewrite (push_size_cut _ _ _ _ F) in E. discriminate. }
    unfold unreadable. tauto.
  - split; [intros (b & X); discriminate|]. intros U. exfalso. apply U. left. now apply E3.
  - exfalso. change (scan (PPushSize n (Some 0%nat)) t v) with (scan_push_size neg1 n (Some 0%nat) t v) in E.
    destruct t as [|o t]; [discriminate|]. destruct (front (o :: t)) as [(i & c & r & F & H) | [F | [F | F]]]; [discriminate| | | |].
    + rewrite F, (push_size_whole _ _ _ _ _ _ H) in E. destruct (len (push_value neg1 i) =? n); discriminate.
    + rewrite (push_size_cut _ _ _ _ F) in E. discriminate.
    + rewrite (push_size_sizeless _ _ _ _ F) in E. discriminate.
    + rewrite (push_size_oversize _ _ _ _ F) in E. discriminate.
Qed.

(* ---- pay to public key ---- *)
Lemma push_size_fail_v n var b v w : scan_push_size neg1 n var b v = (w, Fail) -> w = v.
Proof.
  destruct b as [|o b]; [cbn; congruence|]. destruct (front (o :: b)) as [(i & c & r & F & H) | [F | [F | F]]]; [discriminate| | | |].
  - rewrite F, (push_size_whole _ _ _ _ _ _ H). destruct (len (push_value neg1 i) =? n); congruence.
  - rewrite (push_size_cut _ _ _ _ F). discriminate.
  - rewrite (push_size_sizeless _ _ _ _ F). discriminate.
  - rewrite (push_size_oversize _ _ _ _ F). discriminate.
Qed.

Definition two_sizes (m n : N) (t : bytes) (v : vars) : vars * sres :=
  match scan (PPushSize m (Some 0%nat)) t v with
  | (_, Fail) => scan (PPushSize n (Some 0%nat)) t v
  | y => y
  end.
Lemma pubkey_scan s v :
  scan p2p_pattern s v =
  match two_sizes 33 65 s v with
  | (w, Rest r) => match strip [OP_CHECKSIG] r with Some u => (w, Rest u) | None => (w, Fail) end
  | y => y
  end.
Proof.
  unfold p2p_pattern, pubkey_pattern, pattern_of, two_sizes. cbn [map construct]. rewrite !seq_cons, alt_cons.
  change (scan (PPushSize 33 (Some 0%nat)) s v) with (scan_push_size neg1 33 (Some 0%nat) s v).
  destruct (scan_push_size neg1 33 (Some 0%nat) s v) as [w [r| |e| |]] eqn:E; try reflexivity.
  - rewrite seq_nil. change (PSeq [PAtom (op_instr OP_CHECKSIG)]) with (PSeq (map (fun o => PAtom (op_instr o)) [OP_CHECKSIG] ++ [])).
    rewrite seq_ops. 2:{ constructor; [|constructor]. split; [vm_compute; reflexivity|discriminate]. }
    destruct (strip [OP_CHECKSIG] r); reflexivity.
  - apply push_size_fail_v in E. subst w. rewrite alt_cons. destruct (scan (PPushSize 65 (Some 0%nat)) s v) as [w [r| |e| |]] eqn:E; try reflexivity.
    rewrite seq_nil. change (PSeq [PAtom (op_instr OP_CHECKSIG)]) with (PSeq (map (fun o => PAtom (op_instr o)) [OP_CHECKSIG] ++ [])).
    rewrite seq_ops. 2:{ constructor; [|constructor]. split; [vm_compute; reflexivity|discriminate]. }
    destruct (strip [OP_CHECKSIG] r); reflexivity.
Qed.
Lemma two_sizes_exact m n t v w r : m <> n -> 1 < m -> len neg1 < m -> m < 2 ^ 31 -> 1 < n -> len neg1 < n -> n < 2 ^ 31 ->
  two_sizes m n t v = (w, Rest r) <-> exists d c, data_push d c /\ (len d = m \/ len d = n) /\ t = c ++ r /\ w = put 0 d v.
Proof.
  intros D M1 M2 M3 N1 N2 N3. unfold two_sizes. split.
  - destruct (scan (PPushSize m (Some 0%nat)) t v) as [x [y| | | |]] eqn:E; intros X; try discriminate.
    + assert (x = w) by congruence. assert (y = r) by congruence. subst x y.
      apply push_size_data in E as (d & c & H & L & -> & ->); try assumption. exists d, c. auto.
    + apply push_size_data in X as (d & c & H & L & -> & ->); try assumption. exists d, c. auto.
  - intros (d & c & H & L & -> & ->). destruct L as [L|L].
    + replace (scan (PPushSize m (Some 0%nat)) (c ++ r) v) with (put 0 d v, Rest r); [reflexivity|].
      symmetry. apply push_size_data; try assumption. exists d, c. auto.
    + destruct (data_whole d c H) as (i & Hi & V); [lia|].
      change (scan (PPushSize m (Some 0%nat)) (c ++ r) v) with (scan_push_size neg1 m (Some 0%nat) (c ++ r) v).
      rewrite (push_size_whole _ _ _ _ _ _ Hi), V. replace (len d =? m) with false by lia.
      apply push_size_data; try assumption. exists d, c. auto.
Qed.
Lemma two_sizes_unreadable m n t v : unreadable t -> match snd (two_sizes m n t v) with Rest _ | Fail | Endless => False | _ => True end.
Proof.
  unfold two_sizes. intros [F | [F | F]];
  change (scan (PPushSize m (Some 0%nat)) t v) with (scan_push_size neg1 m (Some 0%nat) t v).
  - rewrite (push_size_cut _ _ _ _ F). exact Logic.I.
  - rewrite (push_size_sizeless _ _ _ _ F). exact Logic.I.
  - rewrite (push_size_oversize _ _ _ _ F). exact Logic.I.
Qed.
Lemma two_sizes_readable m n t v : ~ unreadable t -> match snd (two_sizes m n t v) with Rest _ | Fail => True | _ => False end.
Proof.
  unfold two_sizes. intros U. change (scan (PPushSize m (Some 0%nat)) t v) with (scan_push_size neg1 m (Some 0%nat) t v).
  change (scan (PPushSize n (Some 0%nat)) t v) with (scan_push_size neg1 n (Some 0%nat) t v).
  destruct t as [|o t]; [exact Logic.I|]. destruct (front (o :: t)) as [(i & c & r & F & H) | F]; [discriminate| |contradiction].
  rewrite F, !(push_size_whole _ _ _ _ _ _ H). destruct (len (push_value neg1 i) =? m), (len (push_value neg1 i) =? n); exact Logic.I.
Qed.

Theorem pubkey_exact s v w : len neg1 < 33 ->
  pmatch p2p_pattern s v = (w, Matched true) <-> exists d, pubkey_script d s /\ w = put 0 d v.
Proof.
  intros N. unfold PatternModel.pmatch. rewrite pubkey_scan. split.
  - destruct (two_sizes 33 65 s v) as [x [r| | | |]] eqn:E; try discriminate.
    apply two_sizes_exact in E as (d & c & H & L & -> & ->); try lia.
    destruct (strip [OP_CHECKSIG] r) as [u|] eqn:Q; [|discriminate]. apply strip_exact in Q. subst r.
    intros X. assert (L0 : (len u =? 0) = true) by congruence. assert (u = []) by (apply len_0; lia). subst u.
    exists d. split; [exists c; auto|congruence].
  - intros (d & (c & H & L & ->) & ->).
    replace (two_sizes 33 65 (c ++ [xac]) v) with (put 0 d v, Rest [xac]). 2:{ symmetry. apply two_sizes_exact; try lia. exists d, c. auto. }
    reflexivity.
Qed.
Theorem pubkey_ends s v : (exists b, snd (pmatch p2p_pattern s v) = Matched b) <-> ~ unreadable s.
Proof.
  unfold PatternModel.pmatch. rewrite pubkey_scan. split.
  - intros (b & E) U. apply (two_sizes_unreadable 33 65 s v) in U. destruct (two_sizes 33 65 s v) as [w [r| |e| |]]; cbn [snd] in *; try contradiction; discriminate.
  - intros U. apply (two_sizes_readable 33 65 s v) in U. destruct (two_sizes 33 65 s v) as [w [r| |e| |]]; cbn [snd] in *; try contradiction.
    + destruct (strip [OP_CHECKSIG] r); eexists; reflexivity.
    + eexists; reflexivity.
Qed.

(* ---- the other three ---- *)
Ltac opcodes := repeat (constructor; [split; [vm_compute; reflexivity|discriminate]|]); constructor.
Theorem address_exact s v w : len neg1 < 20 ->
  pmatch p2a_pattern s v = (w, Matched true) <-> exists d, address_script d s /\ w = put 0 d v.
Proof.
  intros N. change p2a_pattern with (around [OP_DUP; OP_HASH160] [OP_EQUALVERIFY; OP_CHECKSIG] 20).
  rewrite around_exact by (solve [opcodes] || lia). split.
  - intros (d & c & H & L & E & W). exists d. split; [exists c; auto|assumption].
  - intros (d & (c & H & L & E) & W). exists d, c. auto.
Qed.
Theorem hash_exact s v w : len neg1 < 20 ->
  pmatch p2h_pattern s v = (w, Matched true) <-> exists d, hash_script d s /\ w = put 0 d v.
Proof.
  intros N. change p2h_pattern with (around [OP_HASH160] [OP_EQUALVERIFY] 20).
  rewrite around_exact by (solve [opcodes] || lia). split.
  - intros (d & c & H & L & E & W). exists d. split; [exists c; auto|assumption].
  - intros (d & (c & H & L & E) & W). exists d, c. auto.
Qed.
Theorem script_hash_exact s v w : len neg1 < 20 ->
  pmatch p2sh_pattern s v = (w, Matched true) <-> exists d, script_hash_script d s /\ w = put 0 d v.
Proof.
  intros N. change p2sh_pattern with (around [OP_HASH160] [OP_EQUAL] 20).
  rewrite around_exact by (solve [opcodes] || lia). split.
  - intros (d & c & H & L & E & W). exists d. split; [exists c; auto|assumption].
  - intros (d & (c & H & L & E) & W). exists d, c. auto.
Qed.
Theorem address_ends s v : (exists b, snd (pmatch p2a_pattern s v) = Matched b) <-> ~ exists t, s = [x76; xa9] ++ t /\ unreadable t.
Proof. apply (around_ends [OP_DUP; OP_HASH160] [OP_EQUALVERIFY; OP_CHECKSIG] 20); opcodes. Qed.
Theorem hash_ends s v : (exists b, snd (pmatch p2h_pattern s v) = Matched b) <-> ~ exists t, s = [xa9] ++ t /\ unreadable t.
Proof. apply (around_ends [OP_HASH160] [OP_EQUALVERIFY] 20); opcodes. Qed.
Theorem script_hash_ends s v : (exists b, snd (pmatch p2sh_pattern s v) = Matched b) <-> ~ exists t, s = [xa9] ++ t /\ unreadable t.
Proof. apply (around_ends [OP_HASH160] [OP_EQUAL] 20); opcodes. Qed.

(* ---- scanning in general ---- *)
Lemma suffix_skip (b : bytes) n : exists c, b = c ++ skipn n b.
Proof. exists (firstn n b). now rewrite firstn_skipn. Qed.
Lemma read_front_rest k b f v w r : read_front k b f v = (w, Rest r) -> exists i, f i = (w, Rest r).
Proof.
  unfold read_front. destruct (len b <? k); [discriminate|]. destruct (instr_read _) as [i|e|]; try discriminate. intros H. now exists i.
Qed.
Lemma loop_suffix step mn mx n : (forall p v w r, step p v = (w, Rest r) -> exists c, p = c ++ r) ->
  forall m p v w r, repeat_loop step mn mx n m p v = (w, Rest r) -> exists c, p = c ++ r.
Proof.
  intros H. induction n as [|n IH]; intros m p v w r; cbn [repeat_loop]; [discriminate|].
  destruct (step p v) as [x [y| | | |]] eqn:E; try discriminate.
  - destruct (H _ _ _ _ E) as (c & ->). destruct (Z.of_N ((m + 1) mod 2 ^ 32) =? mx)%Z.
    + intros X. exists c. congruence.
    + intros X. destruct (IH _ _ _ _ _ X) as (c' & ->). exists (c ++ c'). now rewrite app_assoc.
  - destruct (m <? mn); [discriminate|]. intros X. exists []. cbn [app]. congruence.
Qed.
End Scans.

Fixpoint pat_ind' (P : pat -> Prop) (h0 : P PEmpty) (h1 : P PAny) (h2 : forall i, P (PAtom i)) (h3 : forall b, P (PString b))
  (h4 : forall t, P (PPush t)) (h5 : forall n v, P (PPushSize n v)) (h6 : forall l, Forall P l -> P (PSeq l))
  (h7 : forall p, P p -> P (POptional p)) (h8 : forall l, Forall P l -> P (PAlt l))
  (h9 : forall p a b d, P p -> P (PRepeat p a b d)) (h10 : forall p, P p -> P (PReturn p)) (q : pat) : P q :=
  let all := fix all (l : list pat) : Forall P l := match l with [] => Forall_nil P | x :: l => Forall_cons x (pat_ind' P h0 h1 h2 h3 h4 h5 h6 h7 h8 h9 h10 x) (all l) end in
  match q with
  | PEmpty => h0 | PAny => h1 | PAtom i => h2 i | PString b => h3 b | PPush t => h4 t | PPushSize n v => h5 n v
  | PSeq l => h6 l (all l)
  | POptional p => h7 p (pat_ind' P h0 h1 h2 h3 h4 h5 h6 h7 h8 h9 h10 p)
  | PAlt l => h8 l (all l)
  | PRepeat p a b d => h9 p a b d (pat_ind' P h0 h1 h2 h3 h4 h5 h6 h7 h8 h9 h10 p)
  | PReturn p => h10 p (pat_ind' P h0 h1 h2 h3 h4 h5 h6 h7 h8 h9 h10 p)
  end.

Theorem scan_suffix neg1 fuel q : forall p v w r, scan neg1 fuel q p v = (w, Rest r) -> exists c, p = c ++ r.
Proof.
  induction q as [| |i|s|t|n var|l H|q IH|l H|q a b d IH|q IH] using pat_ind'; intros p v w r.
  - cbn. intros E. exists []. cbn [app]. congruence.
  - cbn [scan]. unfold scan_any. destruct p; [discriminate|]. cbv zeta. destruct (_ <? _); [discriminate|].
    unfold after. intros E. replace r with (skipn (N.to_nat (next_size (b :: p))) (b :: p)) by congruence. apply suffix_skip.
  - cbn [scan]. unfold scan_atom. destruct p; [discriminate|]. destruct (negb _); [discriminate|]. cbv zeta. destruct (_ <? _); [discriminate|].
    intros E. apply read_front_rest in E as (j & E). destruct (instr_eqb i j); [|discriminate]. unfold after in E.
    replace r with (skipn (N.to_nat (next_size (b :: p))) (b :: p)) by congruence. apply suffix_skip.
  - cbn [scan]. unfold scan_string. destruct (_ <? _)%nat; [discriminate|]. destruct (bytes_eqb _ _); [|discriminate].
    intros E. replace r with (skipn (length s) p) by congruence. apply suffix_skip.
  - cbn [scan]. unfold scan_push. destruct p; [discriminate|]. cbv zeta. destruct (_ =? _); [discriminate|].
    intros E. apply read_front_rest in E as (j & E). destruct (push_match neg1 t j v); [|discriminate]. unfold after in E.
    replace r with (skipn (N.to_nat (next_size (b :: p))) (b :: p)) by congruence. apply suffix_skip.
  - cbn [scan]. unfold scan_push_size. destruct p; [discriminate|]. cbv zeta.
    intros E. apply read_front_rest in E as (j & E). destruct (_ =? n); [|discriminate]. unfold after in E.
    replace r with (skipn (N.to_nat (next_size (b :: p))) (b :: p)) by congruence. apply suffix_skip.
  - revert p v. induction H as [|x l Hx H IH]; intros p v.
    + rewrite seq_nil. intros E. exists []. cbn [app]. congruence.
    + rewrite seq_cons. destruct (scan neg1 fuel x p v) as [y [z| | | |]] eqn:E; try discriminate.
      destruct (Hx _ _ _ _ E) as (c & ->). intros X. destruct (IH _ _ X) as (c' & ->). exists (c ++ c'). now rewrite app_assoc.
  - cbn [scan]. destruct (scan neg1 fuel q p v) as [y [z| | | |]] eqn:E; try discriminate.
    + intros X. apply (IH p v y). congruence.
    + intros X. exists []. cbn [app]. congruence.
  - revert v. induction H as [|x l Hx H IH]; intros v.
    + rewrite alt_nil. discriminate.
    + rewrite alt_cons. destruct (scan neg1 fuel x p v) as [y [z| | | |]] eqn:E; try discriminate.
      * intros X. apply (Hx p v y). congruence.
      * apply IH.
  - cbn [scan]. apply loop_suffix. apply IH.
  - cbn [scan]. destruct p as [|c p]; [discriminate|]. destruct (byte_eqb c OP_RETURN); [|discriminate].
    intros E. destruct (IH _ _ _ _ E) as (d & ->). now exists (c :: d).
Qed.

Lemma read_front_endless k b f v : (forall i, snd (f i) <> Endless) -> snd (read_front k b f v) <> Endless.
Proof.
  unfold read_front. intros H. destruct (len b <? k); [discriminate|]. destruct (instr_read _) as [i|e|]; try discriminate. apply H.
Qed.
Lemma plain_seq x l : plain (PSeq (x :: l)) = plain x && plain (PSeq l).
Proof. reflexivity. Qed.
Lemma plain_alt x l : plain (PAlt (x :: l)) = plain x && plain (PAlt l).
Proof. reflexivity. Qed.
Theorem plain_ends neg1 fuel q : plain q = true -> forall p v, snd (scan neg1 fuel q p v) <> Endless.
Proof.
  induction q as [| |i|s|t|n var|l H|q IH|l H|q a b d IH|q IH] using pat_ind'; intros P p v.
  - discriminate.
  - cbn [scan]. unfold scan_any. destruct p; [discriminate|]. cbv zeta. destruct (_ <? _); discriminate.
  - cbn [scan]. unfold scan_atom. destruct p; [discriminate|]. destruct (negb _); [discriminate|]. cbv zeta. destruct (_ <? _); [discriminate|].
    apply read_front_endless. intros j. destruct (instr_eqb i j); discriminate.
  - cbn [scan]. unfold scan_string. destruct (_ <? _)%nat; [discriminate|]. destruct (bytes_eqb _ _); discriminate.
  - cbn [scan]. unfold scan_push. destruct p; [discriminate|]. cbv zeta. destruct (_ =? _); [discriminate|].
    apply read_front_endless. intros j. destruct (push_match neg1 t j v); discriminate.
  - cbn [scan]. unfold scan_push_size. destruct p; [discriminate|]. cbv zeta.
    apply read_front_endless. intros j. destruct (_ =? n); discriminate.
  - revert p v P. induction H as [|x l Hx H IH]; intros p v P.
    + rewrite seq_nil. discriminate.
    + rewrite plain_seq in P. apply andb_prop in P as [P1 P2]. rewrite seq_cons. pose proof (Hx P1 p v) as X.
      destruct (scan neg1 fuel x p v) as [y [z| | | |]]; try discriminate; [now apply IH|exact X].
  - cbn [scan]. pose proof (IH P p v) as X. destruct (scan neg1 fuel q p v) as [y [z| | | |]]; try discriminate. exact X.
  - revert v P. induction H as [|x l Hx H IH]; intros v P.
    + rewrite alt_nil. discriminate.
    + rewrite plain_alt in P. apply andb_prop in P as [P1 P2]. rewrite alt_cons. pose proof (Hx P1 p v) as X.
      destruct (scan neg1 fuel x p v) as [y [z| | | |]]; try discriminate; [now apply IH|exact X].
  - discriminate.
  - cbn [scan]. destruct p as [|c p]; [discriminate|]. destruct (byte_eqb c OP_RETURN); [|discriminate]. now apply IH.
Qed.
