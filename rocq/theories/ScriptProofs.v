(* Proofs about script instructions, programs and the program counter. *)
From Verif Require Import Base BaseProofs WireProofs ScriptModel ScriptSpec.
From Coq Require Import ZifyBool ZifyNat ZifyN.
Ltac Zify.zify_post_hook ::= Z.div_mod_to_equations.
Local Open Scope N_scope.

Lemma rd_le_app k n rest : n < pow256 k -> rd_le k (le k n ++ rest) = Some (n, rest).
Proof. intros H. exact (c_rt _ _ _ (codec_le k) n rest H). Qed.

Lemma rd_le_inv k b n rest : rd_le k b = Some (n, rest) -> b = le k n ++ rest /\ n < pow256 k.
Proof.
  unfold rd_le, rd_bind, rd_ret. destruct (rd_bytes (N.of_nat k) b) as [[a r]|] eqn:E; [|discriminate].
  intros H; injection H as <- <-. apply rd_bytes_inv in E as [-> E].
  unfold len in E. assert (length a = k) by lia. subst k. rewrite le_le_val. split; [reflexivity|].
  apply le_val_bound.
Qed.

Lemma rd_le_none k b : rd_le k b = None <-> (length b < k)%nat.
Proof.
  unfold rd_le, rd_bind, rd_bytes, rd_ret. destruct (N.of_nat (length b) <? N.of_nat k) eqn:E; split; intros; try lia; try discriminate; reflexivity.
Qed.

Lemma len_cons x (d : bytes) : len (x :: d) = 1 + len d.
Proof. unfold len. cbn [length]. lia. Qed.
Lemma len_nil : len [] = 0. Proof. reflexivity. Qed.
Lemma len_le k n : len (le k n) = N.of_nat k.
Proof. unfold len. now rewrite le_length. Qed.
Lemma len_0 d : len d = 0 <-> d = [].
Proof. destruct d; unfold len; cbn; split; intros; try discriminate; try lia; auto. Qed.

Lemma firstn_len (a b : bytes) : firstn (N.to_nat (len a)) (a ++ b) = a.
Proof. unfold len. rewrite Nat2N.id. apply firstn_app_exact. Qed.
Lemma skipn_len (a b : bytes) : skipn (N.to_nat (len a)) (a ++ b) = b.
Proof. unfold len. rewrite Nat2N.id. apply skipn_app_exact. Qed.
Lemma len_firstn (b : bytes) n : n <= len b -> len (firstn (N.to_nat n) b) = n.
Proof. unfold len. intros. rewrite firstn_length. lia. Qed.

Lemma n2b_val n : n < 256 -> b2n (n2b n) = n.
Proof. intros. rewrite b2n_n2b. now rewrite N.mod_small. Qed.

Ltac byteq := rewrite ?byte_eqb_n in *;
  change (b2n x4c) with 0x4c in *; change (b2n x4d) with 0x4d in *; change (b2n x4e) with 0x4e in *;
  change (b2n x4f) with 0x4f in *; change (b2n x50) with 0x50 in *; change (b2n x60) with 0x60 in *;
  change (b2n x6a) with 0x6a in *.

Lemma byte_of o n : b2n o = b2n n -> o = n. Proof. apply b2n_inj. Qed.

(* ---- one instruction ---- *)

Lemma inst_write i c : is_inst i c -> c = instr_write i.
Proof.
  destruct i as [o d]. unfold is_inst, instr_write; cbn [i_op i_data]. intros H; inversion H; subst; clear H.
  - unfold is_push_data. rewrite n2b_val by lia.
    replace (len d <=? 0x4e) with true by lia. replace (len d <=? 75) with true by lia. reflexivity.
  - reflexivity.
  - reflexivity.
  - reflexivity.
  - unfold is_push_data. replace (b2n o <=? 0x4e) with false by lia. reflexivity.
Qed.

Lemma read_instr_of_form i c r : is_inst i c -> read_instr (c ++ r) = Ret (i, r).
Proof.
  destruct i as [o d]. unfold is_inst; cbn [i_op i_data]. intros H; inversion H; subst; clear H; unfold read_instr.
  - cbn [app]. unfold is_push_data, read_push. rewrite n2b_val by lia.
    replace (len d <=? 0x4e) with true by lia. replace (len d <=? 75) with true by lia.
    rewrite len_app. replace (len d + len r <? len d) with false by lia.
    now rewrite firstn_len, skipn_len.
  - cbn [app]. rewrite <- app_assoc. cbn [is_push_data read_push].
    change (b2n x4c <=? 0x4e) with true. change (b2n x4c <=? 75) with false. cbn iota.
    change (is_push_data x4c) with true. cbn iota. unfold read_push.
    change (b2n x4c <=? 75) with false. change (byte_eqb x4c x4c) with true. cbn iota.
    rewrite rd_le_app by assumption.
    rewrite len_app. replace (len d + len r <? len d) with false by lia.
    now rewrite firstn_len, skipn_len.
  - cbn [app]. rewrite <- app_assoc.
    change (is_push_data x4d) with true. cbn iota. unfold read_push.
    change (b2n x4d <=? 75) with false. change (byte_eqb x4d x4c) with false. change (byte_eqb x4d x4d) with true. cbn iota.
    rewrite rd_le_app by assumption.
    rewrite len_app. replace (len d + len r <? len d) with false by lia.
    now rewrite firstn_len, skipn_len.
  - cbn [app]. rewrite <- app_assoc.
    change (is_push_data x4e) with true. cbn iota. unfold read_push.
    change (b2n x4e <=? 75) with false. change (byte_eqb x4e x4c) with false. change (byte_eqb x4e x4d) with false. cbn iota.
    rewrite rd_le_app by assumption.
    rewrite len_app. replace (len d + len r <? len d) with false by lia.
    now rewrite firstn_len, skipn_len.
  - cbn [app]. unfold is_push_data. replace (b2n o <=? 0x4e) with false by lia. reflexivity.
Qed.

Lemma read_instr_form b i r : read_instr b = Ret (i, r) -> exists c, b = c ++ r /\ is_inst i c.
Proof.
  destruct b as [|o b]; [discriminate|]. unfold read_instr.
  destruct (is_push_data o) eqn:Ep.
  2:{ intros H; injection H as <- <-. exists [o]. split; [reflexivity|]. constructor. unfold is_push_data in Ep. lia. }
  unfold read_push. destruct (b2n o <=? 75) eqn:E75.
  { destruct (len b <? b2n o) eqn:El; [discriminate|]. intros H; injection H as <- <-.
    exists (o :: firstn (N.to_nat (b2n o)) b). split; [cbn; now rewrite firstn_skipn|].
    unfold is_inst; cbn. set (d := firstn _ b).
    assert (Hd : len d = b2n o) by (apply len_firstn; lia).
    assert (Ho : o = n2b (len d)) by (rewrite Hd; now rewrite n2b_b2n).
    rewrite Ho at 1 2. constructor. lia. }
  destruct (byte_eqb o OP_PUSHDATA1) eqn:E1.
  { apply byte_eqb_eq in E1; subst o. destruct (rd_le 1 b) as [[n b']|] eqn:R; [|discriminate].
    apply rd_le_inv in R as [-> Hn]. destruct (len b' <? n) eqn:El; [discriminate|]. intros H; injection H as <- <-.
    exists (x4c :: le 1 n ++ firstn (N.to_nat n) b'). split; [cbn; now rewrite <- ?app_assoc, firstn_skipn|].
    unfold is_inst; cbn [i_op i_data]. set (d := firstn _ b').
    assert (Hd : len d = n) by (apply len_firstn; lia). rewrite <- Hd. constructor. rewrite Hd. exact Hn. }
  destruct (byte_eqb o OP_PUSHDATA2) eqn:E2.
  { apply byte_eqb_eq in E2; subst o. destruct (rd_le 2 b) as [[n b']|] eqn:R; [|discriminate].
    apply rd_le_inv in R as [-> Hn]. destruct (len b' <? n) eqn:El; [discriminate|]. intros H; injection H as <- <-.
    exists (x4d :: le 2 n ++ firstn (N.to_nat n) b'). split; [cbn; now rewrite <- ?app_assoc, firstn_skipn|].
    unfold is_inst; cbn [i_op i_data]. set (d := firstn _ b').
    assert (Hd : len d = n) by (apply len_firstn; lia). rewrite <- Hd. constructor. rewrite Hd. exact Hn. }
  assert (o = x4e) as ->.
  { apply b2n_inj. change (b2n x4e) with 0x4e. unfold is_push_data in Ep. byteq. lia. }
  destruct (rd_le 4 b) as [[n b']|] eqn:R; [|discriminate].
  apply rd_le_inv in R as [-> Hn]. destruct (len b' <? n) eqn:El; [discriminate|]. intros H; injection H as <- <-.
  exists (x4e :: le 4 n ++ firstn (N.to_nat n) b'). split; [cbn; now rewrite <- ?app_assoc, firstn_skipn|].
  unfold is_inst; cbn [i_op i_data]. set (d := firstn _ b').
  assert (Hd : len d = n) by (apply len_firstn; lia). rewrite <- Hd. constructor. rewrite Hd. exact Hn.
Qed.

Theorem read_instr_exact b i r : read_instr b = Ret (i, r) <-> exists c, b = c ++ r /\ is_inst i c.
Proof.
  split; [apply read_instr_form|]. intros (c & -> & H). now apply read_instr_of_form.
Qed.

Lemma read_instr_noundef b : read_instr b <> Undef.
Proof.
  destruct b as [|o b]; [discriminate|]. unfold read_instr, read_push.
  destruct (is_push_data o); [|discriminate].
  destruct (b2n o <=? 75). { destruct (len b <? b2n o); discriminate. }
  destruct (byte_eqb o x4c). { destruct (rd_le 1 b) as [[n b']|]; [destruct (len b' <? n)|]; discriminate. }
  destruct (byte_eqb o x4d). { destruct (rd_le 2 b) as [[n b']|]; [destruct (len b' <? n)|]; discriminate. }
  destruct (rd_le 4 b) as [[n b']|]; [destruct (len b' <? n)|]; discriminate.
Qed.

Lemma inst_nonempty i c : is_inst i c -> c <> [].
Proof. destruct 1; discriminate. Qed.

Lemma inst_len i c : is_inst i c -> len c <= 5 + len (i_data i).
Proof.
  intros H. destruct H; rewrite ?len_cons, ?len_app, ?len_le, ?len_nil; lia.
Qed.

Lemma inst_size i c : is_inst i c -> len (i_data i) + 5 < 2 ^ 32 -> instr_size i = len c.
Proof.
  intros H L. unfold instr_size.
  destruct i as [o d]; unfold is_inst in H; cbn [i_op i_data] in *. inversion H; subst; clear H;
    rewrite ?len_cons, ?len_app, ?len_le, ?len_nil; unfold is_push_data; byteq.
  - rewrite n2b_val by lia. replace (len d =? 0x6a) with false by lia.
    replace (len d <=? 0x4e) with true by lia. replace (len d <=? 75) with true by lia. cbn [negb].
    rewrite N.mod_small; lia.
  - cbn -[N.modulo N.add]. change (76 =? 106) with false. change (76 <=? 78) with true. cbn [negb].
    change (76 <=? 75) with false. cbn iota. change (76 =? 76) with true. rewrite N.mod_small; lia.
  - change (77 =? 106) with false. change (77 <=? 78) with true. cbn [negb].
    change (77 <=? 75) with false. change (77 =? 76) with false. change (77 =? 77) with true. cbn iota.
    rewrite N.mod_small; lia.
  - change (78 =? 106) with false. change (78 <=? 78) with true. cbn [negb].
    change (78 <=? 75) with false. change (78 =? 76) with false. change (78 =? 77) with false. cbn iota.
    rewrite N.mod_small; lia.
  - replace (b2n o <=? 0x4e) with false by lia. cbn [negb].
    destruct (b2n o =? 0x6a); rewrite ?len_nil; rewrite N.mod_small; lia.
Qed.

Lemma inst_size_iff_known i c : is_inst i c ->
  (verify_instruction i = E_OK \/ verify_instruction i = E_BAD_OPCODE) /\
  (verify_instruction i = E_OK <-> known_op (i_op i)).
Proof.
  intros H. unfold verify_instruction, known_op.
  destruct i as [o d]; unfold is_inst in H; cbn [i_op i_data] in *.
  pose proof (b2n_lt o) as Ho.
  destruct ((b2n o =? 0xff) || (b2n o =? 0x50) || (b2n o =? 0x89) || (b2n o =? 0x8a) || (0xba <=? b2n o)) eqn:E.
  { split; [now right|]. split; [discriminate|]. intros; lia. }
  assert (K : b2n o < 0xba /\ b2n o <> 0x50 /\ b2n o <> 0x89 /\ b2n o <> 0x8a) by lia.
  destruct (is_push_data o) eqn:Ep; cbn [negb].
  - match goal with |- context [if ?c then E_PUSH_SIZE else E_OK] => assert (c = false) as -> end; [|tauto].
    unfold is_push_data in Ep. inversion H; subst; clear H.
    + rewrite n2b_val in * by lia. lia.
    + change (b2n x4c) with 0x4c in *. lia.
    + change (b2n x4d) with 0x4d in *. lia.
    + change (b2n x4e) with 0x4e in *. lia.
    + lia.
  - unfold is_push_data in Ep. inversion H; subst; clear H.
    + rewrite n2b_val in * by lia. lia.
    + discriminate.
    + discriminate.
    + discriminate.
    + change (0 <? len []) with false. tauto.
Qed.

Lemma verify0 i : instr_verify 0 i = verify_instruction i.
Proof. unfold instr_verify. change (has_flag FLAG_MINIMALDATA 0) with false. destruct (verify_instruction i); reflexivity. Qed.

(* ---- push ---- *)

Lemma int32_small n : n < 2 ^ 31 -> int32_of n = Z.of_N n.
Proof.
  intros. unfold int32_of. rewrite N.mod_small by lia. replace (n <? 2 ^ 31) with true by lia. reflexivity.
Qed.

Lemma small_push_spec d : small_push d = true <-> (d = [x81] \/ exists k, 1 <= k <= 16 /\ d = [n2b k]).
Proof.
  split.
  - destruct d as [|x [|? ?]]; cbn; try discriminate. intros H. apply orb_prop in H as [H|H].
    + left. f_equal. apply b2n_inj. change (b2n x81) with 0x81. lia.
    + right. exists (b2n x). rewrite n2b_b2n. split; [lia|reflexivity].
  - intros [-> | (k & Hk & ->)]; [reflexivity|]. unfold small_push. rewrite n2b_val by lia. lia.
Qed.

(* the four ways push can go, for data shorter than 2^31 *)
Lemma push_cases d : len d < 2 ^ 31 ->
  (d = [x81] /\ push d = op_instr OP_1NEGATE) \/
  (exists k, 1 <= k <= 16 /\ d = [n2b k] /\ push d = op_instr (n2b (0x50 + k))) \/
  (small_push d = false /\
     ((len d <= 75 /\ push d = {| i_op := n2b (len d); i_data := d |}) \/
      (75 < len d < 2 ^ 8 /\ push d = {| i_op := x4c; i_data := d |}) \/
      (2 ^ 8 <= len d < 2 ^ 16 /\ push d = {| i_op := x4d; i_data := d |}) \/
      (2 ^ 16 <= len d < 2 ^ 31 /\ push d = {| i_op := x4e; i_data := d |}))).
Proof.
  intros L. unfold push. rewrite int32_small by assumption.
  destruct (Z.of_N (len d) =? 0)%Z eqn:E0.
  { assert (d = []) as -> by (apply len_0; lia). right; right. split; [reflexivity|]. left. split; [vm_compute; discriminate|reflexivity]. }
  assert (big : forall e, e = (if (Z.of_N (len d) <=? 75)%Z then {| i_op := n2b (Z.to_N (Z.of_N (len d) mod 256)); i_data := d |}
      else if (Z.of_N (len d) <=? 255)%Z then {| i_op := x4c; i_data := d |}
      else if (Z.of_N (len d) <=? 65535)%Z then {| i_op := x4d; i_data := d |} else {| i_op := x4e; i_data := d |}) ->
      ((len d <= 75 /\ e = {| i_op := n2b (len d); i_data := d |}) \/
      (75 < len d < 2 ^ 8 /\ e = {| i_op := x4c; i_data := d |}) \/
      (2 ^ 8 <= len d < 2 ^ 16 /\ e = {| i_op := x4d; i_data := d |}) \/
      (2 ^ 16 <= len d < 2 ^ 31 /\ e = {| i_op := x4e; i_data := d |}))).
  { intros e He. destruct (Z.of_N (len d) <=? 75)%Z eqn:A.
    { left. split; [lia|]. subst e. f_equal. f_equal. rewrite Z.mod_small by lia. now rewrite N2Z.id. }
    destruct (Z.of_N (len d) <=? 255)%Z eqn:B. { right; left. split; [lia|assumption]. }
    destruct (Z.of_N (len d) <=? 65535)%Z eqn:C. { right; right; left. split; [lia|assumption]. }
    right; right; right. split; [lia|assumption]. }
  destruct d as [|x [|y d]].
  - discriminate.
  - clear big. destruct (b2n x =? 0x81) eqn:E81.
    { left. assert (x = x81) as -> by (apply b2n_inj; change (b2n x81) with 0x81; lia). split; reflexivity. }
    destruct ((1 <=? b2n x) && (b2n x <=? 16)) eqn:Es.
    { right; left. exists (b2n x). rewrite n2b_b2n, N.add_comm. split; [lia|split; reflexivity]. }
    right; right. split; [cbn; lia|]. left. split; [vm_compute; discriminate|reflexivity].
  - right; right. split; [reflexivity|]. apply big. reflexivity.
Qed.

Lemma push_inst d : len d < 2 ^ 31 -> is_inst (push d) (instr_write (push d)) /\ push_form d (instr_write (push d)).
Proof.
  intros L. assert (A : exists c, is_inst (push d) c /\ push_form d c).
  { destruct (push_cases d L) as [(-> & ->) | [(k & Hk & -> & ->) | (S & [(B & ->)|[(B & ->)|[(B & ->)|(B & ->)]]])]].
    - exists [x4f]. split; constructor. change (b2n x4f) with 0x4f. lia.
    - exists [n2b (0x50 + k)]. split; constructor; [rewrite n2b_val by lia; lia|assumption].
    - exists (n2b (len d) :: d). split; constructor; assumption.
    - exists (x4c :: le 1 (len d) ++ d). split; constructor; lia.
    - exists (x4d :: le 2 (len d) ++ d). split; constructor; lia.
    - exists (x4e :: le 4 (len d) ++ d). split; constructor; lia. }
  destruct A as (c & H & P). pose proof (inst_write _ _ H) as W. rewrite <- W. split; assumption.
Qed.

Lemma push_data_len d : len d < 2 ^ 31 -> len (i_data (push d)) <= len d.
Proof.
  intros L. destruct (push_cases d L) as [(-> & ->) | [(k & Hk & -> & ->) | (S & [(B & ->)|[(B & ->)|[(B & ->)|(B & ->)]]])]];
    cbn; unfold len in *; cbn in *; lia.
Qed.

Theorem push_round_trip d rest : len d < 2 ^ 31 ->
  push_form d (instr_write (push d)) /\
  read_instr (instr_write (push d) ++ rest) = Ret (push d, rest) /\
  compile_instr (push d) = Some (instr_write (push d)) /\
  len (instr_write (push d)) = instr_size (push d).
Proof.
  intros L. destruct (push_inst d L) as [H P]. pose proof (push_data_len d L) as DL.
  assert (S : instr_size (push d) = len (instr_write (push d))) by (apply inst_size; [assumption|lia]).
  split; [assumption|]. split; [now apply read_instr_of_form|]. split; [|now symmetry].
  unfold compile_instr, buffer_write. rewrite S. rewrite N.ltb_irrefl. f_equal.
  unfold len. rewrite Nat2N.id, Nat.sub_diag. cbn. apply app_nil_r.
Qed.

Theorem push_value_push neg1 d : len d < 2 ^ 31 ->
  push_value neg1 (push d) = if bytes_eqb d [x81] then neg1 else d.
Proof.
  intros L. destruct (push_cases d L) as [(-> & ->) | [(k & Hk & -> & ->) | (S & C)]].
  - reflexivity.
  - unfold push_value, is_push_data, is_push_op. cbn [i_op op_instr].
    replace (bytes_eqb [n2b k] [x81]) with false.
    2:{ symmetry. apply bytes_eqb_neq. intros E. injection E as E. apply (f_equal b2n) in E. rewrite n2b_val in E by lia.
        change (b2n x81) with 0x81 in E. lia. }
    byteq. rewrite n2b_val by lia. replace (80 + k <=? 0x4e) with false by lia. replace (80 + k =? 0x6a) with false by lia.
    cbn [orb]. replace (80 + k <=? 96) with true by lia. replace (80 + k =? 0x50) with false by lia. cbn [andb negb].
    replace (80 + k =? 0x4f) with false by lia. do 2 f_equal. lia.
  - assert (N : bytes_eqb d [x81] = false).
    { apply bytes_eqb_neq. intros ->. discriminate. }
    rewrite N. unfold push_value. destruct C as [(B & ->)|[(B & ->)|[(B & ->)|(B & ->)]]]; cbn [i_op i_data]; try reflexivity.
    unfold is_push_data. rewrite n2b_val by lia. replace (len d <=? 0x4e) with true by lia. reflexivity.
Qed.

(* ---- minimality ---- *)

Theorem push_shortest d c : len d < 2 ^ 31 -> push_form d c ->
  len (instr_write (push d)) <= len c /\ (len (instr_write (push d)) = len c -> c = instr_write (push d)).
Proof.
  intros L H.
  destruct (push_cases d L) as [(-> & ->) | [(k & Hk & -> & ->) | (S & C)]].
  - inversion H; subst; try (cbn; unfold len; cbn; split; [lia|intros; lia]).
    + split; [vm_compute; discriminate|reflexivity].
    + exfalso. match goal with E : n2b _ = _ |- _ => apply (f_equal b2n) in E; rewrite n2b_val in E by lia; change (b2n x81) with 0x81 in E; lia end.
  - replace (instr_write (op_instr (n2b (80 + k)))) with [n2b (80 + k)].
    2:{ unfold instr_write, is_push_data. cbn [i_op op_instr]. rewrite n2b_val by lia.
        replace (80 + k <=? 0x4e) with false by lia. reflexivity. }
    inversion H; subst; try (unfold len; cbn; split; [lia|intros; lia]).
    + exfalso. match goal with E : x81 = _ |- _ => apply (f_equal b2n) in E; rewrite n2b_val in E by lia; change (b2n x81) with 0x81 in E; lia end.
    + match goal with E : n2b _ = n2b _ |- _ => apply (f_equal b2n) in E; rewrite !n2b_val in E by lia end. subst.
      split; [lia|reflexivity].
  - assert (D : is_push_data (n2b (len d)) = true \/ 75 < len d).
    { destruct (N.le_gt_cases (len d) 75); [left|now right]. unfold is_push_data. rewrite n2b_val by lia. lia. }
    assert (W : instr_write (push d) =
       if len d <=? 75 then n2b (len d) :: d else if len d <? 2 ^ 8 then x4c :: le 1 (len d) ++ d
       else if len d <? 2 ^ 16 then x4d :: le 2 (len d) ++ d else x4e :: le 4 (len d) ++ d).
    { symmetry. destruct C as [(B & ->)|[(B & ->)|[(B & ->)|(B & ->)]]].
      - replace (len d <=? 75) with true by lia. apply inst_write. constructor. assumption.
      - replace (len d <=? 75) with false by lia. replace (len d <? 2 ^ 8) with true by lia. apply inst_write. constructor. lia.
      - replace (len d <=? 75) with false by lia. replace (len d <? 2 ^ 8) with false by lia.
        replace (len d <? 2 ^ 16) with true by lia. apply inst_write. constructor. lia.
      - replace (len d <=? 75) with false by lia. replace (len d <? 2 ^ 8) with false by lia.
        replace (len d <? 2 ^ 16) with false by lia. apply inst_write. constructor. lia. }
    rewrite W. clear W C D.
    assert (NS : d <> [x81] /\ forall k, 1 <= k <= 16 -> d <> [n2b k]).
    { split; [intros ->; discriminate|]. intros k Hk ->. assert (small_push [n2b k] = true) by (apply small_push_spec; right; eauto). congruence. }
    destruct NS as [NS1 NS2].
    inversion H; subst; try congruence; try (exfalso; eapply NS2; eauto; fail);
    destruct (len d <=? 75) eqn:E1; try destruct (len d <? 2 ^ 8) eqn:E2; try destruct (len d <? 2 ^ 16) eqn:E3;
    rewrite ?len_cons, ?len_app, ?len_le; split; try lia; intros; try lia; reflexivity.
Qed.

Theorem push_minimal_exact d : len d < 2 ^ 31 ->
  is_minimal_instruction (push d) = negb ((len d =? 256) || (len d =? 65536)).
Proof.
  intros L. destruct (push_inst d L) as [H _].
  destruct (push_cases d L) as [(-> & E) | [(k & Hk & -> & E) | (S & C)]].
  - reflexivity.
  - rewrite E. unfold is_minimal_instruction, verify_instruction, is_minimal_push, is_push_data. cbn [i_op i_data op_instr].
    rewrite n2b_val by lia.
    replace ((80 + k =? 255) || (80 + k =? 80) || (80 + k =? 137) || (80 + k =? 138) || (186 <=? 80 + k)) with false by lia.
    replace (80 + k <=? 0x4e) with false by lia. reflexivity.
  - assert (V : verify_instruction (push d) = E_OK).
    { apply (inst_size_iff_known _ _ H). unfold known_op.
      destruct C as [(B & ->)|[(B & ->)|[(B & ->)|(B & ->)]]]; cbn [i_op].
      - rewrite n2b_val by lia. lia.
      - change (b2n x4c) with 0x4c; lia.
      - change (b2n x4d) with 0x4d; lia.
      - change (b2n x4e) with 0x4e; lia. }
    unfold is_minimal_instruction. rewrite V. cbn [serror_is_ok andb].
    destruct C as [(B & ->)|[(B & ->)|[(B & ->)|(B & ->)]]]; cbn [i_op i_data]; unfold is_minimal_push, is_push_data; rewrite S.
    + byteq. rewrite n2b_val by lia. replace (len d <=? 0x4e) with true by lia. cbn [negb].
      replace (len d =? 0x4c) with false by lia. replace (len d =? 0x4d) with false by lia. replace (len d =? 0x4e) with false by lia. lia.
    + change (b2n x4c <=? 0x4e) with true. cbn [negb]. change (byte_eqb x4c x4c) with true. cbn iota. lia.
    + change (b2n x4d <=? 0x4e) with true. cbn [negb]. change (byte_eqb x4d x4c) with false. change (byte_eqb x4d x4d) with true. cbn iota. lia.
    + change (b2n x4e <=? 0x4e) with true. cbn [negb]. change (byte_eqb x4e x4c) with false. change (byte_eqb x4e x4d) with false.
      change (byte_eqb x4e x4e) with true. cbn iota. lia.
Qed.

Theorem minimal_read_exact b i r : read_instr b = Ret (i, r) -> len b < 2 ^ 31 -> is_push_op (i_op i) = true ->
  (is_minimal_instruction i = true <-> exists d, i = push d /\ len d < 2 ^ 31 /\ len d <> 256 /\ len d <> 65536).
Proof.
  intros R L P. split.
  2:{ intros (d & -> & Hd & H1 & H2). rewrite push_minimal_exact by assumption. lia. }
  apply read_instr_form in R as (c & -> & H).
  assert (Ld : len (i_data i) < 2 ^ 31).
  { rewrite len_app in L. clear - H L. destruct i as [o d]. unfold is_inst in H. cbn in *.
    inversion H; subst; rewrite ?len_cons, ?len_app, ?len_le in L; rewrite ?len_nil; lia. }
  unfold is_minimal_instruction. intros M. apply andb_prop in M as [V M].
  destruct i as [o d]. unfold is_inst in H. cbn [i_op i_data] in *. inversion H; subst; clear H.
  - (* direct *)
    unfold is_minimal_push, is_push_data in M. rewrite n2b_val in M by lia.
    replace (len d <=? 0x4e) with true in M by lia. cbn [negb] in M.
    destruct (small_push d) eqn:S; [discriminate|].
    exists d. destruct (push_cases d Ld) as [(-> & ->) | [(k & Hk & -> & ->) | (S' & [(B & ->)|[(B & ->)|[(B & ->)|(B & ->)]]])]]; try lia.
    + discriminate.
    + exfalso. assert (small_push [n2b k] = true) by (apply small_push_spec; right; eauto). congruence.
    + repeat split; lia.
  - unfold is_minimal_push in M. change (is_push_data x4c) with true in M. cbn [negb] in M.
    destruct (small_push d) eqn:S; [discriminate|]. change (byte_eqb x4c x4c) with true in M. cbn iota in M.
    exists d. destruct (push_cases d Ld) as [(-> & ->) | [(k & Hk & -> & ->) | (S' & [(B & ->)|[(B & ->)|[(B & ->)|(B & ->)]]])]]; try discriminate; try lia.
    all: try (repeat split; lia).
  - unfold is_minimal_push in M. change (is_push_data x4d) with true in M. cbn [negb] in M.
    destruct (small_push d) eqn:S; [discriminate|]. change (byte_eqb x4d x4c) with false in M. change (byte_eqb x4d x4d) with true in M. cbn iota in M.
    exists d. destruct (push_cases d Ld) as [(-> & ->) | [(k & Hk & -> & ->) | (S' & [(B & ->)|[(B & ->)|[(B & ->)|(B & ->)]]])]]; try discriminate; try lia.
    all: try (repeat split; lia).
  - unfold is_minimal_push in M. change (is_push_data x4e) with true in M. cbn [negb] in M.
    destruct (small_push d) eqn:S; [discriminate|]. change (byte_eqb x4e x4c) with false in M. change (byte_eqb x4e x4d) with false in M.
    change (byte_eqb x4e x4e) with true in M. cbn iota in M.
    exists d. destruct (push_cases d Ld) as [(-> & ->) | [(k & Hk & -> & ->) | (S' & [(B & ->)|[(B & ->)|[(B & ->)|(B & ->)]]])]]; try discriminate; try lia.
    all: try (repeat split; lia).
  - (* 1NEGATE, 1..16 *)
    unfold is_push_op in P. rewrite byte_eqb_n in P. change (b2n x50) with 0x50 in P.
    destruct (N.eq_dec (b2n o) 0x4f) as [E|E].
    { assert (o = x4f) as -> by (apply b2n_inj; assumption). exists [x81]. repeat split; vm_compute; intros; discriminate. }
    exists [n2b (b2n o - 0x50)].
    assert (K : 1 <= b2n o - 80 <= 16) by lia.
    assert (L1 : len [n2b (b2n o - 80)] < 2 ^ 31) by (vm_compute; reflexivity).
    destruct (push_cases _ L1) as [(E1 & E2) | [(k & Hk & E1 & E2) | (S' & _)]].
    + injection E1 as E1. apply (f_equal b2n) in E1. rewrite n2b_val in E1 by lia. change (b2n x81) with 0x81 in E1. lia.
    + injection E1 as E1. apply (f_equal b2n) in E1. rewrite !n2b_val in E1 by lia.
      rewrite E2. unfold op_instr. repeat split; try (unfold len; cbn; lia).
      f_equal. rewrite <- E1. replace (80 + (b2n o - 80)) with (b2n o) by lia. now rewrite n2b_b2n.
    + assert (small_push [n2b (b2n o - 80)] = true) by (apply small_push_spec; right; eauto). congruence.
Qed.

Theorem min_push_size_exact d : len d < 2 ^ 31 ->
  (min_push_size d = len (instr_write (push d)) <-> len d <> 75 /\ len d <> 255 /\ len d <> 65535) /\
  (len d = 75 -> min_push_size d = 77) /\ (len d = 255 -> min_push_size d = 258) /\ (len d = 65535 -> min_push_size d = 65540).
Proof.
  intros L. unfold min_push_size.
  destruct (push_cases d L) as [(-> & ->) | [(k & Hk & -> & ->) | (S & C)]].
  - split; [split; [intros _; vm_compute; repeat split; discriminate|reflexivity]|]. repeat split; intros H; vm_compute in H; discriminate.
  - assert (S : small_push [n2b k] = true) by (apply small_push_spec; right; eauto). rewrite S.
    rewrite orb_true_r.
    assert (W : instr_write (op_instr (n2b (80 + k))) = [n2b (80 + k)]).
    { unfold instr_write, is_push_data. cbn [i_op op_instr]. rewrite n2b_val by lia.
        replace (80 + k <=? 0x4e) with false by lia. reflexivity. }
    rewrite W. change (len [n2b (80 + k)]) with 1. change (len [n2b k]) with 1.
    split; [split; [intros _; lia|reflexivity]|]. repeat split; intros; lia.
  - rewrite S. rewrite orb_false_r.
    assert (W : len (instr_write (push d)) =
       if len d <=? 75 then 1 + len d else if len d <? 2 ^ 8 then 2 + len d
       else if len d <? 2 ^ 16 then 3 + len d else 5 + len d).
    { destruct C as [(B & ->)|[(B & ->)|[(B & ->)|(B & ->)]]].
      - replace (len d <=? 75) with true by lia.
        rewrite <- (inst_write {| i_op := n2b (len d); i_data := d |} (n2b (len d) :: d)) by (constructor; lia). now rewrite len_cons.
      - replace (len d <=? 75) with false by lia. replace (len d <? 2 ^ 8) with true by lia.
        rewrite <- (inst_write {| i_op := x4c; i_data := d |} (x4c :: le 1 (len d) ++ d)) by (constructor; lia). rewrite len_cons, len_app, len_le. lia.
      - replace (len d <=? 75) with false by lia. replace (len d <? 2 ^ 8) with false by lia.
        replace (len d <? 2 ^ 16) with true by lia.
        rewrite <- (inst_write {| i_op := x4d; i_data := d |} (x4d :: le 2 (len d) ++ d)) by (constructor; lia). rewrite len_cons, len_app, len_le. lia.
      - replace (len d <=? 75) with false by lia. replace (len d <? 2 ^ 8) with false by lia.
        replace (len d <? 2 ^ 16) with false by lia.
        rewrite <- (inst_write {| i_op := x4e; i_data := d |} (x4e :: le 4 (len d) ++ d)) by (constructor; lia). rewrite len_cons, len_app, len_le. lia. }
    rewrite W. clear W C.
    destruct (len d =? 0) eqn:E0.
    { replace (len d <=? 75) with true by lia. split; [split; intros; lia|]. repeat split; intros; lia. }
    destruct (len d <? 75) eqn:E1; destruct (len d <? 255) eqn:E2; destruct (len d <? 65535) eqn:E3;
    destruct (len d <=? 75) eqn:E4; destruct (len d <? 2 ^ 8) eqn:E5; destruct (len d <? 2 ^ 16) eqn:E6; try lia;
    (split; [split; intros; lia|]; repeat split; intros; lia).
Qed.
