From Coq Require Import Lia ZifyBool ZifyNat ZifyN.
From Verif Require Import Base BaseProofs ScriptModel ScriptSpec WireProofs ScriptProofs PatternModel PatternSpec PatternProofs.
Local Open Scope N_scope.
Ltac opcodes := repeat (constructor; [split; [vm_compute; reflexivity|discriminate]|]); constructor.

(* ---- what is built ---- *)
Lemma push_direct d : 1 < len d -> len d <= 75 -> push d = {| i_op := n2b (len d); i_data := d |}.
Proof.
  intros A B. destruct (push_cases d) as [(-> & _) | [(k & Hk & -> & _) | (S & [(C & E)|[(C & E)|[(C & E)|(C & E)]]])]]; try lia.
  - revert A. vm_compute. discriminate.
  - rewrite len_cons, len_nil in A. lia.
  - exact E.
Qed.
Lemma write_direct d : 1 < len d -> len d <= 75 -> instr_write (push d) = n2b (len d) :: d.
Proof.
  intros A B. rewrite push_direct by assumption. unfold instr_write, is_push_data. cbn [i_op i_data]. rewrite n2b_val by lia.
  replace (len d <=? 0x4e) with true by lia. replace (len d <=? 75) with true by lia. reflexivity.
Qed.
Lemma size_direct d : 1 < len d -> len d <= 75 -> instr_size (push d) = len d + 1.
Proof.
  intros A B. rewrite push_direct by assumption. unfold instr_size, is_push_data. cbn [i_op i_data]. rewrite n2b_val by lia.
  replace (byte_eqb (n2b (len d)) OP_RETURN) with false.
  - replace (len d <=? 0x4e) with true by lia. cbn [negb]. replace (len d <=? 75) with true by lia. rewrite N.mod_small; lia.
  - rewrite byte_eqb_n, n2b_val by lia. change (b2n OP_RETURN) with 0x6a. lia.
Qed.
Lemma buffer_exact b : buffer_write (len b) b = Some b.
Proof. now apply buffer_write_exact. Qed.

Definition built (pre post : list byte) (d : bytes) : program := map op_instr pre ++ push d :: map op_instr post.
Lemma write_ops l : Forall opcode l -> program_write (map op_instr l) = l.
Proof.
  intros H. unfold program_write. induction H as [|o l (O & _) H IH]; [reflexivity|]. cbn [map concat]. rewrite IH.
  unfold instr_write, op_instr, is_push_data. cbn [i_op]. replace (b2n o <=? 0x4e) with false by lia. reflexivity.
Qed.
Lemma size_ops l : Forall opcode l -> program_size (map op_instr l) = len l.
Proof.
  intros H. unfold program_size. induction H as [|o l (O & _) H IH]; [reflexivity|]. cbn [map fold_right]. rewrite IH, len_cons.
  f_equal. unfold instr_size, op_instr, is_push_data. cbn [i_op i_data]. replace (b2n o <=? 0x4e) with false by lia.
  destruct (byte_eqb o OP_RETURN); reflexivity.
Qed.
Lemma program_size_app a b : program_size (a ++ b) = program_size a + program_size b.
Proof. unfold program_size. induction a as [|x a IH]; [reflexivity|]. cbn [app fold_right]. rewrite IH. lia. Qed.
Lemma program_write_app a b : program_write (a ++ b) = program_write a ++ program_write b.
Proof. unfold program_write. now rewrite map_app, concat_app. Qed.
Lemma built_exact pre post d : Forall opcode pre -> Forall opcode post -> 1 < len d -> len d <= 75 ->
  compile (built pre post d) = Some (pre ++ (n2b (len d) :: d) ++ post).
Proof.
  intros A B L1 L2. unfold compile, built.
  assert (W : program_write (map op_instr pre ++ push d :: map op_instr post) = pre ++ (n2b (len d) :: d) ++ post).
  { rewrite program_write_app, write_ops by assumption. change (push d :: map op_instr post) with ([push d] ++ map op_instr post).
    rewrite program_write_app, write_ops by assumption. unfold program_write. cbn [map concat]. rewrite app_nil_r, write_direct by assumption. reflexivity. }
  rewrite W. replace (program_size _) with (len (pre ++ (n2b (len d) :: d) ++ post)); [apply buffer_exact|].
  rewrite program_size_app, size_ops by assumption. change (push d :: map op_instr post) with ([push d] ++ map op_instr post).
  rewrite program_size_app, size_ops by assumption. unfold program_size at 1. cbn [fold_right]. rewrite size_direct by assumption.
  rewrite !len_app, len_cons. lia.
Qed.

Theorem scripts_built d : len d = 20 ->
  p2a_script d = Some ([x76; xa9; x14] ++ d ++ [x88; xac]) /\
  p2h_script d = Some ([xa9; x14] ++ d ++ [x88]) /\
  p2sh_script d = Some ([xa9; x14] ++ d ++ [x87]).
Proof.
  intros L. split; [|split].
  - change (p2a_script d) with (compile (built [OP_DUP; OP_HASH160] [OP_EQUALVERIFY; OP_CHECKSIG] d)).
    rewrite built_exact by (solve [opcodes] || lia). rewrite L. reflexivity.
  - change (p2h_script d) with (compile (built [OP_HASH160] [OP_EQUALVERIFY] d)).
    rewrite built_exact by (solve [opcodes] || lia). rewrite L. reflexivity.
  - change (p2sh_script d) with (compile (built [OP_HASH160] [OP_EQUAL] d)).
    rewrite built_exact by (solve [opcodes] || lia). rewrite L. reflexivity.
Qed.
Theorem pubkey_built d : len d = 33 \/ len d = 65 -> p2p_script d = Some (n2b (len d) :: d ++ [xac]).
Proof.
  intros L. change (p2p_script d) with (compile (built [] [OP_CHECKSIG] d)).
  rewrite built_exact by (solve [opcodes] || lia). reflexivity.
Qed.

(* ---- reading back ---- *)
Lemma data_direct d : len d <= 75 -> data_push d (n2b (len d) :: d).
Proof. now constructor. Qed.
Lemma read_of_match neg1 q none s d : pmatch neg1 0 q s [none] = ([d], Matched true) -> template_read neg1 q none s = Ret d.
Proof. intros E. unfold template_read. now rewrite E. Qed.
Theorem recognised neg1 d s : len neg1 < 20 -> len d = 20 ->
  (p2a_script d = Some s -> template_read neg1 p2a_pattern zero20 s = Ret d) /\
  (p2h_script d = Some s -> template_read neg1 p2h_pattern zero20 s = Ret d) /\
  (p2sh_script d = Some s -> template_read neg1 p2sh_pattern zero20 s = Ret d).
Proof.
  intros N L. destruct (scripts_built d L) as (A & B & C). rewrite A, B, C.
  assert (D : data_push d (x14 :: d)) by (replace x14 with (n2b (len d)) by (rewrite L; reflexivity); apply data_direct; lia).
  split; [|split]; intros E; apply read_of_match.
  - apply address_exact; [assumption|]. exists d. split; [|reflexivity]. exists (x14 :: d). split; [assumption|]. split; [assumption|]. cbn [app] in *. congruence.
  - apply hash_exact; [assumption|]. exists d. split; [|reflexivity]. exists (x14 :: d). split; [assumption|]. split; [assumption|]. cbn [app] in *. congruence.
  - apply script_hash_exact; [assumption|]. exists d. split; [|reflexivity]. exists (x14 :: d). split; [assumption|]. split; [assumption|]. cbn [app] in *. congruence.
Qed.
Theorem pubkey_recognised neg1 d s : len neg1 < 33 -> len d < 2 ^ 31 -> p2p_script d = Some s ->
  (pmatch neg1 0 p2p_pattern s [[]] = ([d], Matched true) <-> len d = 33 \/ len d = 65).
Proof.
  intros N L E. split.
  - intros M. apply pubkey_exact in M as (e & (c & H & LE & S) & W); [|assumption]. assert (d = e) by (cbn [put] in W; congruence). now subst e.
  - intros K. rewrite (pubkey_built d K) in E. assert (X : s = (n2b (len d) :: d) ++ [xac]) by (cbn [app]; congruence). subst s.
    apply pubkey_exact; [assumption|]. exists d. split; [|reflexivity]. exists (n2b (len d) :: d). split; [apply data_direct; lia|auto].
Qed.
(* a script of the shortest length is the one that is built *)
Lemma data_push_len d c : data_push d c -> 1 < len d -> len d <= 75 -> len c = len d + 1 -> c = n2b (len d) :: d.
Proof.
  intros H A B L. destruct H; rewrite ?len_cons, ?len_app, ?len_le in L; try lia. reflexivity.
Qed.
Lemma data_push_min d c : data_push d c -> len d + 1 <= len c.
Proof. intros H. destruct H; rewrite ?len_cons, ?len_app, ?len_le; lia. Qed.
Theorem shortest d s :
  (address_script d s -> 25 <= len s /\ (len s = 25 <-> p2a_script d = Some s)) /\
  (hash_script d s -> 23 <= len s /\ (len s = 23 <-> p2h_script d = Some s)) /\
  (script_hash_script d s -> 23 <= len s /\ (len s = 23 <-> p2sh_script d = Some s)) /\
  (pubkey_script d s -> len d + 2 <= len s /\ (len s = len d + 2 <-> p2p_script d = Some s)).
Proof.
  split; [|split; [|split]].
  - intros (c & H & L & ->). pose proof (data_push_min _ _ H). destruct (scripts_built d L) as (B & _ & _).
    rewrite !len_app. change (len [x76; xa9]) with 2. change (len [x88; xac]) with 2. split; [lia|]. rewrite B. split.
    + intros E. rewrite (data_push_len d c) by (assumption || lia). rewrite L. reflexivity.
    + intros E. apply (f_equal (option_map len)) in E. cbn [option_map] in E. rewrite !len_app in E.
      change (len [x76; xa9; x14]) with 3 in E. change (len [x88; xac]) with 2 in E. change (len [x76; xa9]) with 2 in E.
      assert (3 + (len d + 2) = 2 + (len c + 2)) by congruence. lia.
  - intros (c & H & L & ->). pose proof (data_push_min _ _ H). destruct (scripts_built d L) as (_ & B & _).
    rewrite !len_app. change (len [xa9]) with 1. change (len [x88]) with 1. split; [lia|]. rewrite B. split.
    + intros E. rewrite (data_push_len d c) by (assumption || lia). rewrite L. reflexivity.
    + intros E. apply (f_equal (option_map len)) in E. cbn [option_map] in E. rewrite !len_app in E.
      change (len [xa9; x14]) with 2 in E. change (len [x88]) with 1 in E. change (len [xa9]) with 1 in E.
      assert (2 + (len d + 1) = 1 + (len c + 1)) by congruence. lia.
  - intros (c & H & L & ->). pose proof (data_push_min _ _ H). destruct (scripts_built d L) as (_ & _ & B).
    rewrite !len_app. change (len [xa9]) with 1. change (len [x87]) with 1. split; [lia|]. rewrite B. split.
    + intros E. rewrite (data_push_len d c) by (assumption || lia). rewrite L. reflexivity.
    + intros E. apply (f_equal (option_map len)) in E. cbn [option_map] in E. rewrite !len_app in E.
      change (len [xa9; x14]) with 2 in E. change (len [x87]) with 1 in E. change (len [xa9]) with 1 in E.
      assert (2 + (len d + 1) = 1 + (len c + 1)) by congruence. lia.
  - intros (c & H & L & ->). pose proof (data_push_min _ _ H). rewrite (pubkey_built d L).
    rewrite len_app. change (len [xac]) with 1. split; [lia|]. split.
    + intros E. rewrite (data_push_len d c) by (assumption || lia). reflexivity.
    + intros E. apply (f_equal (option_map len)) in E. cbn [option_map] in E. rewrite len_cons, !len_app in E.
      change (len [xac]) with 1 in E. assert (1 + (len d + 1) = len c + 1) by congruence. lia.
Qed.

Lemma built_script_exact d s : len d = 20 ->
  (p2a_script d = Some s -> address_script d s) /\ (p2h_script d = Some s -> hash_script d s) /\ (p2sh_script d = Some s -> script_hash_script d s).
Proof.
  intros L. destruct (scripts_built d L) as (A & B & C). rewrite A, B, C.
  assert (D : data_push d (x14 :: d)) by (replace x14 with (n2b (len d)) by (rewrite L; reflexivity); apply data_direct; lia).
  split; [|split]; intros E; exists (x14 :: d); (split; [assumption|]); (split; [assumption|]); cbn [app] in *; congruence.
Qed.

(* a script matches at most one of the templates, with one payload *)
Lemma data_push_first d c : data_push d c -> exists o r, c = o :: r /\ b2n o <= 0x4e.
Proof.
  intros H. destruct H; eexists; eexists; (split; [reflexivity|]); try (vm_compute; discriminate). rewrite n2b_val; lia.
Qed.
Lemma last_byte (a b : bytes) x y : a ++ [x] = b ++ [y] -> x = y.
Proof. intros E. now apply app_inj_tail in E. Qed.
Theorem disjoint d e s :
  (address_script d s -> ~ hash_script e s /\ ~ script_hash_script e s /\ ~ pubkey_script e s) /\
  (hash_script d s -> ~ script_hash_script e s /\ ~ pubkey_script e s) /\
  (script_hash_script d s -> ~ pubkey_script e s).
Proof.
  assert (P : forall e c, data_push e c -> forall o r r', c ++ r' = o :: r -> b2n o <= 0x4e).
  { intros e' c H o r r' E. destruct (data_push_first _ _ H) as (o' & q & -> & B). cbn [app] in E. assert (o' = o) by congruence. now subst. }
  split; [|split].
  - intros (c & H & L & ->). split; [|split].
    + intros (c' & _ & _ & E). cbn [app] in E. assert (x76 = xa9) by congruence. discriminate.
    + intros (c' & _ & _ & E). cbn [app] in E. assert (x76 = xa9) by congruence. discriminate.
    + intros (c' & H' & _ & E). symmetry in E. apply (P _ _ H') in E. revert E. vm_compute. congruence.
  - intros (c & H & L & ->). split.
    + intros (c' & _ & _ & E). rewrite !app_assoc in E. apply last_byte in E. discriminate.
    + intros (c' & H' & _ & E). symmetry in E. apply (P _ _ H') in E. revert E. vm_compute. congruence.
  - intros (c & H & L & ->) (c' & H' & _ & E). symmetry in E. apply (P _ _ H') in E. revert E. vm_compute. congruence.
Qed.

(* ---- the P2SH test of the interpreter ---- *)
Theorem p2sh_test s : is_P2SH s = true <-> exists d, len d = 20 /\ p2sh_script d = Some s.
Proof.
  split.
  - unfold is_P2SH. intros H. apply andb_prop in H as [H E3]. apply andb_prop in H as [H E2]. apply andb_prop in H as [E0 E1].
    apply byte_eqb_eq in E1, E2, E3. assert (L : length s = 23%nat) by (unfold len in E0; lia). clear E0.
    destruct s as [|a [|b s]]; try discriminate. cbn [nth] in E1, E2. subst a b.
    exists (firstn 20 s). assert (LS : length s = 21%nat) by (cbn [length] in L; lia).
    assert (LF : len (firstn 20 s) = 20) by (unfold len; rewrite firstn_length, LS; reflexivity).
    split; [assumption|]. destruct (scripts_built _ LF) as (_ & _ & ->). f_equal. cbn [app]. f_equal. f_equal.
    rewrite <- (firstn_skipn 20 s) at 2. f_equal. cbn [nth] in E3.
    assert (LK : length (skipn 20 s) = 1%nat) by (rewrite skipn_length, LS; reflexivity).
    rewrite <- (firstn_skipn 20 s), app_nth2 in E3 by (rewrite firstn_length, LS; lia).
    rewrite firstn_length, LS in E3. change (20 - Nat.min 20 21)%nat with 0%nat in E3.
    destruct (skipn 20 s) as [|x [|y z]]; try discriminate. cbn [nth] in E3. now subst x.
  - intros (d & L & E). destruct (scripts_built d L) as (_ & _ & B). rewrite B in E.
    assert (S : s = [xa9; x14] ++ d ++ [x87]) by congruence. clear B E. subst s. unfold is_P2SH.
    rewrite !len_app, L. change (len [xa9; x14]) with 2. change (len [x87]) with 1. cbn [app nth].
    change (20 + 1) with 21. change (2 + 21 =? 23) with true.
    replace (nth 20 (d ++ [x87]) x00) with x87; [reflexivity|]. rewrite app_nth2 by (unfold len in L; lia).
    replace (20 - length d)%nat with 0%nat by (unfold len in L; lia). reflexivity.
Qed.

(* ---- redeeming ---- *)
Lemma push_write_bound d : len d <= 75 -> len (instr_write (push d)) <= 1 + len d.
Proof.
  intros L. destruct (N.le_gt_cases (len d) 1) as [A|A].
  - destruct d as [|x [|? ?]].
    + vm_compute. discriminate.
    + unfold push. change (len [x]) with 1. change (int32_of 1 =? 0)%Z with false. cbv iota.
      destruct (b2n x =? 0x81); [vm_compute; discriminate|]. destruct ((1 <=? b2n x) && (b2n x <=? 0x10)) eqn:E.
      * unfold instr_write, op_instr, is_push_data. cbn [i_op]. rewrite n2b_val by lia. replace (b2n x + 80 <=? 0x4e) with false by lia. vm_compute. discriminate.
      * vm_compute. discriminate.
    + rewrite !len_cons in A. lia.
  - rewrite write_direct by lia. rewrite len_cons. lia.
Qed.
Lemma compile_two a b : len a < 2 ^ 31 - 10 -> len b < 2 ^ 31 - 10 -> compile [push a; push b] = Some (instr_write (push a) ++ instr_write (push b)).
Proof.
  intros A B. unfold compile. change (program_write [push a; push b]) with (instr_write (push a) ++ instr_write (push b) ++ []). rewrite app_nil_r.
  change (program_size [push a; push b]) with (instr_size (push a) + (instr_size (push b) + 0)).
  destruct (push_round_trip a []) as (_ & _ & _ & <-); [lia|]. destruct (push_round_trip b []) as (_ & _ & _ & <-); [lia|].
  rewrite N.add_0_r, <- len_app. apply buffer_exact.
Qed.
Theorem redeem_sizes sig key : len sig <= signature_max ->
  (forall c, (len key = if c : bool then 33 else 65) ->
     exists s, p2a_redeem sig key = Some s /\ len s <= p2a_redeem_size c /\ (len s = p2a_redeem_size c <-> len sig = signature_max)) /\
  (exists s, p2p_redeem sig = Some s /\ len s <= p2p_redeem_size /\ (len s = p2p_redeem_size <-> len sig = signature_max)).
Proof.
  unfold signature_max, p2a_redeem_size, p2p_redeem_size, signature_max. intros L. pose proof (push_write_bound sig ltac:(lia)) as B. split.
  - intros c K. exists (instr_write (push sig) ++ instr_write (push key)).
    split; [unfold p2a_redeem; apply compile_two; destruct c; lia|].
    assert (W : len (instr_write (push key)) = 1 + len key) by (rewrite write_direct by (destruct c; lia); apply len_cons).
    rewrite len_app, W, K. split; [lia|]. split; [intros; lia|]. intros E. rewrite write_direct by lia. rewrite len_cons, E. lia.
  - exists (instr_write (push sig)). destruct (push_round_trip sig []) as (_ & _ & C & _); [lia|].
    split; [exact C|]. split; [lia|]. split; [intros; lia|]. intros E. rewrite write_direct by lia. rewrite len_cons, E. lia.
Qed.

(* ---- repetition ---- *)
Section Repeat.
Variable neg1 : bytes.

Lemma loop_forever step mn mx p v : step p v = (v, Rest p) -> (mx < 0)%Z ->
  forall n m, repeat_loop step mn mx n m p v = (v, Endless).
Proof.
  intros H M. induction n as [|n IH]; intros m; cbn [repeat_loop]; [reflexivity|]. rewrite H. cbv zeta.
  replace (Z.of_N ((m + 1) mod 2 ^ 32) =? mx)%Z with false by lia. apply IH.
Qed.
Theorem repeat_forever fuel q p v n : scan neg1 fuel q p v = (v, Rest p) -> scan neg1 fuel (repeated_of q n OrMore) p v = (v, Endless).
Proof.
  intros H. apply (loop_forever (scan neg1 fuel q)); [assumption|reflexivity].
Qed.
Lemma loop_ends step mn mx :
  (forall p v w r, step p v = (w, Rest r) -> (length r < length p)%nat) -> (forall p v, snd (step p v) <> Endless) ->
  forall n m p v, (length p < n)%nat -> snd (repeat_loop step mn mx n m p v) <> Endless.
Proof.
  intros H E. induction n as [|n IH]; intros m p v L; [lia|]. cbn [repeat_loop]. pose proof (E p v) as X.
  destruct (step p v) as [w [r| |e| |]] eqn:R; try discriminate.
  - cbv zeta. destruct (_ =? mx)%Z; [discriminate|]. apply IH. apply H in R. lia.
  - destruct (m <? mn); discriminate.
  - exact X.
Qed.
Theorem repeat_ends fuel q p v first second d :
  (forall p v w r, scan neg1 fuel q p v = (w, Rest r) -> (length r < length p)%nat) -> plain q = true -> (length p < fuel)%nat ->
  snd (scan neg1 fuel (PRepeat q first second d) p v) <> Endless.
Proof.
  intros H P L. apply (loop_ends (scan neg1 fuel q)); [assumption|now apply plain_ends|assumption].
Qed.

Lemma lead_len o b : lead o b <= len b.
Proof. induction b as [|c b IH]; cbn [lead]; [lia|]. rewrite len_cons. destruct (byte_eqb c o); lia. Qed.
Lemma loop_ops o mn mx v : opcode o -> forall n m p, (length p < n)%nat -> m + len p < 2 ^ 32 -> (mx <= 0 \/ Z.of_N m < mx)%Z ->
  repeat_loop (scan_atom (op_instr o)) mn mx n m p v =
  (v, if (0 <? mx)%Z && (mx <=? Z.of_N (m + lead o p))%Z then Rest (skipn (Z.to_nat (mx - Z.of_N m)) p)
      else if m + lead o p <? mn then Fail else Rest (skipn (N.to_nat (lead o p)) p)).
Proof.
  intros O. induction n as [|n IH]; intros m p L B M; [lia|]. cbn [repeat_loop]. rewrite atom_op by assumption.
  destruct p as [|c r].
  - cbn [lead]. rewrite N.add_0_r. replace ((0 <? mx)%Z && (mx <=? Z.of_N m)%Z) with false by lia. destruct (m <? mn); reflexivity.
  - cbn [lead]. destruct (byte_eqb c o) eqn:E.
    + cbv zeta. rewrite len_cons in B. rewrite N.mod_small by lia. destruct (Z.of_N (m + 1) =? mx)%Z eqn:Q.
      * replace ((0 <? mx)%Z && (mx <=? Z.of_N (m + (1 + lead o r)))%Z) with true by lia.
        replace (Z.to_nat (mx - Z.of_N m)) with 1%nat by lia. reflexivity.
      * cbn [length] in L. rewrite IH by lia. replace (m + 1 + lead o r) with (m + (1 + lead o r)) by lia.
        destruct ((0 <? mx)%Z && (mx <=? Z.of_N (m + (1 + lead o r)))%Z) eqn:K.
        -- do 2 f_equal. replace (Z.to_nat (mx - Z.of_N m)) with (S (Z.to_nat (mx - Z.of_N (m + 1)))) by lia. reflexivity.
        -- destruct (m + (1 + lead o r) <? mn); [reflexivity|]. replace (N.to_nat (1 + lead o r)) with (S (N.to_nat (lead o r))) by lia. reflexivity.
    + rewrite N.add_0_r. replace ((0 <? mx)%Z && (mx <=? Z.of_N m)%Z) with false by lia. destruct (m <? mn); reflexivity.
Qed.
Theorem repeat_ops fuel o first second d p v : 0x4e < b2n o -> o <> xff -> (length p < fuel)%nat -> len p < 2 ^ 32 ->
  scan neg1 fuel (PRepeat (PAtom (op_instr o)) first second d) p v =
  (v, repeat_result o (repeat_min first second d) (repeat_max first second d) p).
Proof.
  intros O1 O2 L B. change (scan neg1 fuel (PRepeat (PAtom (op_instr o)) first second d) p v) with
    (repeat_loop (scan_atom (op_instr o)) (repeat_min first second d) (repeat_max first second d) fuel 0 p v).
  rewrite loop_ops by (lia || (split; assumption)). rewrite N.add_0_l, Z.sub_0_r. reflexivity.
Qed.
End Repeat.

(* ---- optional, OP_RETURN ---- *)
Lemma eq_refl_byte o : byte_eqb o o = true.
Proof. now apply byte_eqb_eq. Qed.
Theorem optional_greedy neg1 fuel o v : 0x4e < b2n o -> o <> xff ->
  pmatch neg1 fuel (pattern_of [AOptional (PAtom (op_instr o)); AOp o]) [o] v = (v, Matched false) /\
  pmatch neg1 fuel (pattern_of [AOp o]) [o] v = (v, Matched true).
Proof.
  intros O1 O2. assert (O : opcode o) by (split; assumption). unfold pmatch, pattern_of. cbn [map construct].
  assert (S : scan neg1 fuel (PAtom (op_instr o)) [o] v = (v, Rest [])).
  { change (scan_atom (op_instr o) [o] v = (v, Rest [])). rewrite atom_op by assumption. now rewrite eq_refl_byte. }
  split.
  - rewrite seq_cons. change (scan neg1 fuel (POptional (PAtom (op_instr o))) [o] v) with
      (match scan neg1 fuel (PAtom (op_instr o)) [o] v with (w, Fail) => (w, Rest [o]) | y => y end). rewrite S. reflexivity.
  - rewrite seq_cons, S. reflexivity.
Qed.
Lemma nil_len (s : bytes) : (len s =? 0) = true <-> s = [].
Proof. rewrite <- len_0. split; lia. Qed.
Theorem return_sliced neg1 fuel s v :
  (snd (pmatch neg1 fuel return_any s v) = Matched true <-> s = [OP_RETURN]) /\
  (forall d, snd (pmatch neg1 fuel (return_data d) s v) = Matched true <-> s = [OP_RETURN]) /\
  (snd (pmatch neg1 fuel (pattern_of [AReturn PEmpty]) s v) = Matched true <-> s = []) /\
  (snd (pmatch neg1 fuel (pattern_of [AAny]) s v) = Matched true <-> s = []) /\
  (forall q l, pattern_of (AReturn q :: l) = pattern_of (APattern q :: l)) /\
  (forall q a b d l, pattern_of (ARepeat q a b d :: l) = pattern_of (APattern q :: l)).
Proof.
  assert (X : forall b, Matched b = Matched true <-> b = true) by (intros b; split; congruence).
  assert (R : forall c r, (if byte_eqb c OP_RETURN then (len r =? 0) else false) = true <-> c :: r = [OP_RETURN]).
  { intros c r. destruct (byte_eqb c OP_RETURN) eqn:E.
    - apply byte_eqb_eq in E. subst c. rewrite nil_len. split; congruence.
    - split; [discriminate|]. intros Y. assert (c = OP_RETURN) by congruence. subst c. discriminate. }
  split; [|split; [|split; [|split; [|split]]]]; try reflexivity.
  - destruct s as [|c r]; [split; discriminate|]. rewrite <- R. unfold pmatch, return_any. cbn [scan].
    destruct (byte_eqb c OP_RETURN); cbn [snd]; apply X.
  - intros d. destruct s as [|c r]; [split; discriminate|]. rewrite <- R. unfold pmatch, return_data, pattern_of. cbn [scan map construct].
    destruct (byte_eqb c OP_RETURN); cbn [snd]; apply X.
  - unfold pmatch, pattern_of. cbn [map construct scan snd]. rewrite X. apply nil_len.
  - unfold pmatch, pattern_of. cbn [map construct scan snd]. rewrite X. apply nil_len.
Qed.

(* ---- which scripts give which payload ---- *)
Lemma read_exact neg1 q none s d (P : bytes -> Prop) :
  (forall w, pmatch neg1 0 q s [none] = (w, Matched true) <-> exists e, P e /\ w = put 0 e [none]) ->
  d <> none -> template_read neg1 q none s = Ret d <-> P d.
Proof.
  intros X N. assert (Y : P d -> pmatch neg1 0 q s [none] = ([d], Matched true)) by (intros Z; apply X; exists d; auto).
  unfold template_read. destruct (pmatch neg1 0 q s [none]) as [w [[]| | |]] eqn:E;
    try (split; [discriminate || congruence|intros Z; specialize (Y Z); discriminate Y]).
  split; [|intros Z; specialize (Y Z); assert (w = [d]) as -> by congruence; reflexivity].
  destruct (proj1 (X w) eq_refl) as (e & Z & ->). cbn [put get nth]. intros V. assert (e = d) as -> by (unfold get in V; cbn [nth] in V; congruence). exact Z.
Qed.
Theorem reads_exact neg1 s d : len neg1 < 20 ->
  (d <> zero20 -> template_read neg1 p2a_pattern zero20 s = Ret d <-> address_script d s) /\
  (d <> zero20 -> template_read neg1 p2h_pattern zero20 s = Ret d <-> hash_script d s) /\
  (d <> zero20 -> template_read neg1 p2sh_pattern zero20 s = Ret d <-> script_hash_script d s) /\
  (d <> [] -> template_read neg1 p2p_pattern [] s = Ret d <-> pubkey_script d s).
Proof.
  intros L. split; [|split; [|split]]; intros N.
  - apply (read_exact neg1 _ _ s d (fun e => address_script e s)); [|exact N]. intros w. apply address_exact. exact L.
  - apply (read_exact neg1 _ _ s d (fun e => hash_script e s)); [|exact N]. intros w. apply hash_exact. exact L.
  - apply (read_exact neg1 _ _ s d (fun e => script_hash_script e s)); [|exact N]. intros w. apply script_hash_exact. exact L.
  - apply (read_exact neg1 _ _ s d (fun e => pubkey_script e s)); [|exact N]. intros w. apply pubkey_exact. lia.
Qed.
