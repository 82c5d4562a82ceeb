From Coq Require Import Lia ZifyBool ZifyNat ZifyN.
From Verif Require Import Base BaseProofs ScriptModel ScriptSpec WireSpec WireProofs ScriptProofs NumModel NumSpec NumProofs WorkModel.
From Verif Require Import PatternModel PatternSpec PatternProofs PatternTemplates BoostModel BoostSpec BoostProofs BoostWrite.
Local Open Scope N_scope.

(* ---- the pattern of a public key in any variable ---- *)
Lemma pubkey_step neg1 k b v w r : len neg1 < 33 ->
  scan neg1 0 (pubkey_pattern k) b v = (w, Rest r) <->
  exists d c, data_push d c /\ (len d = 33 \/ len d = 65) /\ b = c ++ r /\ w = put k d v.
Proof.
  intros Ng. unfold pubkey_pattern, pattern_of. cbn [map construct]. rewrite seq_step.
  assert (G : forall u t, scan neg1 0 (PAlt [PPushSize 33 (Some k); PPushSize 65 (Some k)]) b v = (u, Rest t) <->
    exists d c, data_push d c /\ (len d = 33 \/ len d = 65) /\ b = c ++ t /\ u = put k d v).
  { intros u t. rewrite alt_cons. pose proof (push_size_data neg1 0 33 k b v) as A. pose proof (push_size_data neg1 0 65 k b v) as B.
    destruct (scan neg1 0 (PPushSize 33 (Some k)) b v) as [x [y| |e| |]] eqn:E.
    - split.
      + intros X. apply A in X as (d & c & D & L & F & W); [|lia..]. exists d, c. auto.
      + intros (d & c & D & [L|L] & F & W); [apply A; [lia..|]; exists d, c; auto|].
        exfalso. destruct (proj1 (A x y ltac:(lia) ltac:(lia) ltac:(lia)) eq_refl) as (d' & c' & D' & L' & F' & W').
        destruct (data_whole neg1 d c D) as (i & Wi & Vi); [lia|]. destruct (data_whole neg1 d' c' D') as (j & Wj & Vj); [lia|].
        assert (P1 := push_size_whole neg1 65 (Some k) i c t v Wi). rewrite <- F, F', (push_size_whole neg1 65 (Some k) j c' y v Wj) in P1.
        rewrite Vj, Vi, L, L' in P1. discriminate.
    - assert (x = v) by (eapply push_size_fail_v; exact E). subst x. rewrite alt_cons. split.
      + destruct (scan neg1 0 (PPushSize 65 (Some k)) b v) as [x [y| |e| |]] eqn:E2; try discriminate.
        intros X. apply B in X as (d & c & D & L & F & W); [|lia..]. exists d, c. auto.
      + intros (d & c & D & [L|L] & F & W).
        * assert (X : (v, Fail) = (u, Rest t)) by (apply A; [lia..|]; exists d, c; auto). discriminate.
        * assert (X : scan neg1 0 (PPushSize 65 (Some k)) b v = (u, Rest t)) by (apply B; [lia..|]; exists d, c; auto). rewrite X. reflexivity.
    - split; [discriminate|]. intros (d & c & D & L & F & W). exfalso. revert E. subst b. destruct (data_whole neg1 d c D) as (i & Wi & Vi); [lia|].
      change (scan neg1 0 (PPushSize 33 (Some k)) (c ++ t) v) with (scan_push_size neg1 33 (Some k) (c ++ t) v).
      rewrite (push_size_whole neg1 33 (Some k) i c t v Wi). destruct (len (push_value neg1 i) =? 33); discriminate.
    - split; [discriminate|]. intros (d & c & D & L & F & W). exfalso. revert E. subst b. destruct (data_whole neg1 d c D) as (i & Wi & Vi); [lia|].
      change (scan neg1 0 (PPushSize 33 (Some k)) (c ++ t) v) with (scan_push_size neg1 33 (Some k) (c ++ t) v).
      rewrite (push_size_whole neg1 33 (Some k) i c t v Wi). destruct (len (push_value neg1 i) =? 33); discriminate.
    - split; [discriminate|]. intros (d & c & D & L & F & W). exfalso. revert E. subst b. destruct (data_whole neg1 d c D) as (i & Wi & Vi); [lia|].
      change (scan neg1 0 (PPushSize 33 (Some k)) (c ++ t) v) with (scan_push_size neg1 33 (Some k) (c ++ t) v).
      rewrite (push_size_whole neg1 33 (Some k) i c t v Wi). destruct (len (push_value neg1 i) =? 33); discriminate. }
  split.
  - intros (u & t & E & F). rewrite seq_nil in F. apply G in E as (d & c & D & L & E & W). exists d, c. split; [assumption|]. split; [assumption|].
    split; [rewrite E; f_equal; congruence|congruence].
  - intros X. exists w, r. split; [now apply G|reflexivity].
Qed.

(* ---- the fields of an input ---- *)
Definition input_filled (sig key nonce time x2 x1 : bytes) (bits hash : option bytes) (v : vars) : vars :=
  let v := put 5 x1 (put 4 x2 (put 3 time (put 2 nonce (put 1 key (put 0 sig v))))) in
  let v := match bits with Some d => put 6 d v | None => v end in
  match hash with Some d => put 7 d v | None => v end.
Definition input_fields_form (neg1 sig key nonce time x2 x1 : bytes) (bits hash : option bytes) (s : bytes) : Prop :=
  exists cs ck cn ct c2 c1 cb ch,
  s = cs ++ ck ++ cn ++ ct ++ c2 ++ c1 ++ cb ++ ch /\
  pushes neg1 sig cs /\ (data_push key ck /\ (len key = 33 \/ len key = 65)) /\ (data_push nonce cn /\ len nonce = 4) /\ (data_push time ct /\ len time = 4) /\
  pushes neg1 x2 c2 /\ (data_push x1 c1 /\ len x1 = 4) /\
  match bits with Some g => data_push g cb /\ len g = 4 | None => cb = [] end /\
  match hash with Some d => data_push d ch /\ len d = 20 | None => ch = [] end.
Lemma input_match neg1 b v w : len neg1 < 4 ->
  pmatch neg1 0 input_pattern b v = (w, Matched true) <->
  exists sig key nonce time x2 x1 bits hash, input_fields_form neg1 sig key nonce time x2 x1 bits hash b /\
    w = input_filled sig key nonce time x2 x1 bits hash v.
Proof.
  intros Ng. rewrite match_iff. unfold input_pattern, pattern_of. cbn [map construct]. split.
  - intros E. apply seq_step in E as (u0 & t0 & E0 & E). apply read_step in E0 as (a0 & c0 & D0 & -> & ->).
    apply seq_step in E as (u1 & t1 & E1 & E). apply pubkey_step in E1 as (a1 & c1 & D1 & L1 & -> & ->); [|lia..].
    apply seq_step in E as (u2 & t2 & E2 & E). apply push_size_data in E2 as (a2 & c2 & D2 & L2 & -> & ->); [|lia..].
    apply seq_step in E as (u3 & t3 & E3 & E). apply push_size_data in E3 as (a3 & c3 & D3 & L3 & -> & ->); [|lia..].
    apply seq_step in E as (u4 & t4 & E4 & E). apply read_step in E4 as (a4 & c4 & D4 & -> & ->).
    apply seq_step in E as (u5 & t5 & E5 & E). apply push_size_data in E5 as (a5 & c5 & D5 & L5 & -> & ->); [|lia..].
    apply seq_step in E as (u6 & t6 & E6 & E). apply seq_step in E as (u7 & t7 & E7 & E). rewrite seq_nil in E.
    assert (u7 = w) by congruence. assert (t7 = []) by congruence. subst u7 t7. clear E.
    exists a0, a1, a2, a3, a4, a5.
    apply optional_step in E6 as [(a6 & c6 & D6 & L6 & -> & ->)|(-> & -> & _)]; [| |lia..];
    (apply optional_step in E7 as [(a7 & c7 & D7 & L7 & -> & ->)|(-> & -> & _)]; [| |lia..]).
    + exists (Some a6), (Some a7). split; [|reflexivity]. exists c0, c1, c2, c3, c4, c5, c6, c7. rewrite app_nil_r. tauto.
    + exists (Some a6), None. split; [|reflexivity]. exists c0, c1, c2, c3, c4, c5, c6, []. tauto.
    + exists None, (Some a7). split; [|reflexivity]. exists c0, c1, c2, c3, c4, c5, [], c7. rewrite app_nil_r. tauto.
    + exists None, None. split; [|reflexivity]. exists c0, c1, c2, c3, c4, c5, [], []. tauto.
  - intros (a0 & a1 & a2 & a3 & a4 & a5 & bits & hash & (c0 & c1 & c2 & c3 & c4 & c5 & c6 & c7 & -> & D0 & (D1 & L1) & (D2 & L2) & (D3 & L3) & D4 & (D5 & L5) & D6 & D7) & ->).
    apply seq_step. eexists _, _. split; [apply read_step; exists a0, c0; split; [exact D0|]; split; reflexivity|].
    apply seq_step. eexists _, _. split; [apply pubkey_step; [lia..|]; exists a1, c1; split; [exact D1|]; split; [exact L1|]; split; reflexivity|].
    apply seq_step. eexists _, _. split; [apply push_size_data; [lia..|]; exists a2, c2; split; [exact D2|]; split; [exact L2|]; split; reflexivity|].
    apply seq_step. eexists _, _. split; [apply push_size_data; [lia..|]; exists a3, c3; split; [exact D3|]; split; [exact L3|]; split; reflexivity|].
    apply seq_step. eexists _, _. split; [apply read_step; exists a4, c4; split; [exact D4|]; split; reflexivity|].
    apply seq_step. eexists _, _. split; [apply push_size_data; [lia..|]; exists a5, c5; split; [exact D5|]; split; [exact L5|]; split; reflexivity|].
    set (v5 := put 5 a5 _). apply seq_step. exists (match bits with Some d => put 6 d v5 | None => v5 end), c7. split.
    { apply optional_step; [lia..|]. destruct bits as [g|].
      - left. exists g, c6. tauto.
      - right. subst c6. split; [reflexivity|]. split; [reflexivity|]. destruct hash as [d|]; [|left; exact D7]. right.
        destruct D7 as (D7 & L7). destruct (data_whole neg1 d c7 D7) as (i & Wi & Vi); [lia|]. exists i, c7, []. split; [assumption|]. cbn [app]. rewrite app_nil_r. split; [reflexivity|]. rewrite Vi. lia. }
    apply seq_step. exists (input_filled a0 a1 a2 a3 a4 a5 bits hash v), []. split; [|reflexivity].
    apply optional_step; [lia..|]. destruct hash as [d|].
    + left. exists d, c7. destruct D7. rewrite app_nil_r. split; [assumption|]. split; [assumption|]. split; reflexivity.
    + right. split; [reflexivity|]. split; [assumption|]. left. assumption.
Qed.
Definition field_input (sig key nonce time x2 x1 : bytes) (bits hash : option bytes) : input :=
  {| bi_type := match hash with Some _ => Bounty | None => Contract end; bi_sig := sig; bi_key := key; bi_nonce := le_val nonce;
     bi_timestamp := le_val time; bi_extra2 := x2; bi_extra1 := be_val x1;
     bi_bits := match bits with Some g => Some (sle_val g) | None => None end;
     bi_hash := match hash with Some d => d | None => zero20 end |}.
Lemma filled_input neg1 sig key nonce time x2 x1 bits hash s : input_fields_form neg1 sig key nonce time x2 x1 bits hash s ->
  input_of (input_filled sig key nonce time x2 x1 bits hash input_vars) =
  if (match bits with Some _ => 32 <? len x2 | None => negb (len x2 =? 8) end) then no_input else field_input sig key nonce time x2 x1 bits hash.
Proof.
  intros (cs & ck & cn & ct & c2 & c1 & cb & ch & _ & _ & _ & _ & _ & _ & _ & D6 & D7).
  destruct bits as [g|], hash as [d|]; unfold input_filled, input_vars, input_of; cbn [repeat put get nth]; repeat match goal with A : _ /\ len _ = _ |- _ => destruct A as (_ & A); rewrite A; clear A end; reflexivity.
Qed.
Lemma be4_back b : len b = 4 -> be 4 (be_val b) = b /\ u32 (be_val b).
Proof.
  intros L. assert (length b = 4%nat) by (unfold len in L; lia). assert (R : length (rev b) = 4%nat) by now rewrite rev_length.
  unfold be, be_val, u32. split.
  - rewrite <- R. rewrite le_le_val. apply rev_involutive.
  - pose proof (le_val_bound (rev b)) as B. rewrite R in B. exact B.
Qed.
Lemma be4_val n : u32 n -> be_val (be 4 n) = n.
Proof. intros U. unfold be, be_val. rewrite rev_involutive. now apply le4_val. Qed.

Theorem input_exact neg1 s i : len neg1 < 4 ->
  (input_read neg1 s = Ret i /\ input_valid i = true) <-> (sound_input i /\ input_form neg1 i s).
Proof.
  intros Ng. split.
  - intros (E & V). unfold input_read in E. destruct (pmatch neg1 0 input_pattern s input_vars) as [u [[]|x| |]] eqn:P; cbn [matched] in E; try discriminate.
    2: { assert (no_input = i) by congruence. subst i. discriminate. }
    apply input_match in P as (sig & key & nonce & time & x2 & x1 & bits & hash & F & ->); [|assumption]. rewrite (filled_input _ _ _ _ _ _ _ _ _ _ F) in E.
    destruct (match bits with Some _ => 32 <? len x2 | None => negb (len x2 =? 8) end) eqn:B.
    { assert (no_input = i) by congruence. subst i. discriminate. }
    assert (i = field_input sig key nonce time x2 x1 bits hash) by congruence. subst i. clear E.
    destruct F as (cs & ck & cn & ct & c2 & c1 & cb & ch & -> & D0 & (D1 & L1) & (D2 & L2) & (D3 & L3) & D4 & (D5 & L5) & D6 & D7).
    destruct (le4_back nonce L2) as (S2 & R2). destruct (le4_back time L3) as (S3 & R3). destruct (be4_back x1 L5) as (S5 & R5). split.
    + unfold sound_input, input_fields, extra2_fits, field_input. cbn [bi_type bi_sig bi_key bi_nonce bi_timestamp bi_extra2 bi_extra1 bi_bits bi_hash].
      split; [|split].
      * split; [destruct hash; [apply D7|reflexivity]|]. repeat (split; [assumption|]). destruct bits as [g|]; [|exact Logic.I].
        destruct D6 as (_ & L6). now apply sle4_back.
      * destruct bits; lia.
      * destruct hash; [exact Logic.I|reflexivity].
    + exists cs, ck, cn, ct, c2, c1, cb, ch. unfold field_input. cbn [bi_type bi_sig bi_key bi_nonce bi_timestamp bi_extra2 bi_extra1 bi_bits bi_hash].
      rewrite S2, S3, S5. repeat (split; [assumption || reflexivity|]). split.
      * destruct bits as [g|]; [|assumption]. destruct D6 as (D6 & L6). rewrite (proj1 (sle4_back g L6)). assumption.
      * destruct hash; [apply D7|assumption].
  - intros (((Lh & Lk & Rn & Rt & R1 & Rb) & Fx & T) & cs & ck & cn & ct & c2 & c1 & cb & ch & E & D0 & D1 & D2 & D3 & D4 & D5 & D6 & D7).
    assert (F : input_fields_form neg1 (bi_sig i) (bi_key i) (le 4 (bi_nonce i)) (le 4 (bi_timestamp i)) (bi_extra2 i) (be 4 (bi_extra1 i))
      (match bi_bits i with Some g => Some (sle 4 g) | None => None end) (match bi_type i with Bounty => Some (bi_hash i) | _ => None end) s).
    { exists cs, ck, cn, ct, c2, c1, cb, ch. rewrite !len_le, len_be. repeat (split; [tauto|]). split.
      - destruct (bi_bits i); [rewrite len_sle; auto|assumption].
      - destruct (bi_type i); auto. }
    assert (P : pmatch neg1 0 input_pattern s input_vars = (input_filled (bi_sig i) (bi_key i) (le 4 (bi_nonce i)) (le 4 (bi_timestamp i)) (bi_extra2 i) (be 4 (bi_extra1 i))
      (match bi_bits i with Some g => Some (sle 4 g) | None => None end) (match bi_type i with Bounty => Some (bi_hash i) | _ => None end) input_vars, Matched true)).
    { apply input_match; [assumption|]. eexists _, _, _, _, _, _, _, _. split; [exact F|reflexivity]. }
    unfold input_read. rewrite P. cbn [matched]. rewrite (filled_input _ _ _ _ _ _ _ _ _ _ F). unfold field_input.
    rewrite !le4_val, be4_val by assumption. unfold extra2_fits in Fx. unfold input_valid, has_bits.
    destruct i as [ty sig key nonce time x2 x1 bits hash]. cbn [bi_type bi_sig bi_key bi_nonce bi_timestamp bi_extra2 bi_extra1 bi_bits bi_hash] in *.
    destruct bits as [g|]; [rewrite (sle4_val g Rb); replace (32 <? len x2) with false by lia|replace (negb (len x2 =? 8)) with false by lia];
    (destruct ty; [contradiction| |]; cbn [is_invalid negb andb]; (split; [|lia]); [|rewrite T]; reflexivity).
Qed.
Theorem input_misfit neg1 s i : len neg1 < 4 -> input_fields i -> ~ extra2_fits i -> input_form neg1 i s -> input_read neg1 s = Ret no_input.
Proof.
  intros Ng (Lh & Lk & Rn & Rt & R1 & Rb) Fx (cs & ck & cn & ct & c2 & c1 & cb & ch & E & D0 & D1 & D2 & D3 & D4 & D5 & D6 & D7).
  assert (F : input_fields_form neg1 (bi_sig i) (bi_key i) (le 4 (bi_nonce i)) (le 4 (bi_timestamp i)) (bi_extra2 i) (be 4 (bi_extra1 i))
      (match bi_bits i with Some g => Some (sle 4 g) | None => None end) (match bi_type i with Bounty => Some (bi_hash i) | _ => None end) s).
  { exists cs, ck, cn, ct, c2, c1, cb, ch. rewrite !len_le, len_be. repeat (split; [tauto|]). split.
    - destruct (bi_bits i); [rewrite len_sle; auto|assumption].
    - destruct (bi_type i); auto. }
  assert (P : pmatch neg1 0 input_pattern s input_vars = (input_filled (bi_sig i) (bi_key i) (le 4 (bi_nonce i)) (le 4 (bi_timestamp i)) (bi_extra2 i) (be 4 (bi_extra1 i))
      (match bi_bits i with Some g => Some (sle 4 g) | None => None end) (match bi_type i with Bounty => Some (bi_hash i) | _ => None end) input_vars, Matched true)).
  { apply input_match; [assumption|]. eexists _, _, _, _, _, _, _, _. split; [exact F|reflexivity]. }
  unfold input_read. rewrite P. cbn [matched]. rewrite (filled_input _ _ _ _ _ _ _ _ _ _ F). unfold extra2_fits in Fx. destruct (bi_bits i).
  - now replace (32 <? len (bi_extra2 i)) with true by lia.
  - now replace (negb (len (bi_extra2 i) =? 8)) with true by lia.
Qed.

(* ---- writing ---- *)
Lemma input_write_exact i : writable_input i ->
  input_write i = Some (input_bytes i (instr_write (push (bi_sig i))) (instr_write (push (bi_extra2 i)))).
Proof.
  intros ((Lh & Lk & Rn & Rt & R1 & Rb) & Ls & Lx & T).
  assert (Z : sized (input_program i)).
  { unfold input_program. assert (G : forall p, sized p -> sized ([push (bi_sig i); push (bi_key i); push (le 4 (bi_nonce i)); push (le 4 (bi_timestamp i)); push (bi_extra2 i); push (be 4 (bi_extra1 i))] ++ 
      match bi_bits i with Some g => [push (sle 4 g)] | None => [] end ++ p)).
    { intros p Zp. apply sized_app; [|apply sized_app; [|exact Zp]].
      - repeat (apply sized_cons; [apply sized_push; rewrite ?len_be, ?len_le; lia|]). apply sized_nil.
      - destruct (bi_bits i); [apply sized_push; rewrite len_sle; lia|apply sized_nil]. }
    destruct (bi_type i); [contradiction|apply G; apply sized_push; lia|apply G, sized_nil]. }
  assert (E : program_write (input_program i) = input_bytes i (instr_write (push (bi_sig i))) (instr_write (push (bi_extra2 i)))).
  { unfold input_program, input_bytes.
    assert (B : program_write (match bi_bits i with Some g => [push (sle 4 g)] | None => [] end) = match bi_bits i with Some g => plain_push (sle 4 g) | None => [] end).
    { destruct (bi_bits i); [|reflexivity]. rewrite write_cons, plain_write by (rewrite len_sle; lia). apply app_nil_r. }
    assert (A : program_write [push (bi_sig i); push (bi_key i); push (le 4 (bi_nonce i)); push (le 4 (bi_timestamp i)); push (bi_extra2 i); push (be 4 (bi_extra1 i))] =
      instr_write (push (bi_sig i)) ++ plain_push (bi_key i) ++ plain_push (le 4 (bi_nonce i)) ++ plain_push (le 4 (bi_timestamp i)) ++ instr_write (push (bi_extra2 i)) ++ plain_push (be 4 (bi_extra1 i))).
    { rewrite !write_cons. rewrite !(plain_write (le 4 _)) by (rewrite len_le; lia). rewrite (plain_write (be 4 _)) by (rewrite len_be; lia). rewrite (plain_write (bi_key i)) by lia.
      change (program_write []) with ([] : bytes). now rewrite app_nil_r. }
    destruct (bi_type i); [contradiction| |]; rewrite !program_write_app, A, <- !app_assoc; do 6 f_equal; (apply f_equal2; [exact B|]).
    - rewrite write_cons, plain_write by lia. apply app_nil_r.
    - reflexivity. }
  unfold input_write. now rewrite sized_compile, E.
Qed.
Theorem input_written i : writable_input i ->
  exists sig extra2, shortest_push (bi_sig i) sig /\ shortest_push (bi_extra2 i) extra2 /\ input_write i = Some (input_bytes i sig extra2).
Proof.
  intros W. assert (X := W). destruct X as (_ & Lt & Ld & _). exists (instr_write (push (bi_sig i))), (instr_write (push (bi_extra2 i))).
  split; [now apply shortest|]. split; [now apply shortest|]. now apply input_write_exact.
Qed.
Lemma input_written_form neg1 i : writable_input i ->
  input_form neg1 (input_back neg1 i) (input_bytes i (instr_write (push (bi_sig i))) (instr_write (push (bi_extra2 i)))).
Proof.
  intros ((Lh & Lk & Rn & Rt & R1 & Rb) & Ls & Lx & T). unfold input_bytes, input_form, input_back.
  cbn [bi_type bi_sig bi_key bi_nonce bi_timestamp bi_extra2 bi_extra1 bi_bits bi_hash].
  eexists _, _, _, _, _, _, _, _. split; [reflexivity|]. split; [now apply pushes_back|]. split; [apply plain_data; lia|].
  split; [apply plain_data; rewrite len_le; lia|]. split; [apply plain_data; rewrite len_le; lia|]. split; [now apply pushes_back|].
  split; [apply plain_data; rewrite len_be; lia|]. split.
  - destruct (bi_bits i); [apply plain_data; rewrite len_sle; lia|reflexivity].
  - destruct (bi_type i); [contradiction|apply plain_data; lia|reflexivity].
Qed.
Theorem input_round_trip neg1 i s : len neg1 < 4 -> writable_input i -> (bi_type i = Contract -> bi_hash i = zero20) -> input_write i = Some s ->
  input_read neg1 s = Ret (if input_valid i then input_back neg1 i else no_input).
Proof.
  intros Ng W Hb E. rewrite input_write_exact in E by assumption. assert (s = input_bytes i (instr_write (push (bi_sig i))) (instr_write (push (bi_extra2 i)))) by congruence. subst s.
  pose proof (input_written_form neg1 i W) as F. destruct W as (Fl & Ls & Lx & T).
  assert (X : input_valid i = true <-> extra2_fits i).
  { unfold input_valid, extra2_fits, has_bits. destruct (bi_type i); [contradiction| |]; cbn [is_invalid negb andb]; destruct (bi_bits i); lia. }
  assert (Y : extra2_fits (input_back neg1 i) <-> extra2_fits i).
  { unfold extra2_fits, input_back, back. cbn [bi_bits bi_extra2]. destruct (bytes_eqb (bi_extra2 i) [x81]) eqn:Q; [|reflexivity].
    apply bytes_eqb_eq in Q. rewrite Q. change (len [x81]) with 1. destruct (bi_bits i); lia. }
  destruct (input_valid i) eqn:V.
  - apply input_exact; [assumption|]. split; [|exact F]. split; [exact Fl|]. split; [now apply Y, X|].
    cbn [input_back bi_type bi_hash]. destruct (bi_type i); [contradiction|exact Logic.I|now apply Hb].
  - apply (input_misfit neg1 _ (input_back neg1 i)); [assumption|exact Fl| |exact F]. intros Z. apply Y, X in Z. discriminate.
Qed.
Theorem input_kept neg1 i s : len neg1 < 4 -> sound_input i -> len (bi_sig i) < 2 ^ 31 -> input_write i = Some s ->
  input_read neg1 s = Ret i <-> kept neg1 (bi_sig i) /\ kept neg1 (bi_extra2 i).
Proof.
  intros Ng (F & Fx & T) Ls E. assert (W : writable_input i).
  { split; [exact F|]. split; [assumption|]. split; [unfold extra2_fits in Fx; destruct (bi_bits i); lia|]. intros X. rewrite X in T. exact T. }
  rewrite (input_round_trip neg1 i s Ng W); [|intros X; rewrite X in T; exact T|assumption].
  replace (input_valid i) with true.
  2: { unfold input_valid, has_bits. unfold extra2_fits in Fx. destruct (bi_type i); [contradiction| |]; cbn [is_invalid negb andb]; destruct (bi_bits i); lia. }
  rewrite <- !back_kept. destruct i as [ty sig key nonce time x2 x1 bits hash].
  unfold input_back. cbn [bi_type bi_sig bi_key bi_nonce bi_timestamp bi_extra2 bi_extra1 bi_bits bi_hash]. split.
  - intros X. split; congruence.
  - intros (-> & ->). reflexivity.
Qed.
Theorem input_sized i s : sound_input i -> len (bi_sig i) < 2 ^ 31 -> input_write i = Some s -> input_size i = len s + miscounted (bi_sig i).
Proof.
  intros (F & Fx & T) Ls E. assert (Lx : len (bi_extra2 i) <= 32) by (unfold extra2_fits in Fx; destruct (bi_bits i); lia). assert (W : writable_input i).
  { split; [exact F|]. split; [assumption|]. split; [lia|]. intros X. rewrite X in T. exact T. }
  rewrite input_write_exact in E by assumption. assert (s = input_bytes i (instr_write (push (bi_sig i))) (instr_write (push (bi_extra2 i)))) by congruence. subst s.
  destruct F as (Lh & Lk & _).
  unfold input_size, input_bytes. rewrite (min_push_miscount (bi_key i)), (min_push_miscount (bi_sig i)), (min_push_miscount (bi_extra2 i)), (plain_write (bi_key i)) by lia.
  assert (M : forall d, len d < 75 -> miscounted d = 0).
  { intros d L. unfold miscounted. replace ((len d =? 75) || (len d =? 255)) with false by lia. now replace (len d =? 65535) with false by lia. }
  rewrite (M (bi_key i)), (M (bi_extra2 i)) by lia. rewrite !len_app, !len_plain, !len_le, len_be. unfold has_bits.
  destruct (bi_bits i), (bi_type i); try contradiction; rewrite ?len_plain, ?len_sle, ?len_nil, ?Lh; lia.
Qed.
Theorem input_estimate i s : sound_input i -> 2 <= len (bi_sig i) <= 75 -> 2 <= len (bi_extra2 i) -> input_write i = Some s ->
  len s + 80 = input_expected_size (bi_type i) (has_bits i) (len (bi_key i) =? 33) + len (bi_sig i) + len (bi_extra2 i).
Proof.
  intros (F & Fx & T) Ls L2 E. assert (Lx : len (bi_extra2 i) <= 32) by (unfold extra2_fits in Fx; destruct (bi_bits i); lia). assert (W : writable_input i).
  { split; [exact F|]. split; [lia|]. split; [lia|]. intros X. rewrite X in T. exact T. }
  rewrite input_write_exact in E by assumption. assert (s = input_bytes i (instr_write (push (bi_sig i))) (instr_write (push (bi_extra2 i)))) by congruence. subst s.
  destruct F as (Lh & Lk & _). unfold input_bytes, input_expected_size, signature_max. rewrite !plain_write by lia.
  rewrite !len_app, !len_plain, !len_le, len_be. unfold has_bits.
  destruct (bi_bits i), (bi_type i); try contradiction; rewrite ?len_plain, ?len_sle, ?len_nil, ?Lh; destruct Lk as [-> | ->]; cbn [N.eqb Pos.eqb]; lia.
Qed.
