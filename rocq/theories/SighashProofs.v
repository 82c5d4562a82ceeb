(* Proofs about signature-hash preimages. *)
From Verif Require Import Base BaseProofs WireModel WireSpec WireProofs ScriptModel ScriptSpec ScriptProofs ProgramProofs
  MachineModel SighashModel SighashSpec.
From Coq Require Import ZifyBool ZifyNat ZifyN.
Local Open Scope N_scope.
Ltac Zify.zify_post_hook ::= Z.div_mod_to_equations.

Lemma some_eq {A} (a b : A) : Some a = Some b -> a = b.
Proof. congruence. Qed.

(* ---------------------------------------------------------------- directives *)
Lemma base_kind d : sh_base d = kind d.
Proof. destruct d; reflexivity. Qed.

Lemma fork_test d : has_fork_id d = (64 <=? b2n d mod 128).
Proof. destruct d; reflexivity. Qed.
Lemma acp_test d : is_anyone_can_pay d = (128 <=? b2n d).
Proof. destruct d; reflexivity. Qed.

Lemma fork_iff d : has_fork_id d = true <-> fork_bit d.
Proof.
  rewrite fork_test. unfold fork_bit. pose proof (b2n_lt d). split.
  - intros E. exists (b2n d / 128), (b2n d mod 128 - 64). lia.
  - intros (q & r & E & L). lia.
Qed.
Lemma acp_iff d : is_anyone_can_pay d = true <-> acp_bit d.
Proof. rewrite acp_test. unfold acp_bit. lia. Qed.
Lemma acp_niff d : is_anyone_can_pay d = false <-> ~ acp_bit d.
Proof. rewrite <- acp_iff. destruct (is_anyone_can_pay d); intuition congruence. Qed.
Lemma fork_niff d : has_fork_id d = false <-> ~ fork_bit d.
Proof. rewrite <- fork_iff. destruct (has_fork_id d); intuition congruence. Qed.

Lemma clear_fork d : has_fork_id d = false -> clear_fork_id d = d.
Proof. destruct d; intros E; try discriminate E; reflexivity. Qed.

Lemma directive_parts t acp fork : t < 32 ->
  kind (directive t acp fork) = t /\ (fork_bit (directive t acp fork) <-> fork = true) /\
  (acp_bit (directive t acp fork) <-> acp = true) /\
  (directive_valid (directive t acp fork) = true <-> t < 4).
Proof.
  intros L.
  assert (C : forallb (fun t => forallb (fun a => forallb (fun f =>
      (kind (directive t a f) =? t) && Bool.eqb (has_fork_id (directive t a f)) f &&
      Bool.eqb (is_anyone_can_pay (directive t a f)) a && Bool.eqb (directive_valid (directive t a f)) (t <? 4))
      [true; false]) [true; false]) (map N.of_nat (seq 0 32)) = true) by (vm_compute; reflexivity).
  rewrite forallb_forall in C. specialize (C t).
  assert (In t (map N.of_nat (seq 0 32))) as I.
  { apply in_map_iff. exists (N.to_nat t). split; [lia|]. apply List.in_seq. lia. }
  specialize (C I). rewrite forallb_forall in C. specialize (C acp).
  assert (I2 : In acp [true; false]) by (destruct acp; cbn; auto). specialize (C I2).
  rewrite forallb_forall in C. specialize (C fork).
  assert (I3 : In fork [true; false]) by (destruct fork; cbn; auto). specialize (C I3).
  rewrite <- fork_iff, <- acp_iff. rewrite !andb_true_iff, !eqb_true_iff in C. destruct C as (((A & B) & D) & E).
  apply N.eqb_eq in A. rewrite B, D, E, N.ltb_lt. tauto.
Qed.

Lemma directive_decompose d : directive_valid d = true <->
  exists t acp fork, t < 4 /\ d = directive t acp fork.
Proof.
  split.
  - intros V. exists (kind d), (is_anyone_can_pay d), (has_fork_id d).
    destruct d; try discriminate V; split; reflexivity.
  - intros (t & acp & fork & L & ->). apply directive_parts; lia.
Qed.

Lemma directive_inj t acp fork t' acp' fork' : t < 32 -> t' < 32 ->
  directive t acp fork = directive t' acp' fork' -> t = t' /\ acp = acp' /\ fork = fork'.
Proof.
  intros L L' E. destruct (directive_parts t acp fork L) as (A & B & C & _).
  destruct (directive_parts t' acp' fork' L') as (A' & B' & C' & _). rewrite E in A, B, C.
  split; [congruence|]. split.
  - destruct acp, acp'; intuition.
  - destruct fork, fork'; intuition.
Qed.

Lemma directive_determined d e : kind d = kind e -> (fork_bit d <-> fork_bit e) -> (acp_bit d <-> acp_bit e) ->
  directive_valid d = true -> directive_valid e = true -> d = e.
Proof.
  intros K F A Vd Ve. apply directive_decompose in Vd as (t & a & f & L & ->).
  apply directive_decompose in Ve as (t' & a' & f' & L' & ->).
  destruct (directive_parts t a f ltac:(lia)) as (P & Q & R & _).
  destruct (directive_parts t' a' f' ltac:(lia)) as (P' & Q' & R' & _).
  rewrite P, P' in K. subst t'. f_equal; [destruct a, a'|destruct f, f']; intuition.
Qed.

(* ---------------------------------------------------------------- shortest forms *)
Lemma shortest_iff {A} (F : A -> bytes -> Prop) wf w r : parses F r -> codec wf w r ->
  forall a c, wf a -> (shortest (F a) c <-> c = w a).
Proof.
  intros P C a c W. pose proof (parses_write _ _ _ _ P C a W) as Fw. split.
  - intros [Fc L]. destruct (parses_shortest _ _ _ _ P C _ _ Fc) as (_ & L' & Q).
    specialize (L _ Fw). symmetry. apply Q. lia.
  - intros ->. split; [exact Fw|]. intros c' Fc'. now destruct (parses_shortest _ _ _ _ P C _ _ Fc').
Qed.

Lemma le_form_iff k n c : n < pow256 k -> (le_form k n c <-> c = le k n).
Proof.
  intros L. unfold le_form. split.
  - intros (<- & <-). symmetry. apply le_le_val.
  - intros ->. rewrite le_length, le_val_le. split; [reflexivity|]. now apply N.mod_small.
Qed.
Lemma sle_form_iff k z c : srange k z -> (sle_form k z c <-> c = sle k z).
Proof.
  intros L. unfold sle_form. split.
  - intros (<- & <-). symmetry. apply sle_sle_val.
  - intros ->. now rewrite sle_length, sle_val_sle.
Qed.
Lemma le_form_shortest k n c : n < pow256 k -> (shortest (le_form k n) c <-> c = le k n).
Proof.
  intros L. rewrite <- (le_form_iff k n c L). unfold shortest. split; [tauto|]. intros F. split; [exact F|].
  intros c' F'. destruct F, F'. lia.
Qed.
Lemma outpoint_form_iff o c : outpoint_wf o -> (outpoint_form o c <-> c = outpoint_write o).
Proof.
  intros [W1 W2]. split.
  - intros F. inversion F as [i A B]; subst. apply le_form_iff in B; [|apply u32_pow, W2]. subst. reflexivity.
  - intros ->. constructor; [exact W1|]. apply le_form_iff; [apply u32_pow, W2|reflexivity].
Qed.
Lemma outpoint_shortest o c : outpoint_wf o -> (shortest (outpoint_form o) c <-> c = outpoint_write o).
Proof. intros W. apply (shortest_iff _ _ _ _ parses_outpoint codec_outpoint _ _ W). Qed.
Lemma output_shortest o c : output_wf o -> (shortest (output_form o) c <-> c = output_write o).
Proof. intros W. apply (shortest_iff _ _ _ _ parses_output codec_output _ _ W). Qed.
Lemma string_shortest s c : u64 (len s) -> (shortest (string_form s) c <-> c = var_string_write s).
Proof. intros W. apply (shortest_iff _ _ _ _ parses_string codec_var_string _ _ W). Qed.
Lemma tx_shortest t c : tx_wf t -> (shortest (tx_form t) c <-> c = tx_write t).
Proof. intros W. apply (shortest_iff _ _ _ _ parses_tx codec_tx _ _ W). Qed.

Lemma all_forms_iff {X} (F : X -> bytes -> Prop) (w : X -> bytes) l c :
  Forall (fun x => forall c, shortest (F x) c <-> c = w x) l ->
  (all_forms F l c <-> c = concat (map w l)).
Proof.
  intros Hl. unfold all_forms. split.
  - intros (parts & A & ->). f_equal. revert Hl. induction A as [|x p l parts S A IH]; intros Hl; [reflexivity|].
    inversion Hl as [|? ? Hx Hr]; subst. cbn [map]. f_equal; [now apply Hx|auto].
  - intros ->. exists (map w l). split; [|reflexivity]. induction Hl as [|x l Hx Hl IH]; [constructor|].
    constructor; [now apply Hx|exact IH].
Qed.

(* ---------------------------------------------------------------- script code *)
Lemma code_form_compile p b : code_form p b -> compile p = Some b.
Proof. intros (s & S & -> & L). now apply compile_segments. Qed.
Lemma code_form_fun p b c : code_form p b -> code_form p c -> b = c.
Proof. intros A B. apply code_form_compile in A, B. congruence. Qed.

Lemma segments_inj p s : segments p s -> forall q t, segments q t -> concat s = concat t -> p = q.
Proof.
  induction 1 as [|i p c s I S IH]; intros q t T E; inversion T as [|j q' c' t' J T']; subst; [reflexivity| | |].
  - cbn in E. destruct (inst_nonempty _ _ J). now destruct c'.
  - cbn in E. destruct (inst_nonempty _ _ I). now destruct c.
  - cbn [concat] in E. pose proof (read_instr_of_form _ _ (concat s) I) as R. rewrite E in R.
    rewrite (read_instr_of_form _ _ (concat t') J) in R. inversion R; subst. f_equal. eapply IH; eauto.
Qed.
Lemma code_form_inj p q b : code_form p b -> code_form q b -> p = q.
Proof. intros (s & S & E & _) (t & T & E' & _). eapply segments_inj; eauto. congruence. Qed.

Lemma segments_filter f p s : segments p s ->
  exists t, segments (filter f p) t /\ (length (concat t) <= length (concat s))%nat.
Proof.
  induction 1 as [|i p c s I S IH]; [exists []; split; [constructor|reflexivity]|].
  destruct IH as (t & T & L). cbn [filter]. destruct (f i).
  - exists (c :: t). split; [now constructor|]. cbn [concat]. rewrite !app_length. lia.
  - exists t. split; [exact T|]. cbn [concat]. rewrite app_length. lia.
Qed.
Lemma stripped_exists p b : code_form p b -> exists c, stripped p c /\ len c <= len b.
Proof.
  intros (s & S & -> & L). destruct (segments_filter (fun i => negb (byte_eqb (i_op i) OP_CODESEPARATOR)) _ _ S) as (t & T & M).
  exists (concat t). unfold stripped, code_form, len in *. split; [|lia]. exists t. repeat split; auto. lia.
Qed.
Lemma stripped_compile p c : stripped p c -> remove_code_separators p = Some c.
Proof. apply code_form_compile. Qed.
Lemma code_form_u64 p b : code_form p b -> u64 (len b).
Proof. intros (s & _ & _ & L). unfold u64. change (2 ^ 32) with 4294967296 in L. change (2 ^ 64) with 18446744073709551616. lia. Qed.

(* ---------------------------------------------------------------- the fork-id preimage *)
Lemma sr4 z : i32 z -> srange 4 z. Proof. apply i32_srange. Qed.
Lemma sr8 z : i64 z -> srange 8 z. Proof. apply i64_srange. Qed.
Lemma d_u32 d : b2n d < pow256 4.
Proof. pose proof (b2n_lt d). rewrite pow256_4. lia. Qed.

(* the concatenated fields of the fork-id preimage, without the cache *)
Definition fork_outputs (H : bytes -> bytes) (doc : sdoc) (d : byte) : option bytes :=
  if kind d =? 1 then Some (hash_outputs H (sd_tx doc))
  else if kind d =? 3 then
    match nth_error (it_outputs (sd_tx doc)) (N.to_nat (sd_index doc)) with
    | Some o => Some (H (output_write o)) | None => None end
  else Some zero32.
Definition fork_prevouts (H : bytes -> bytes) (doc : sdoc) (d : byte) : bytes :=
  if 128 <=? b2n d then zero32 else hash_prevouts H (sd_tx doc).
Definition fork_sequence (H : bytes -> bytes) (doc : sdoc) (d : byte) : bytes :=
  if (128 <=? b2n d) || (kind d =? 2) || (kind d =? 3) then zero32 else hash_sequence H (sd_tx doc).
Definition fork_bytes (H : bytes -> bytes) (doc : sdoc) (d : byte) (code : bytes) : option bytes :=
  match nth_error (it_inputs (sd_tx doc)) (N.to_nat (sd_index doc)), fork_outputs H doc d with
  | Some x, Some outs =>
    Some (sle 4 (it_version (sd_tx doc)) ++ fork_prevouts H doc d ++ fork_sequence H doc d ++
          outpoint_write (ii_ref x) ++ var_string_write code ++ sle 8 (sd_value doc) ++ le 4 (ii_seq x) ++
          outs ++ le 4 (it_locktime (sd_tx doc)) ++ le 4 (b2n d))
  | _, _ => None
  end.

Lemma coherent_empty H t : coherent H t empty_cache.
Proof. repeat split; intros h E; discriminate E. Qed.

Lemma cached_prevouts_ok H t c : coherent H t c ->
  exists c', cached_prevouts H t c = (hash_prevouts H t, c') /\ coherent H t c'.
Proof.
  intros (A & B & C). unfold cached_prevouts. destruct (c_prevouts c) as [h|] eqn:E.
  - exists c. rewrite (A h eq_refl). repeat split; auto; intros h' E'; apply A; congruence.
  - eexists. split; [reflexivity|]. repeat split; cbn; auto. congruence.
Qed.
Lemma cached_sequence_ok H t c : coherent H t c ->
  exists c', cached_sequence H t c = (hash_sequence H t, c') /\ coherent H t c'.
Proof.
  intros (A & B & C). unfold cached_sequence. destruct (c_sequence c) as [h|] eqn:E.
  - exists c. rewrite (B h eq_refl). repeat split; auto; intros h' E'; apply B; congruence.
  - eexists. split; [reflexivity|]. repeat split; cbn; auto. congruence.
Qed.
Lemma cached_outputs_ok H t c : coherent H t c ->
  exists c', cached_outputs H t c = (hash_outputs H t, c') /\ coherent H t c'.
Proof.
  intros (A & B & C). unfold cached_outputs. destruct (c_outputs c) as [h|] eqn:E.
  - exists c. rewrite (C h eq_refl). repeat split; auto; intros h' E'; apply C; congruence.
  - eexists. split; [reflexivity|]. repeat split; cbn; auto. congruence.
Qed.

Lemma output_bytes_eq o : output_bytes o = Some (output_write o).
Proof. unfold output_bytes. apply WireProofs.buffer_write_exact, output_len. Qed.

Lemma amaury_eq H doc d c code : compile (sd_code doc) = Some code -> coherent H (sd_tx doc) c ->
  match fork_bytes H doc d code with
  | Some b => exists c', amaury H doc d c = Some (b, c') /\ coherent H (sd_tx doc) c'
  | None => amaury H doc d c = None
  end.
Proof.
  intros EC K. unfold amaury. rewrite !base_kind, acp_test.
  assert (A1 : exists c1, (if negb (128 <=? b2n d) then cached_prevouts H (sd_tx doc) c else (zero32, c)) =
            (fork_prevouts H doc d, c1) /\ coherent H (sd_tx doc) c1).
  { unfold fork_prevouts. destruct (128 <=? b2n d); cbn [negb]; [eauto|]. apply cached_prevouts_ok, K. }
  destruct A1 as (c1 & -> & K1). cbn iota beta.
  assert (A2 : exists c2, (if negb (128 <=? b2n d) && negb (kind d =? SH_SINGLE) && negb (kind d =? SH_NONE)
            then cached_sequence H (sd_tx doc) c1 else (zero32, c1)) =
            (fork_sequence H doc d, c2) /\ coherent H (sd_tx doc) c2).
  { unfold fork_sequence, SH_SINGLE, SH_NONE.
    destruct (128 <=? b2n d); cbn [negb orb andb]; [eauto|].
    destruct (kind d =? 2); cbn [negb orb andb]; [rewrite andb_false_r; eauto|].
    destruct (kind d =? 3); cbn [negb orb andb]; [eauto|]. apply cached_sequence_ok, K1. }
  destruct A2 as (c2 & -> & K2). cbn iota beta. unfold at_index, fork_bytes, fork_outputs. rewrite EC.
  destruct (nth_error (it_inputs (sd_tx doc)) (N.to_nat (sd_index doc))) as [x|] eqn:X; [|reflexivity].
  unfold SH_ALL, SH_SINGLE. destruct (kind d =? 1).
  { destruct (cached_outputs_ok H _ _ K2) as (c3 & -> & K3). eauto. }
  assert (L : sd_index doc <? N.of_nat (length (it_inputs (sd_tx doc))) = true).
  { assert (nth_error (it_inputs (sd_tx doc)) (N.to_nat (sd_index doc)) <> None) as NN by congruence.
    apply nth_error_Some in NN. lia. }
  rewrite L, andb_true_r. destruct (kind d =? 3).
  - destruct (nth_error (it_outputs (sd_tx doc)) (N.to_nat (sd_index doc))) as [o|]; [|reflexivity].
    rewrite output_bytes_eq. eauto.
  - eauto.
Qed.

Lemma sighash_fork H doc d code : fork_bit d -> code_form (sd_code doc) code ->
  sighash_write H doc d = fork_bytes H doc d code.
Proof.
  intros F C. unfold sighash_write, sighash_write_cached. apply fork_iff in F. rewrite F.
  pose proof (amaury_eq H doc d empty_cache code (code_form_compile _ _ C) (coherent_empty H (sd_tx doc))) as A.
  destruct (fork_bytes H doc d code) as [b|].
  - destruct A as (c & -> & _). reflexivity.
  - rewrite A. reflexivity.
Qed.

Lemma refs_forms t c : itx_wf t ->
  (all_forms (fun i => outpoint_form (ii_ref i)) (it_inputs t) c <-> c = concat (map (fun i => outpoint_write (ii_ref i)) (it_inputs t))).
Proof.
  intros (_ & (_ & W) & _). apply all_forms_iff. eapply Forall_impl; [|exact W].
  intros i [Wi _] c'. now apply outpoint_shortest.
Qed.
Lemma seqs_forms t c : itx_wf t ->
  (all_forms (fun i => le_form 4 (ii_seq i)) (it_inputs t) c <-> c = concat (map (fun i => le 4 (ii_seq i)) (it_inputs t))).
Proof.
  intros (_ & (_ & W) & _). apply all_forms_iff. eapply Forall_impl; [|exact W].
  intros i [_ Wi] c'. apply le_form_shortest, u32_pow, Wi.
Qed.
Lemma outs_forms t c : itx_wf t ->
  (all_forms output_form (it_outputs t) c <-> c = concat (map output_write (it_outputs t))).
Proof.
  intros (_ & _ & (_ & W) & _). apply all_forms_iff. eapply Forall_impl; [|exact W].
  intros i Wi c'. now apply output_shortest.
Qed.
Lemma hash_of_iff H F m0 c : (forall m, F m <-> m = m0) -> (hash_of H F c <-> c = H m0).
Proof.
  intros E. unfold hash_of. split.
  - intros (m & A & ->). apply E in A. now subst.
  - intros ->. exists m0. split; [now apply E|reflexivity].
Qed.

Lemma nth_wf {A} (P : A -> Prop) l k x : Forall P l -> nth_error l k = Some x -> P x.
Proof. intros F E. rewrite Forall_forall in F. apply F. eapply nth_error_In, E. Qed.

Theorem fork_layout_exact H doc d pre : sdoc_wf doc -> fork_bit d ->
  (sighash_write H doc d = Some pre <-> fork_layout H doc d pre).
Proof.
  intros (W & Wv & code & C) F. rewrite (sighash_fork H doc d code F C).
  pose proof W as (W1 & (_ & W2) & (_ & W3) & W4). unfold fork_bytes, fork_outputs, fork_prevouts, fork_sequence.
  pose proof (code_form_u64 _ _ C) as U.
  split.
  - destruct (nth_error (it_inputs (sd_tx doc)) _) as [x|] eqn:X; [|discriminate].
    pose proof (nth_wf _ _ _ _ W2 X) as [Wx1 Wx2].
    destruct (if kind d =? 1 then _ else _) as [outs|] eqn:O; [|discriminate].
    intros E. apply some_eq in E. subst pre.
    apply (fork_layout_i H doc d x) with (code := code); auto.
    + apply sle_form_iff; [apply sr4, W1|reflexivity].
    + unfold acp_bit. intros A. destruct (128 <=? b2n d) eqn:T; [reflexivity|lia].
    + unfold acp_bit. intros A. destruct (128 <=? b2n d) eqn:T; [lia|].
      apply (hash_of_iff H _ _ _ (fun m => refs_forms _ m W)). reflexivity.
    + unfold acp_bit. intros A. destruct ((128 <=? b2n d) || (kind d =? 2) || (kind d =? 3)) eqn:T; [reflexivity|lia].
    + unfold acp_bit. intros A1 A2 A3. destruct ((128 <=? b2n d) || (kind d =? 2) || (kind d =? 3)) eqn:T; [lia|].
      apply (hash_of_iff H _ _ _ (fun m => seqs_forms _ m W)). reflexivity.
    + now apply outpoint_form_iff.
    + now apply string_shortest.
    + apply sle_form_iff; [apply sr8, Wv|reflexivity].
    + apply le_form_iff; [apply u32_pow, Wx2|reflexivity].
    + intros K. destruct (kind d =? 1) eqn:T; [|lia]. inversion O.
      apply (hash_of_iff H _ _ _ (fun m => outs_forms _ m W)). reflexivity.
    + intros K. destruct (kind d =? 1) eqn:T; [lia|]. destruct (kind d =? 3) eqn:T3; [|lia].
      destruct (nth_error (it_outputs (sd_tx doc)) _) as [o|] eqn:EO; [|discriminate]. exists o. split; [reflexivity|].
      inversion O. apply (hash_of_iff H _ _ _ (fun m => output_shortest _ m (nth_wf _ _ _ _ W3 EO))). reflexivity.
    + intros K1 K3. destruct (kind d =? 1) eqn:T; [lia|]. destruct (kind d =? 3) eqn:T3; [lia|]. now inversion O.
    + apply le_form_iff; [apply u32_pow, W4|reflexivity].
    + apply le_form_iff; [apply d_u32|reflexivity].
  - intros L. inversion L as [x version prevouts sequences ref script code' value sequence outputs lock type
      X F1 P1 P2 S1 S2 R Cc St Va Se O1 O3 O0 Lk Ty]; subst pre.
    rewrite X. pose proof (nth_wf _ _ _ _ W2 X) as [Wx1 Wx2].
    assert (code' = code) by (eapply code_form_fun; eauto). subst code'.
    apply sle_form_iff in F1; [|apply sr4, W1]. apply outpoint_form_iff in R; [|exact Wx1].
    apply string_shortest in St; [|exact U]. apply sle_form_iff in Va; [|apply sr8, Wv].
    apply le_form_iff in Se; [|apply u32_pow, Wx2]. apply le_form_iff in Lk; [|apply u32_pow, W4].
    apply le_form_iff in Ty; [|apply d_u32].
    assert (EP : prevouts = if 128 <=? b2n d then zero32 else hash_prevouts H (sd_tx doc)).
    { unfold acp_bit in *. destruct (128 <=? b2n d) eqn:T; [apply P1; lia|].
      apply (hash_of_iff H _ _ _ (fun m => refs_forms _ m W)), P2. lia. }
    assert (ES : sequences = if (128 <=? b2n d) || (kind d =? 2) || (kind d =? 3) then zero32 else hash_sequence H (sd_tx doc)).
    { unfold acp_bit in *. destruct ((128 <=? b2n d) || (kind d =? 2) || (kind d =? 3)) eqn:T; [apply S1; lia|].
      apply (hash_of_iff H _ _ _ (fun m => seqs_forms _ m W)), S2; lia. }
    rewrite <- EP, <- ES.
    destruct (kind d =? 1) eqn:K1.
    + assert (outputs = hash_outputs H (sd_tx doc)).
      { apply (hash_of_iff H _ _ _ (fun m => outs_forms _ m W)), O1. lia. } subst. reflexivity.
    + destruct (kind d =? 3) eqn:K3.
      * destruct O3 as (o & EO & Ho); [lia|]. rewrite EO.
        apply (hash_of_iff H _ _ _ (fun m => output_shortest _ m (nth_wf _ _ _ _ W3 EO))) in Ho. subst. reflexivity.
      * assert (outputs = zero32) by (apply O0; lia). subst. reflexivity.
Qed.

Theorem fork_defined_exact H doc d : sdoc_wf doc -> fork_bit d ->
  ((exists pre, sighash_write H doc d = Some pre) <-> in_range d doc).
Proof.
  intros (W & Wv & code & C) F. rewrite (sighash_fork H doc d code F C).
  unfold fork_bytes, fork_outputs, in_range. split.
  - intros (pre & E). destruct (nth_error (it_inputs (sd_tx doc)) _) as [x|] eqn:X; [|discriminate].
    assert (NN : nth_error (it_inputs (sd_tx doc)) (N.to_nat (sd_index doc)) <> None) by congruence.
    apply nth_error_Some in NN. split; [lia|]. intros K.
    destruct (kind d =? 1) eqn:K1; [lia|]. destruct (kind d =? 3) eqn:K3; [|lia].
    destruct (nth_error (it_outputs (sd_tx doc)) _) as [o|] eqn:EO; [|discriminate].
    assert (MM : nth_error (it_outputs (sd_tx doc)) (N.to_nat (sd_index doc)) <> None) by congruence.
    apply nth_error_Some in MM. lia.
  - intros (L & O). destruct (nth_error (it_inputs (sd_tx doc)) _) as [x|] eqn:X.
    2:{ apply nth_error_None in X. lia. }
    destruct (kind d =? 1); [eauto|]. destruct (kind d =? 3) eqn:K3; [|eauto].
    destruct (nth_error (it_outputs (sd_tx doc)) _) as [o|] eqn:EO; [eauto|].
    apply nth_error_None in EO. lia.
Qed.

Lemma len_repeat (x : byte) n : len (repeat x n) = N.of_nat n.
Proof. unfold len. now rewrite repeat_length. Qed.
Lemma len_sle k z : len (sle k z) = N.of_nat k.
Proof. unfold len. now rewrite sle_length. Qed.

Theorem fork_length H doc d pre code : sdoc_wf doc -> fork_bit d -> (forall m, len (H m) = 32) ->
  code_form (sd_code doc) code -> sighash_write H doc d = Some pre ->
  len pre = 156 + var_int_size (len code) + len code.
Proof.
  intros (W & Wv & _) F HL C E. rewrite (sighash_fork H doc d code F C) in E.
  pose proof W as (_ & (_ & W2) & _). unfold fork_bytes in E.
  destruct (nth_error (it_inputs (sd_tx doc)) _) as [x|] eqn:X; [|discriminate].
  destruct (fork_outputs H doc d) as [outs|] eqn:O; [|discriminate]. apply some_eq in E. subst pre.
  pose proof (nth_wf _ _ _ _ W2 X) as [Wx _].
  assert (LO : len outs = 32).
  { unfold fork_outputs, hash_outputs in O. destruct (kind d =? 1); [inversion O; apply HL|].
    destruct (kind d =? 3); [|inversion O; apply len_repeat].
    destruct (nth_error (it_outputs (sd_tx doc)) _); [|discriminate]. inversion O. apply HL. }
  assert (LP : len (fork_prevouts H doc d) = 32) by (unfold fork_prevouts; destruct (128 <=? b2n d); [apply len_repeat|apply HL]).
  assert (LS : len (fork_sequence H doc d) = 32) by (unfold fork_sequence; destruct (_ || _); [apply len_repeat|apply HL]).
  rewrite !len_app, LP, LS, LO, !len_sle, !len_le, outpoint_len, var_string_write_length by exact Wx. lia.
Qed.

(* ---------------------------------------------------------------- commitment *)
Lemma concat_inj {A} (wf : A -> Prop) w r l m : codec wf w r -> (forall a, w a <> []) ->
  Forall wf l -> Forall wf m -> concat (map w l) = concat (map w m) -> l = m.
Proof.
  intros C NE Wl. revert m. induction Wl as [|x l Wx Wl IH]; intros m Wm E; destruct m as [|y m]; cbn [map concat] in E.
  - reflexivity.
  - destruct (NE y). now destruct (w y).
  - destruct (NE x). now destruct (w x).
  - inversion Wm; subst. apply (codec_inj _ _ _ _ _ _ _ C) in E as [-> E]; auto. f_equal. auto.
Qed.

Lemma refs_inj l m : Forall iinput_wf l -> Forall iinput_wf m ->
  concat (map (fun i => outpoint_write (ii_ref i)) l) = concat (map (fun i => outpoint_write (ii_ref i)) m) ->
  map ii_ref l = map ii_ref m.
Proof.
  intros Wl Wm E. rewrite <- (map_map ii_ref outpoint_write l), <- (map_map ii_ref outpoint_write m) in E.
  apply (concat_inj _ _ _ _ _ codec_outpoint) in E; auto.
  - intros [dg ix] Z. apply (f_equal (@length _)) in Z. unfold outpoint_write in Z.
    rewrite app_length, le_length in Z. cbn [length] in Z. lia.
  - apply Forall_map. eapply Forall_impl; [|exact Wl]. intros i [Wi _]. exact Wi.
  - apply Forall_map. eapply Forall_impl; [|exact Wm]. intros i [Wi _]. exact Wi.
Qed.
Lemma seqs_inj l m : Forall iinput_wf l -> Forall iinput_wf m ->
  concat (map (fun i => le 4 (ii_seq i)) l) = concat (map (fun i => le 4 (ii_seq i)) m) ->
  map ii_seq l = map ii_seq m.
Proof.
  intros Wl Wm E. rewrite <- (map_map ii_seq (le 4) l), <- (map_map ii_seq (le 4) m) in E.
  apply (concat_inj _ _ _ _ _ codec_u32) in E; auto.
  - intros n Z. apply (f_equal (@length _)) in Z. rewrite le_length in Z. discriminate Z.
  - apply Forall_map. eapply Forall_impl; [|exact Wl]. intros i [_ Wi]. exact Wi.
  - apply Forall_map. eapply Forall_impl; [|exact Wm]. intros i [_ Wi]. exact Wi.
Qed.
Lemma outs_inj l m : Forall output_wf l -> Forall output_wf m ->
  concat (map output_write l) = concat (map output_write m) -> l = m.
Proof.
  intros Wl Wm E. apply (concat_inj _ _ _ _ _ codec_output) in E; auto.
  intros o Z. apply (f_equal (@length _)) in Z. unfold output_write in Z.
  rewrite app_length, sle_length in Z. cbn [length] in Z. lia.
Qed.
Lemma output_inj o p : output_wf o -> output_wf p -> output_write o = output_write p -> o = p.
Proof. apply (codec_inj0 _ _ _ _ _ codec_output). Qed.

Ltac split_app E L R := apply app_inj_len in E as [L R]; [|unfold len in *; rewrite ?le_length, ?sle_length, ?repeat_length; lia].

Lemma str_inj (a b s t : bytes) : u64 (len a) -> u64 (len b) -> var_string_write a ++ s = var_string_write b ++ t -> a = b /\ s = t.
Proof. intros A B E. now apply (codec_inj _ _ _ _ _ _ _ codec_var_string) in E. Qed.

Lemma prevouts_len H doc d : (forall m, len (H m) = 32) -> length (fork_prevouts H doc d) = 32%nat.
Proof.
  intros HL. unfold fork_prevouts, hash_prevouts. destruct (128 <=? b2n d); [apply repeat_length|].
  match goal with |- length (H ?m) = _ => pose proof (HL m) as E; unfold len in E; lia end.
Qed.
Lemma sequence_len H doc d : (forall m, len (H m) = 32) -> length (fork_sequence H doc d) = 32%nat.
Proof.
  intros HL. unfold fork_sequence, hash_sequence. destruct (_ || _); [apply repeat_length|].
  match goal with |- length (H ?m) = _ => pose proof (HL m) as E; unfold len in E; lia end.
Qed.
Lemma outputs_len H doc d o : (forall m, len (H m) = 32) -> fork_outputs H doc d = Some o -> length o = 32%nat.
Proof.
  intros HL. unfold fork_outputs, hash_outputs. intros E.
  destruct (kind d =? 1); [|destruct (kind d =? 3); [destruct (nth_error (it_outputs (sd_tx doc)) _); [|discriminate]|]];
  inversion E; [| |apply repeat_length];
  match goal with |- length (H ?m) = _ => pose proof (HL m) as L; unfold len in L; lia end.
Qed.
Lemma outpoint_length o : outpoint_wf o -> length (outpoint_write o) = 36%nat.
Proof. intros W. pose proof (outpoint_len o W) as E. unfold len in E. lia. Qed.

(* equality of preimages, field by field; the directives may differ *)
Lemma fork_fields H a b d e ca cb pre : (forall m, len (H m) = 32) -> sdoc_wf a -> sdoc_wf b ->
  code_form (sd_code a) ca -> code_form (sd_code b) cb ->
  fork_bytes H a d ca = Some pre -> fork_bytes H b e cb = Some pre ->
  d = e /\ it_version (sd_tx a) = it_version (sd_tx b) /\ fork_prevouts H a d = fork_prevouts H b d /\
  fork_sequence H a d = fork_sequence H b d /\ ca = cb /\ sd_value a = sd_value b /\
  fork_outputs H a d = fork_outputs H b d /\ it_locktime (sd_tx a) = it_locktime (sd_tx b) /\
  exists x, nth_error (it_inputs (sd_tx a)) (N.to_nat (sd_index a)) = Some x /\
            nth_error (it_inputs (sd_tx b)) (N.to_nat (sd_index b)) = Some x.
Proof.
  intros HL (W & Wv & _) (V & Vv & _) Ca Cb Ea Eb.
  pose proof W as (W1 & (_ & W2) & _ & W4). pose proof V as (V1 & (_ & V2) & _ & V4).
  unfold fork_bytes in Ea, Eb.
  destruct (nth_error (it_inputs (sd_tx a)) _) as [x|] eqn:X; [|discriminate].
  destruct (fork_outputs H a d) as [oa|] eqn:Oa; [|discriminate].
  destruct (nth_error (it_inputs (sd_tx b)) _) as [y|] eqn:Y; [|discriminate].
  destruct (fork_outputs H b e) as [ob|] eqn:Ob; [|discriminate].
  rewrite <- Eb in Ea. apply some_eq in Ea as E. clear Ea Eb.
  pose proof (nth_wf _ _ _ _ W2 X) as [Wx1 Wx2]. pose proof (nth_wf _ _ _ _ V2 Y) as [Wy1 Wy2].
  apply app_inj_len in E as [E1 E]; [|now rewrite !sle_length].
  apply app_inj_len in E as [E2 E]; [|now rewrite !prevouts_len].
  apply app_inj_len in E as [E3 E]; [|now rewrite !sequence_len].
  apply app_inj_len in E as [E4 E]; [|now rewrite !outpoint_length].
  apply str_inj in E as [E5 E]; [|now eapply code_form_u64; eauto|now eapply code_form_u64; eauto].
  apply app_inj_len in E as [E6 E]; [|now rewrite !sle_length].
  apply app_inj_len in E as [E7 E]; [|now rewrite !le_length].
  apply app_inj_len in E as [E8 E]; [|rewrite (outputs_len _ _ _ _ HL Oa), (outputs_len _ _ _ _ HL Ob); reflexivity].
  apply app_inj_len in E as [E9 E]; [|now rewrite !le_length].
  assert (D : d = e) by (apply b2n_inj, (le_inj 4); auto using d_u32). subst e.
  apply (codec_inj0 _ _ _ _ _ codec_i32) in E1; auto.
  apply (codec_inj0 _ _ _ _ _ codec_outpoint) in E4; auto.
  apply (codec_inj0 _ _ _ _ _ codec_i64) in E6; auto.
  apply (codec_inj0 _ _ _ _ _ codec_u32) in E7; auto.
  apply (codec_inj0 _ _ _ _ _ codec_u32) in E9; auto.
  repeat (split; [solve [auto | congruence]|]).
  exists x. split; [reflexivity|]. destruct x, y; cbn in *; congruence.
Qed.

Theorem fork_commits H a b d e pre : (forall m, len (H m) = 32) -> sdoc_wf a -> sdoc_wf b -> fork_bit d -> fork_bit e ->
  no_collision H d a b -> sighash_write H a d = Some pre -> sighash_write H b e = Some pre ->
  d = e /\ same_commitment d a b.
Proof.
  intros HL Wa Wb Fd Fe NC Ea Eb. pose proof Wa as (W & _ & ca & Ca). pose proof Wb as (V & _ & cb & Cb).
  rewrite (sighash_fork H a d ca Fd Ca) in Ea. rewrite (sighash_fork H b e cb Fe Cb) in Eb.
  destruct (fork_fields H a b d e ca cb pre HL Wa Wb Ca Cb Ea Eb)
    as (-> & E1 & E2 & E3 & -> & E5 & E6 & E7 & x & X & Y).
  pose proof W as (_ & (_ & W2) & (_ & W3) & _). pose proof V as (_ & (_ & V2) & (_ & V3) & _).
  split; [reflexivity|]. constructor; auto.
  - eapply code_form_inj; eauto.
  - congruence.
  - unfold acp_bit. intros A. unfold fork_prevouts, hash_prevouts in E2. destruct (128 <=? b2n e) eqn:T; [lia|].
    apply refs_inj; auto. apply NC; [| |exact E2]; apply hashed_refs; unfold acp_bit; try lia; apply refs_forms; auto.
  - unfold acp_bit. intros A K2 K3. unfold fork_sequence, hash_sequence in E3.
    destruct ((128 <=? b2n e) || (kind e =? 2) || (kind e =? 3)) eqn:T; [lia|].
    apply seqs_inj; auto. apply NC; [| |exact E3]; apply hashed_seqs; unfold acp_bit; try lia; apply seqs_forms; auto.
  - intros K. unfold fork_outputs, hash_outputs in E6. destruct (kind e =? 1) eqn:T; [|lia]. inversion E6 as [E6'].
    apply outs_inj; auto. apply NC; [| |exact E6']; apply hashed_outs; try lia; apply outs_forms; auto.
  - intros K. unfold fork_bytes in Ea, Eb. rewrite X in Ea. rewrite Y in Eb. unfold fork_outputs in E6, Ea, Eb.
    destruct (kind e =? 1) eqn:T; [lia|]. destruct (kind e =? 3) eqn:T3; [|lia].
    destruct (nth_error (it_outputs (sd_tx a)) _) as [o|] eqn:Oa; [|discriminate].
    destruct (nth_error (it_outputs (sd_tx b)) _) as [p|] eqn:Ob; [|discriminate]. f_equal.
    pose proof (nth_wf _ _ _ _ W3 Oa). pose proof (nth_wf _ _ _ _ V3 Ob). inversion E6 as [E6'].
    apply output_inj; auto.
    apply NC; [| |exact E6']; [apply (hashed_out _ _ o)|apply (hashed_out _ _ p)]; auto; apply output_shortest; auto.
Qed.

Theorem fork_ignores H a b d : sdoc_wf a -> sdoc_wf b -> fork_bit d -> same_commitment d a b ->
  sighash_write H a d = sighash_write H b d.
Proof.
  intros (_ & _ & ca & Ca) (_ & _ & cb & Cb) F S. destruct S as [S1 S2 S3 S4 S5 S6 S7 S8 S9].
  rewrite (sighash_fork H a d ca F Ca), (sighash_fork H b d cb F Cb).
  rewrite S4 in Ca. assert (ca = cb) by (eapply code_form_fun; eauto). subst cb.
  unfold fork_bytes. rewrite S5, S1, S2, S3.
  assert (P : fork_prevouts H a d = fork_prevouts H b d).
  { unfold fork_prevouts, hash_prevouts, acp_bit in *. destruct (128 <=? b2n d) eqn:T; [reflexivity|].
    do 2 f_equal. rewrite <- (map_map ii_ref outpoint_write), S6, map_map; [reflexivity|lia]. }
  assert (Q : fork_sequence H a d = fork_sequence H b d).
  { unfold fork_sequence, hash_sequence, acp_bit in *. destruct ((128 <=? b2n d) || (kind d =? 2) || (kind d =? 3)) eqn:T; [reflexivity|].
    do 2 f_equal. rewrite <- (map_map ii_seq (le 4)), S7, map_map; [reflexivity|lia|lia|lia]. }
  assert (R : fork_outputs H a d = fork_outputs H b d).
  { unfold fork_outputs, hash_outputs. destruct (kind d =? 1) eqn:K1; [now rewrite S8 by lia|].
    destruct (kind d =? 3) eqn:K3; [now rewrite S9 by lia|reflexivity]. }
  now rewrite P, Q, R.
Qed.

Theorem fork_commitment_exact H a b d : (forall m, len (H m) = 32) -> sdoc_wf a -> sdoc_wf b -> fork_bit d ->
  in_range d a -> in_range d b -> no_collision H d a b ->
  (sighash_write H a d = sighash_write H b d <-> same_commitment d a b).
Proof.
  intros HL Wa Wb F Ra Rb NC. split; [|now apply fork_ignores].
  intros E. apply (fork_defined_exact H a d Wa F) in Ra as (pre & Ea). rewrite Ea in E. symmetry in E.
  now destruct (fork_commits H a b d d pre HL Wa Wb F F NC Ea E).
Qed.

(* ---------------------------------------------------------------- caching *)
Lemma write_cached_ok H doc d c : (exists b, code_form (sd_code doc) b) -> coherent H (sd_tx doc) c ->
  match sighash_write H doc d with
  | Some b => exists c', sighash_write_cached H doc d c = Some (b, c') /\ coherent H (sd_tx doc) c'
  | None => sighash_write_cached H doc d c = None
  end.
Proof.
  intros (code & C) K. unfold sighash_write, sighash_write_cached. destruct (has_fork_id d) eqn:F.
  - pose proof (amaury_eq H doc d empty_cache code (code_form_compile _ _ C) (coherent_empty H (sd_tx doc))) as A.
    pose proof (amaury_eq H doc d c code (code_form_compile _ _ C) K) as B.
    destruct (fork_bytes H doc d code) as [b|].
    + destruct A as (c' & -> & _). cbn [option_map fst]. exact B.
    + rewrite A. cbn [option_map]. exact B.
  - destruct (write_original doc (clear_fork_id d)) as [b|]; cbn [option_map fst]; eauto.
Qed.

Theorem session_exact H t l : forall c, coherent H t c ->
  Forall (fun q : N * Z * program * byte => exists b, code_form (snd (fst q)) b) l ->
  forall bs, (exists c', sighash_session H t l c = Some (bs, c')) <->
             Forall2 (fun q b => sighash_write H (request_doc t q) (snd q) = Some b) l bs.
Proof.
  induction l as [|[[[i v] p] d] l IH]; intros c K Fc bs; cbn [sighash_session].
  - split.
    + intros (c' & E). inversion E. constructor.
    + intros F. inversion F. eauto.
  - inversion Fc as [|? ? Hc Fr]; subst. cbn [fst snd] in Hc.
    pose proof (write_cached_ok H (request_doc t (i, v, p, d)) d c Hc K) as W. unfold request_doc in W.
    destruct (sighash_write H _ d) as [b|] eqn:E.
    + destruct W as (c1 & -> & K1). cbn [sd_tx] in K1. split.
      * intros (c' & S). destruct (sighash_session H t l c1) as [[bs' c'']|] eqn:R; [|discriminate].
        inversion S; subst. constructor; [exact E|]. apply (IH c1 K1 Fr). eauto.
      * intros F. inversion F as [|? b' ? bs' Eb Fl]; subst. cbn [request_doc snd] in Eb.
        apply (IH c1 K1 Fr) in Fl as (c' & ->). exists c'. do 2 f_equal. congruence.
    + rewrite W. split.
      * intros (c' & S). discriminate S.
      * intros F. inversion F as [|? b' ? bs' Eb Fl]; subst. cbn [request_doc snd] in Eb. congruence.
Qed.
