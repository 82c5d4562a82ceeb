(* Proofs about raw outputs, inputs, outpoints and blocks, and about cached ids. *)
From Coq Require Import Lia ZifyBool ZifyNat ZifyN.
From Verif Require Import Base BaseProofs WireModel WireSpec WireProofs ScriptModel MerkleModel MerkleSpec MerkleProofs
  WorkModel SighashModel SighashProofs OriginalProofs RawModel RawSpec.
Local Open Scope N_scope.

(* ---- readers that give a default ---- *)
Lemma taken_reader {X} (F : X -> bytes -> Prop) r d b x : parses F r ->
  (match r b with Some (y, _) => y | None => d end = x <-> taken F d b x).
Proof.
  intros P. unfold taken, begins. destruct (r b) as [[y s]|] eqn:E.
  - pose proof E as E0. apply P in E as (c & Eb & Hc). split.
    + intros <-. left. exists c, s. auto.
    + intros [(c' & r' & Eb' & Hc')|[N _]].
      * assert (E1 : r b = Some (x, r')) by (apply P; eauto). congruence.
      * exfalso. apply (N y). exists c, s. auto.
  - split.
    + intros <-. right. split; [|reflexivity]. intros y (c & s & Eb & Hc).
      assert (E1 : r b = Some (y, s)) by (apply P; eauto). congruence.
    + intros [(c & s & Eb & Hc)|[_ ->]]; [|reflexivity].
      assert (E1 : r b = Some (x, s)) by (apply P; eauto). congruence.
Qed.

Lemma output_taken b o : output_of_slice b = o <-> taken output_form output_default b o.
Proof. apply taken_reader, parses_output. Qed.
Lemma input_taken b i : input_of_slice b = i <-> taken input_form input_default b i.
Proof. apply taken_reader, parses_input. Qed.
Lemma block_taken b x : block_of_slice b = x <-> taken block_form block_default b x.
Proof. apply taken_reader, parses_block. Qed.

(* ---- outpoints ---- *)
Lemma split36 (x : bytes) : length x = 36%nat -> x = range 0 32 x ++ range 32 36 x /\ length (range 0 32 x) = 32%nat /\ length (range 32 36 x) = 4%nat.
Proof.
  intros L. unfold range. change (32 - 0)%nat with 32%nat. change (36 - 32)%nat with 4%nat.
  change (skipn 0 x) with x. rewrite !firstn_length, !skipn_length, L. split; [|split; reflexivity].
  rewrite (firstn_all2 (n := 4)) by (rewrite skipn_length; lia). symmetry. apply firstn_skipn.
Qed.

Lemma outpoint_slice_exact o x : length x = 36%nat -> (outpoint_of_slice x = o <-> outpoint_form o x).
Proof.
  intros L. destruct (split36 x L) as (E & L1 & L2). split.
  - intros <-. assert (K : outpoint_form (outpoint_of_slice x) (range 0 32 x ++ range 32 36 x)).
    { apply (opf (outpoint_of_slice x)); [exact L1|split; [exact L2|reflexivity]]. }
    rewrite <- E in K. exact K.
  - intros K. destruct K as [i Hd [Hi Hv]]. unfold outpoint_of_slice, outpoint_slice_digest, outpoint_slice_index.
    assert (E1 : range 0 32 (op_digest o ++ i) = op_digest o).
    { apply (range_app [] (op_digest o) i 0 32); [reflexivity|exact Hd]. }
    assert (E2 : range 32 36 (op_digest o ++ i) = i).
    { rewrite <- (app_nil_r i) at 1. apply (range_app (op_digest o) i [] 32 36); [exact Hd|]. rewrite app_length. lia. }
    rewrite E1, E2, Hv. destruct o; reflexivity.
Qed.

Lemma outpoint_bytes_exact o x : outpoint_wf o -> (outpoint_bytes o = x <-> outpoint_form o x).
Proof.
  intros W. pose proof (parses_write _ _ _ _ parses_outpoint codec_outpoint o W) as F. split.
  - intros <-. exact F.
  - intros K. destruct (parses_shortest _ _ _ _ parses_outpoint codec_outpoint _ _ K) as (_ & _ & Q).
    apply Q. destruct K as [i Hd [Hi Hv]]. unfold outpoint_write. rewrite !app_length, le_length. lia.
Qed.

(* ---- outputs ---- *)
Lemma value_exact b : (len b < 8 -> output_slice_value b = (-1)%Z) /\
  (forall v r, b = v ++ r -> length v = 8%nat -> output_slice_value b = sle_val v).
Proof.
  split.
  - intros L. unfold output_slice_value, rd_sle, rd_bind, rd_bytes. unfold len in L.
    destruct (N.of_nat (length b) <? N.of_nat 8) eqn:C; [reflexivity|lia].
  - intros v r -> L. unfold output_slice_value.
    assert (E : rd_sle 8 (v ++ r) = Some (sle_val v, r)).
    { apply (parses_sle 8). exists v. split; [reflexivity|]. split; [exact L|reflexivity]. }
    rewrite E. reflexivity.
Qed.

Definition script_reader : reader N := do v <- rd_sle 8; var_int_read.
Lemma script_reader_exact b n r : script_reader b = Some (n, r) <->
  exists v c, b = v ++ c ++ r /\ length v = 8%nat /\ count_form n c.
Proof.
  unfold script_reader. rewrite (bind_parses _ _ _ _ _ _ (parses_sle 8)). split.
  - intros (z & v & b' & -> & [L _] & K). apply parses_count in K as (c & -> & Hc). exists v, c. auto.
  - intros (v & c & -> & L & Hc). exists (sle_val v), v, (c ++ r). split; [reflexivity|]. split; [split; [exact L|reflexivity]|].
    apply parses_count. exists c. auto.
Qed.

Lemma mk_slice_app s r : mk_slice (s ++ r) (len s) = Some s.
Proof.
  unfold mk_slice. rewrite len_app. destruct (len s + len r <? len s) eqn:C; [lia|].
  unfold len. rewrite Nat2N.id, firstn_app, Nat.sub_diag, firstn_all. cbn [firstn]. rewrite app_nil_r. reflexivity.
Qed.

Lemma script_exact b :
  (forall s, raw_script s b -> output_slice_script b = Ret s) /\
  (raw_short b -> output_slice_script b = Undef) /\
  (raw_cut b -> output_slice_script b = Ret []) /\
  ((exists s, raw_script s b) \/ raw_short b \/ raw_cut b).
Proof.
  unfold output_slice_script. fold script_reader. repeat match goal with |- _ /\ _ => split end.
  - intros s K. destruct K as [v c r L Hc].
    assert (E : script_reader (v ++ c ++ s ++ r) = Some (len s, s ++ r)) by (apply script_reader_exact; exists v, c; auto).
    rewrite E, mk_slice_app. reflexivity.
  - intros K. destruct K as [v c n r L Hc Hn].
    assert (E : script_reader (v ++ c ++ r) = Some (n, r)) by (apply script_reader_exact; exists v, c; auto).
    rewrite E. unfold mk_slice. destruct (len r <? n) eqn:C; [reflexivity|lia].
  - intros K. destruct (script_reader b) as [[n r]|] eqn:E; [|reflexivity].
    apply script_reader_exact in E as (v & c & Eb & L & Hc). exfalso. apply (K v c n r L Hc Eb).
  - destruct (script_reader b) as [[n r]|] eqn:E.
    + apply script_reader_exact in E as (v & c & -> & L & Hc). destruct (N.ltb_spec (len r) n) as [Lt|Ge].
      * right; left. apply (raw_short_i v c n r); assumption.
      * left. exists (firstn (N.to_nat n) r). rewrite <- (firstn_skipn (N.to_nat n) r) at 2.
        apply raw_script_i; [exact L|]. replace (len (firstn (N.to_nat n) r)) with n; [exact Hc|].
        unfold len in *. rewrite firstn_length. lia.
    + right; right. intros v c n r L Hc Eb.
      assert (E1 : script_reader b = Some (n, r)) by (apply script_reader_exact; exists v, c; auto). congruence.
Qed.

Lemma output_fields o c r : output_form o c ->
  output_of_slice (c ++ r) = o /\ output_slice_value (c ++ r) = out_value o /\ output_slice_script (c ++ r) = Ret (out_script o).
Proof.
  intros K. split; [|split].
  - apply output_taken. left. exists c, r. auto.
  - destruct K as [v s [L Hv] Hs]. rewrite <- app_assoc. rewrite (proj2 (value_exact _) v (s ++ r) eq_refl L). exact Hv.
  - destruct K as [v s [L Hv] Hs]. destruct Hs as [k Hk]. apply (proj1 (script_exact _)). rewrite <- !app_assoc. apply raw_script_i; assumption.
Qed.

(* an output cut inside its script is refused, but its script is taken from beyond the end *)
Lemma output_cut o v k p s : sle_form 8 (out_value o) v -> count_form (len (out_script o)) k -> out_script o = p ++ s -> s <> [] ->
  output_form o (v ++ k ++ p ++ s) /\ output_of_slice (v ++ k ++ p) = output_default /\ output_slice_script (v ++ k ++ p) = Undef.
Proof.
  intros Hv Hk Es Ns.
  assert (F : output_form o (v ++ k ++ p ++ s)).
  { apply (ouf o v (k ++ p ++ s)); [exact Hv|]. rewrite <- Es. constructor. exact Hk. }
  split; [exact F|]. split.
  - unfold output_of_slice. rewrite (strict_prefix_rejected _ _ _ _ parses_output codec_output o (v ++ k ++ p) s); [reflexivity| |exact Ns].
    rewrite <- !app_assoc. exact F.
  - apply (proj1 (proj2 (script_exact _))). apply (raw_short_i v k (len (out_script o)) p); [apply Hv|exact Hk|].
    rewrite Es, len_app. destruct s; [congruence|]. unfold len. cbn [length]. lia.
Qed.

(* ---- slices of inputs, in any form ---- *)
Lemma input_form_len i c : input_form i c -> exists k, count_form (len (in_script i)) k /\ len c = 40 + len k + len (in_script i) /\
  len (input_write i) = 40 + var_int_size (len (in_script i)) + len (in_script i) /\ input_size i <= len c.
Proof.
  intros K. destruct (parses_shortest _ _ _ _ parses_input codec_input _ _ K) as (W & L & _).
  destruct K as [o s q Ho Hs [Lq _]]. destruct Hs as [k Hk]. exists k. split; [exact Hk|].
  destruct Ho as [j Hd [Lj _]]. rewrite (input_len _ W). unfold input_size. pose proof (input_len i W) as E. unfold input_size in E.
  unfold len in *. repeat rewrite ?app_length in *. split; [lia|]. split; lia.
Qed.

Lemma scan_input_form i c rest : input_form i c -> len c < 2 ^ 64 ->
  scan_input (c ++ rest) = Some (Some (firstn (N.to_nat (input_size i)) c), rest).
Proof.
  intros F B. destruct (input_form_len i c F) as (k & Hk & Lc & _ & Lw).
  unfold scan_input. set (r := (do o <- outpoint_read; do n <- var_int_read; do u <- rd_skip ((n + 4) mod 2 ^ 64); rd_ret n)).
  assert (E : r (c ++ rest) = Some (len (in_script i), rest)).
  { destruct F as [o s q Ho Hs Hq]. destruct Hs as [k' Hk']. unfold r.
    apply (bind_parses _ _ _ _ _ _ parses_outpoint). exists (in_ref i), o, (k' ++ in_script i ++ q ++ rest).
    split; [rewrite <- !app_assoc; reflexivity|]. split; [exact Ho|].
    apply (bind_parses _ _ _ _ _ _ parses_count). exists (len (in_script i)), k', (in_script i ++ q ++ rest).
    split; [reflexivity|]. split; [exact Hk'|].
    rewrite N.mod_small. 2:{ rewrite Lc in B. lia. }
    unfold rd_skip, rd_bind. rewrite app_assoc, rd_bytes_app; [reflexivity|]. destruct Hq as [Lq _].
    rewrite len_app. unfold len. lia. }
  clearbody r. rewrite E. f_equal. f_equal.
  replace ((len (in_script i) + 40 + var_int_size (len (in_script i))) mod 2 ^ 64) with (input_size i).
  2:{ unfold input_size in *. rewrite N.mod_small; lia. }
  unfold mk_slice. rewrite len_app. destruct (len c + len rest <? input_size i) eqn:C; [lia|].
  f_equal. rewrite firstn_app. replace (N.to_nat (input_size i) - length c)%nat with 0%nat by (unfold len in *; lia).
  cbn [firstn]. rewrite app_nil_r. reflexivity.
Qed.

Lemma scan_inputs_form l parts k i c rest : Forall2 input_form l parts -> Forall (fun c => len c < 2 ^ 64) parts ->
  nth_error l k = Some i -> nth_error parts k = Some c ->
  scan_inputs k (concat parts ++ rest) = Ret (firstn (N.to_nat (input_size i)) c).
Proof.
  intros F. revert k rest. induction F as [|x p l parts Hx F IH]; intros k rest B E1 E2; [destruct k; discriminate|].
  inversion B as [|? ? B1 B2]; subst. cbn [concat]. rewrite <- app_assoc.
  assert (Hne : len (firstn (N.to_nat (input_size x)) p) =? 0 = false).
  { destruct (input_form_len x p Hx) as (_ & _ & _ & _ & L). unfold len in *. rewrite firstn_length. apply N.eqb_neq. unfold input_size in *. lia. }
  destruct k as [|k]; cbn [scan_inputs]; rewrite (scan_input_form x p _ Hx B1), Hne.
  - cbn [nth_error] in E1, E2. congruence.
  - apply IH; assumption.
Qed.

Lemma read_version_form v z rest : sle_form 4 z v -> version_scannable z -> read_tx_version (v ++ rest) = Some (true, rest).
Proof.
  intros F S0. assert (W : i32 z).
  { destruct (parses_shortest _ _ _ _ (parses_sle 4) codec_i32 _ _ F) as (W & _). exact W. }
  destruct (parses_shortest _ _ _ _ (parses_sle 4) codec_i32 _ _ F) as (_ & _ & Q).
  rewrite <- Q. 2:{ unfold sle. rewrite le_length. symmetry. apply F. }
  apply read_tx_version_spec; assumption.
Qed.

Lemma tx_input_slice_form t b k i rest : tx_form t b -> len b < 2 ^ 64 -> version_scannable (tx_version t) ->
  nth_error (tx_inputs t) (N.to_nat k) = Some i ->
  exists c, input_form i c /\ (exists p s, b = p ++ c ++ s) /\
    tx_input_slice (b ++ rest) k = Ret (firstn (N.to_nat (input_size i)) c).
Proof.
  intros F B V Hk. destruct F as [v ci co cl Hv Hi Ho Hl]. destruct Hi as [n parts Hn Hp].
  assert (Lp : length (tx_inputs t) = length parts) by (clear - Hp; induction Hp; cbn [length]; lia).
  assert (Hlt : (N.to_nat k < length (tx_inputs t))%nat) by (apply nth_error_Some; congruence).
  destruct (nth_error parts (N.to_nat k)) as [c|] eqn:Ec.
  2:{ apply nth_error_None in Ec. lia. }
  exists c. destruct (nth_error_split _ _ Ec) as (p1 & p2 & Ep & Lp1).
  split.
  { clear - Hp Hk Ec. revert Hk Ec. generalize (N.to_nat k) as m. induction Hp as [|x y l m0 Hx Hp IH]; intros m E1 E2; [destruct m; discriminate|].
    destruct m; cbn [nth_error] in *; [congruence|eauto]. }
  split.
  { exists (v ++ n ++ concat p1), (concat p2 ++ co ++ cl). rewrite Ep, concat_app. cbn [concat]. rewrite <- !app_assoc. reflexivity. }
  unfold tx_input_slice. rewrite <- !app_assoc. unfold rd_bind.
  rewrite (read_version_form v (tx_version t)) by assumption.
  assert (E : var_int_read (n ++ concat parts ++ co ++ cl ++ rest) = Some (N.of_nat (length (tx_inputs t)), concat parts ++ co ++ cl ++ rest))
    by (apply parses_count; exists n; auto).
  rewrite E. unfold rd_ret.
  destruct ((N.of_nat (length (tx_inputs t)) =? 0) || (N.of_nat (length (tx_inputs t)) <=? k)) eqn:C; [lia|].
  apply scan_inputs_form with (l := tx_inputs t); try assumption.
  rewrite !len_app in B.
  clear - B. assert (B1 : len (concat parts) < 2 ^ 64) by lia. clear B. induction parts as [|x p IH]; [constructor|].
  cbn [concat] in B1. rewrite len_app in B1. constructor; [lia|]. apply IH. lia.
Qed.

(* what is read from such a slice *)
Lemma input_slice_read i c : input_form i c ->
  (tight_count i c -> firstn (N.to_nat (input_size i)) c = c /\ c = input_write i /\ input_of_slice (firstn (N.to_nat (input_size i)) c) = i) /\
  (~ tight_count i c -> firstn (N.to_nat (input_size i)) c <> c /\ input_of_slice (firstn (N.to_nat (input_size i)) c) = input_default).
Proof.
  intros F. destruct (parses_shortest _ _ _ _ parses_input codec_input _ _ F) as (W & L & Q).
  pose proof (input_len i W) as EL. unfold tight_count. split.
  - intros T. assert (E : firstn (N.to_nat (input_size i)) c = c) by (apply firstn_all2; unfold len in EL; lia).
    split; [exact E|]. split; [symmetry; apply Q; lia|]. rewrite E. apply input_taken. left. exists c, []. rewrite app_nil_r. auto.
  - intros T. assert (Lt : (N.to_nat (input_size i) < length c)%nat) by (unfold len in EL; lia). split.
    + intros E. apply (f_equal (@length byte)) in E. rewrite firstn_length in E. lia.
    + unfold input_of_slice.
      rewrite (strict_prefix_rejected _ _ _ _ parses_input codec_input i (firstn (N.to_nat (input_size i)) c) (skipn (N.to_nat (input_size i)) c)); [reflexivity| |].
      * rewrite firstn_skipn. exact F.
      * intros E. apply (f_equal (@length byte)) in E. rewrite skipn_length in E. cbn [length] in E. lia.
Qed.

(* ---- blocks ---- *)
Lemma txs_valid_exact l : txs_valid l = Ret true <-> Forall (fun t => tx_valid t = Ret true) l.
Proof.
  induction l as [|t r IH]; cbn [txs_valid]; [split; [constructor|reflexivity]|].
  destruct (tx_valid t) as [[|]|e|] eqn:E.
  - rewrite IH. split; [intros K; constructor; assumption|intros K; inversion K; assumption].
  - split; [discriminate|intros K; inversion K; congruence].
  - split; [discriminate|intros K; inversion K; congruence].
  - split; [discriminate|intros K; inversion K; congruence].
Qed.

Lemma txs_valid_other l x : x <> Ret true ->
  (txs_valid l = x <-> exists p t s, l = p ++ t :: s /\ Forall (fun t => tx_valid t = Ret true) p /\ tx_valid t = x).
Proof.
  intros N. induction l as [|t r IH]; cbn [txs_valid].
  - split; [congruence|]. intros (p & t & s & E & _). destruct p; discriminate.
  - split.
    + intros E. destruct (tx_valid t) as [[|]|e|] eqn:Et.
      1: { apply (proj1 IH) in E as (p & u & s & -> & Hp & Hu). exists (t :: p), u, s. split; [reflexivity|]. split; [constructor; assumption|exact Hu]. }
      all: exists [], t, r; split; [reflexivity|]; split; [constructor|congruence].
    + intros (p & u & s & E & Hp & Hu). destruct p as [|w p].
      * cbn [app] in E. assert (t = u) by congruence. subst u. rewrite Hu. destruct x as [[|]| |]; [congruence|reflexivity..].
      * cbn [app] in E. assert (t = w /\ r = p ++ u :: s) as [-> ->] by (split; congruence).
        inversion Hp as [|? ? H1 H2]; subst. rewrite H1. apply (proj2 IH). exists p, u, s. auto.
Qed.

Section Hashed.
Variable H : bytes -> bytes.

Lemma block_valid_exact b : block_valid H b = Ret true <->
  header_valid H (bl_header b) = true /\ Forall (fun t => tx_valid t = Ret true) (bl_txs b).
Proof.
  unfold block_valid. rewrite <- txs_valid_exact. destruct (header_valid H (bl_header b)); [tauto|].
  split; [discriminate|intros [K _]; discriminate].
Qed.
Lemma block_throws_exact b e : block_valid H b = Throw e <->
  header_valid H (bl_header b) = true /\
  exists p t s, bl_txs b = p ++ t :: s /\ Forall (fun t => tx_valid t = Ret true) p /\ tx_valid t = Throw e.
Proof.
  unfold block_valid. rewrite <- txs_valid_other by discriminate. destruct (header_valid H (bl_header b)); [tauto|].
  split; [discriminate|intros [K _]; discriminate].
Qed.
Lemma block_any_txs b l : block_valid H b = Ret true -> Forall (fun t => tx_valid t = Ret true) l ->
  block_valid H {| bl_header := bl_header b; bl_txs := l |} = Ret true.
Proof. intros V F. apply block_valid_exact in V as [V _]. apply block_valid_exact. auto. Qed.

Lemma map_tx_id l : map H (map tx_write l) = map (tx_id H) l.
Proof. apply map_map. Qed.

Lemma block_root b rest : block_wf b -> bl_txs b <> [] ->
  block_slice_root H (block_write b ++ rest) = Some (txs_root H (bl_txs b)) /\
  txs_root H (bl_txs b) = Some (merkle_root H (map (fun t => H (tx_write t)) (bl_txs b))).
Proof.
  intros W N. unfold block_slice_root. rewrite block_transactions_spec by exact W. cbn [option_map].
  rewrite map_tx_id. split; [reflexivity|]. unfold txs_root. apply root_list_exact.
  destruct (bl_txs b); [congruence|discriminate].
Qed.

(* ---- coinbase transactions ---- *)
Lemma outpoints_differ : outpoint_coinbase <> outpoint_zero.
Proof. intros E. apply (f_equal op_index) in E. cbn [op_index outpoint_coinbase outpoint_zero] in E. lia. Qed.

Lemma coinbase_valid t : is_coinbase t -> (tx_valid t = Ret true <->
  (exists i p, tx_inputs t = [i] /\ decompile (in_script i) = Ret p /\ p <> []) /\
  tx_outputs t <> [] /\ Forall (fun o => output_valid o = true) (tx_outputs t)).
Proof.
  intros (i & Ei & Er & Li). rewrite tx_valid_iff. split.
  - intros (No & Fo & [(Ni & Fi)|(j & p & Ej & Ej2 & _)]).
    + rewrite Ei in Fi. inversion Fi as [|? ? (p & Ep & Np) _]; subst. split; [exists i, p; auto|]. split; [exact No|].
      eapply Forall_impl; [|exact Fo]. intros o [A B]. unfold output_valid. destruct B as [B|B]; [|rewrite B]; lia.
    + exfalso. rewrite Ei in Ej. assert (i = j) by congruence. subst j. apply outpoints_differ. congruence.
  - intros ((j & p & Ej & Ep & Np) & No & Fo). split; [exact No|]. split.
    + eapply Forall_impl; [|exact Fo]. intros o A. unfold output_valid in A. split; [lia|]. destruct (provably_unspendable (out_script o) true); [right; reflexivity|left; lia].
    + left. rewrite Ej. split; [discriminate|]. constructor; [|constructor]. exists p. auto.
Qed.

Lemma coinbase_throws t i e : tx_inputs t = [i] -> tx_outputs t <> [] -> decompile (in_script i) = Throw e ->
  tx_valid t = Throw (X_bad_script e).
Proof.
  intros Ei No D. unfold tx_valid. rewrite Ei. destruct (tx_outputs t); [congruence|].
  cbn [inputs_valid]. unfold input_valid. rewrite D. reflexivity.
Qed.

(* ---- cached ids ---- *)
Lemma life_app o l1 l2 : life H o (l1 ++ l2) = life H (life H o l1) l2.
Proof. apply fold_left_app. Qed.
Lemma life_fields l : forall o, ob_tx (life H o l) = fields_after (ob_tx o) l.
Proof.
  induction l as [|x l IH]; intros o; [reflexivity|]. unfold life. cbn [fold_left]. fold (life H (happen H o x) l). rewrite IH.
  destruct x; cbn [happen fields_after]; [|reflexivity|].
  - unfold object_id. destruct (ob_hash o); reflexivity.
  - unfold set_hash. destruct (ob_hash o); reflexivity.
Qed.
Lemma life_unasked l : no_question l -> forall o, ob_hash o = None -> ob_hash (life H o l) = None.
Proof.
  unfold no_question. induction l as [|x l IH]; intros Q o E; [exact E|]. unfold life. cbn [fold_left]. fold (life H (happen H o x) l).
  apply IH; [intros K; apply Q; right; exact K|]. destruct x; [exfalso; apply Q; left; reflexivity|exact E|].
  cbn [happen]. unfold set_hash. rewrite E. exact E.
Qed.
Lemma life_asked l : forall o h, ob_hash o = Some h -> ob_hash (life H o l) = Some (loaded l h).
Proof.
  induction l as [|x l IH]; intros o h E; [exact E|]. unfold life. cbn [fold_left]. fold (life H (happen H o x) l).
  destruct x; cbn [loaded happen].
  - apply IH. unfold object_id. rewrite E. exact E.
  - apply IH. exact E.
  - apply IH. unfold set_hash. rewrite E. reflexivity.
Qed.

Lemma id_unasked t l : no_question l -> fst (object_id H (life H (object_of t) l)) = H (tx_write (fields_after t l)).
Proof.
  intros Q. unfold object_id. rewrite (life_unasked l Q (object_of t) eq_refl), life_fields. reflexivity.
Qed.
Lemma id_asked t l1 l2 : no_question l1 ->
  fst (object_id H (life H (object_of t) (l1 ++ Ask :: l2))) = loaded l2 (H (tx_write (fields_after t l1))).
Proof.
  intros Q. rewrite life_app. unfold life at 1. cbn [fold_left]. fold (life H (happen H (life H (object_of t) l1) Ask) l2).
  assert (E : ob_hash (happen H (life H (object_of t) l1) Ask) = Some (H (tx_write (fields_after t l1)))).
  { cbn [happen]. unfold object_id. rewrite (life_unasked l1 Q (object_of t) eq_refl). cbn [snd ob_hash]. unfold tx_id. rewrite life_fields. reflexivity. }
  unfold object_id. rewrite (life_asked l2 _ _ E). reflexivity.
Qed.
Lemma loaded_quiet l h : Forall quiet l -> loaded l h = h.
Proof. induction 1 as [|x l E F IH]; [reflexivity|]. unfold quiet in E. subst x. cbn [loaded]. exact IH. Qed.
Lemma fields_quiet l t : Forall quiet l -> fields_after t l = t.
Proof. induction 1 as [|x l E F IH]; [reflexivity|]. unfold quiet in E. subst x. cbn [fields_after]. exact IH. Qed.
Lemma fields_after_app l1 l2 : forall t, fields_after t (l1 ++ l2) = fields_after (fields_after t l1) l2.
Proof. induction l1 as [|x l1 IH]; intros t; [reflexivity|]. destruct x; cbn [app fields_after]; apply IH. Qed.
Lemma id_right t l1 l2 : no_question l1 -> Forall quiet l2 ->
  fst (object_id H (life H (object_of t) (l1 ++ l2))) = tx_id H (fields_after t (l1 ++ l2)).
Proof.
  intros Q F. rewrite fields_after_app, (fields_quiet l2) by exact F. destruct l2 as [|x l2].
  - rewrite app_nil_r. apply id_unasked, Q.
  - inversion F as [|? ? E F2]; subst. unfold quiet in E. subst x. rewrite id_asked by exact Q. apply loaded_quiet, F2.
Qed.
Lemma id_stale t u : H (tx_write t) <> H (tx_write u) ->
  fst (object_id H (life H (object_of t) [Ask; Fields u])) <> tx_id H (fields_after t [Ask; Fields u]).
Proof. intros D. cbn. exact D. Qed.
Lemma load_nothing t h : life H (object_of t) [Load h] = object_of t.
Proof. reflexivity. Qed.
Lemma load_anything t h : fst (object_id H (life H (object_of t) [Ask; Load h])) = h.
Proof. reflexivity. Qed.
End Hashed.

(* ---- the defaults are not valid ---- *)
Lemma outpoint_valid_exact o : outpoint_valid o = false <-> op_digest o = repeat x00 32.
Proof. unfold outpoint_valid, digest_valid. rewrite negb_false_iff. apply bytes_eqb_eq. Qed.
Lemma defaults_invalid : output_valid output_default = false /\ outpoint_valid (in_ref input_default) = false /\ (forall H, block_valid H block_default = Ret false).
Proof.
  split; [reflexivity|]. split; [reflexivity|]. intros H. unfold block_valid, header_valid. rewrite andb_false_intro2; reflexivity.
Qed.
Lemma output_slice_valid_exact b : output_slice_valid b = true <-> exists o, begins output_form o b /\ output_valid o = true.
Proof.
  unfold output_slice_valid. pose proof (proj1 (output_taken b (output_of_slice b)) eq_refl) as T. unfold taken in T. split.
  - intros V. destruct T as [T|[_ T]]; [eauto|]. rewrite T in V. discriminate V.
  - intros (o & B & V). rewrite (proj2 (output_taken b o) (or_introl B)). exact V.
Qed.
