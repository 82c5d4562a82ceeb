(* Proofs about BEEF. *)
From Coq Require Import Lia ZifyBool ZifyNat ZifyN.
From Verif Require Import Base BaseProofs WireModel WireSpec WireProofs MerkleModel MerkleSpec BumpModel BumpSpec BumpProofs BumpPathProofs
  ScriptModel MachineModel SighashModel BeefModel BeefSpec.
Local Open Scope N_scope.

(* ---------------------------------------------------------------- reading and writing *)
Lemma prepend_rt {X} (wf : X -> Prop) (w : X -> bytes) r : (forall a rest, wf a -> r (w a ++ rest) = Some (a, rest)) ->
  forall l acc rest, Forall wf l -> rd_prepend r (length l) acc (concat (map w l) ++ rest) = Some (rev l ++ acc, rest).
Proof.
  intros R. induction l as [|x l IH]; intros acc rest Hl; cbn [length rd_prepend map concat rev].
  - reflexivity.
  - inversion Hl; subst. unfold rd_bind. rewrite <- !app_assoc, R by assumption. rewrite IH by assumption. reflexivity.
Qed.
Lemma var_seq_rt {X} (wf : X -> Prop) (w : X -> bytes) r : (forall a rest, wf a -> r (w a ++ rest) = Some (a, rest)) ->
  forall l rest, seq_wf wf l -> var_seq_read r (var_seq_write w l ++ rest) = Some (l, rest).
Proof.
  intros R l rest [W F]. unfold var_seq_write, var_seq_read, rd_bind. rewrite <- app_assoc.
  rewrite (c_rt _ _ _ codec_var_int) by exact W. rewrite Nat2N.id, (prepend_rt wf w r R) by exact F.
  unfold rd_ret. rewrite app_nil_r, rev_involutive. reflexivity.
Qed.

Lemma btx_rt : forall t rest, btx_wf t -> btx_read (btx_write t ++ rest) = Some (t, rest).
Proof.
  intros [t [i|]] rest [W I]; unfold btx_write, btx_read, rd_bind; cbn [bt_tx bt_index] in *; rewrite <- app_assoc,
    (c_rt _ _ _ codec_tx) by exact W; cbn [app rd_byte].
  - change (byte_eqb x01 x00) with false. cbn [app]. rewrite (c_rt _ _ _ codec_var_int) by exact I. reflexivity.
  - reflexivity.
Qed.
Lemma btx_len : forall t, btx_wf t -> len (btx_write t) = btx_size t.
Proof.
  intros [t [i|]] [W I]; unfold btx_write, btx_size; cbn [bt_tx bt_index] in *; rewrite len_app, tx_len by exact (proj2 (proj1 (proj2 W))); unfold len; cbn [length].
  - pose proof (var_int_write_length i). lia.
  - lia.
Qed.

Lemma seq_size_exact {X} (wf : X -> Prop) (size : X -> N) (w : X -> bytes) l : (forall x, wf x -> len (w x) = size x) -> Forall wf l ->
  len (var_seq_write w l) = var_seq_size size l.
Proof.
  intros S F. unfold var_seq_write, var_seq_size. rewrite len_app, fold_size, <- (concat_size size w l).
  - unfold len at 1. rewrite var_int_write_length. reflexivity.
  - apply Forall_impl with (2 := F). exact S.
Qed.

Section Ins.
Variable ins : forall A, (A -> N) -> A -> list A -> list A.

Lemma beef_rt : ordered_insert ins -> forall b rest, beef_wf b -> beef_read ins (beef_write b ++ rest) = Some (b, rest).
Proof.
  intros O [v x t] rest (V & B & T). unfold beef_read, beef_write. cbn [bf_version bf_bumps bf_txs] in *. rewrite <- !app_assoc.
  unfold rd_bind. rewrite (c_rt _ _ _ codec_u32) by exact V.
  rewrite (var_seq_rt (fun y => bump_wf y /\ Forall sorted (bp_path y))); [|intros a r [Wa Sa]; apply bump_rt; assumption|exact B].
  rewrite (var_seq_rt btx_wf); [reflexivity|exact btx_rt|exact T].
Qed.
Lemma beef_len : forall b, beef_wf b -> len (beef_write b) = beef_size b.
Proof.
  intros [v x t] (V & [_ B] & [_ T]). unfold beef_write, beef_size. cbn [bf_version bf_bumps bf_txs] in *. rewrite !len_app.
  rewrite (seq_size_exact _ bump_size bump_write x (fun y W => bump_size_exact y (proj1 W)) B).
  rewrite (seq_size_exact _ btx_size btx_write t btx_len T). unfold len. rewrite le_length. lia.
Qed.
Lemma beef_bytes_rt : ordered_insert ins -> forall b, beef_wf b -> beef_bytes b = Some (beef_write b) /\ beef_of_bytes ins (beef_write b) = Some b.
Proof.
  intros O b W. split.
  - apply buffer_write_exact, beef_len, W.
  - unfold beef_of_bytes. pose proof (beef_rt O b [] W) as R. rewrite app_nil_r in R. rewrite R. reflexivity.
Qed.

(* ---------------------------------------------------------------- which bytes are read *)
Lemma parses_btx : parses btx_form btx_read.
Proof.
  intros b t rest. unfold btx_read. rewrite (bind_parses _ _ _ _ _ _ parses_tx). split.
  - intros (u & c & b1 & -> & F & K). unfold rd_bind in K. destruct b1 as [|f b1]; cbn [rd_byte] in K; [discriminate|].
    destruct (byte_eqb f x00) eqn:E.
    + apply byte_eqb_eq in E. subst f. unfold rd_ret in K. assert (t = mkbtx u None /\ rest = b1) as [-> ->] by (split; congruence).
      exists (c ++ [x00]). split; [rewrite <- app_assoc; reflexivity|]. apply bt_without; [reflexivity|exact F].
    + destruct (var_int_read b1) as [[i b2]|] eqn:R; [|discriminate]. apply parses_count in R as (x & -> & X).
      unfold rd_ret in K. assert (t = mkbtx u (Some i) /\ rest = b2) as [-> ->] by (split; congruence).
      exists (c ++ f :: x). split; [rewrite <- app_assoc; reflexivity|]. apply bt_with with i; [reflexivity| |exact F|exact X].
      intros ->. discriminate E.
  - intros (c & -> & F). inversion F as [c' N F1|c' i f x N NE F1 X]; subst; clear F.
    + exists (bt_tx t), c', (x00 :: rest). split; [rewrite <- app_assoc; reflexivity|]. split; [exact F1|].
      cbn. unfold rd_ret. destruct t as [u [j|]]; [discriminate|reflexivity].
    + exists (bt_tx t), c', (f :: x ++ rest). split; [rewrite <- app_assoc; reflexivity|]. split; [exact F1|].
      unfold rd_bind. cbn [rd_byte]. destruct (byte_eqb f x00) eqn:E; [apply byte_eqb_eq in E; contradiction|].
      replace (var_int_read (x ++ rest)) with (Some (i, rest)) by (symmetry; apply parses_count; eauto).
      unfold rd_ret. destruct t as [u [j|]]; cbn [bt_index] in N; [|discriminate]. cbn [bt_tx]. congruence.
Qed.

Lemma parses_node : parses node_form node_read.
Proof.
  intros b n rest. unfold node_read. rewrite (bind_parses _ _ _ _ _ _ parses_count). split.
  - intros (o & c & b1 & -> & F & K). unfold rd_bind in K. destruct b1 as [|f b1]; cbn [rd_byte] in K; [discriminate|].
    destruct (byte_eqb f flag_duplicate) eqn:E.
    + apply byte_eqb_eq in E. subst f. unfold rd_ret in K. assert (n = dup_node o /\ rest = b1) as [-> ->] by (split; congruence).
      exists (c ++ [x01]). split; [rewrite <- app_assoc; reflexivity|]. apply nf_dup; [exact F|reflexivity|reflexivity].
    + destruct (rd_bytes 32 b1) as [[d b2]|] eqn:R; [|discriminate]. apply parses_bytes in R as (x & -> & -> & X).
      unfold rd_ret in K. assert (n = mknode o f (Some d) /\ rest = b2) as [-> ->] by (split; congruence).
      exists (c ++ f :: d). split; [rewrite <- app_assoc; reflexivity|].
      apply (nf_given (mknode o f (Some d)) c d); cbn [n_offset n_flag n_digest]; [exact F| |reflexivity|unfold len in X; lia].
      intros ->. discriminate E.
  - intros (c & -> & F). inversion F as [c' F1 N D|c' d F1 N D L]; subst; clear F.
    + exists (n_offset n), c', (x01 :: rest). split; [rewrite <- app_assoc; reflexivity|]. split; [exact F1|].
      cbn. unfold rd_ret, dup_node. destruct n as [o f d]; cbn in *. subst. reflexivity.
    + exists (n_offset n), c', (n_flag n :: d ++ rest). split; [rewrite <- app_assoc; reflexivity|]. split; [exact F1|].
      unfold rd_bind. cbn [rd_byte]. destruct (byte_eqb (n_flag n) flag_duplicate) eqn:E; [apply byte_eqb_eq in E; contradiction|].
      replace (rd_bytes 32 (d ++ rest)) with (Some (d, rest)) by (symmetry; apply parses_bytes; exists d; unfold len; repeat split; lia).
      unfold rd_ret. destruct n as [o f x]; cbn in *. subst. reflexivity.
Qed.

Lemma parses_levels : forall k b l rest, levels_read ins k b = Some (l, rest) <->
  exists raw parts, b = concat parts ++ rest /\ length raw = k /\ l = map (insert_all ins) raw /\ Forall2 (seq_form node_form) raw parts.
Proof.
  induction k as [|k IH]; intros b l rest; cbn [levels_read].
  - unfold rd_ret. split.
    + intros E. assert (l = [] /\ b = rest) as [-> ->] by (split; congruence). exists [], []. repeat split. constructor.
    + intros (raw & parts & -> & L & -> & F). destruct raw; [|discriminate]. inversion F; subst. reflexivity.
  - rewrite (bind_parses _ _ _ _ _ _ (parses_seq _ _ parses_node)). split.
    + intros (ns & c & b1 & -> & F & K). unfold rd_bind in K. destruct (levels_read ins k b1) as [[r b2]|] eqn:E; [|discriminate].
      apply IH in E as (raw & parts & -> & L & -> & G). unfold rd_ret in K.
      assert (l = insert_all ins ns :: map (insert_all ins) raw /\ rest = b2) as [-> ->] by (split; congruence).
      exists (ns :: raw), (c :: parts). cbn [concat map length]. rewrite <- app_assoc. repeat split; [congruence|]. constructor; assumption.
    + intros (raw & parts & -> & L & -> & F). destruct raw as [|ns raw]; [discriminate|]. inversion F as [|? c ? ps F1 G]; subst.
      exists ns, c, (concat ps ++ rest). cbn [concat]. rewrite <- app_assoc. split; [reflexivity|]. split; [exact F1|].
      unfold rd_bind. replace (levels_read ins k (concat ps ++ rest)) with (Some (map (insert_all ins) raw, rest)).
      * reflexivity.
      * symmetry. apply IH. exists raw, ps. repeat split; [cbn in L; congruence|exact G].
Qed.

Lemma parses_bump : parses (bump_form ins) (bump_read ins).
Proof.
  intros b u rest. unfold bump_read. rewrite (bind_parses _ _ _ _ _ _ parses_count). split.
  - intros (h & c & b1 & -> & F & K). unfold rd_bind in K. destruct b1 as [|k b1]; cbn [rd_byte] in K; [discriminate|].
    destruct (levels_read ins (N.to_nat (b2n k)) b1) as [[l b2]|] eqn:E; [|discriminate].
    apply parses_levels in E as (raw & parts & -> & L & -> & G). unfold rd_ret in K.
    assert (u = mkbump h (map (insert_all ins) raw) /\ rest = b2) as [-> ->] by (split; congruence).
    exists (c ++ k :: concat parts). split; [rewrite <- app_assoc; reflexivity|].
    apply (bu_form ins (mkbump h (map (insert_all ins) raw)) c k raw parts); cbn [bp_height bp_path]; [exact F| |reflexivity|exact G].
    rewrite map_length, L. lia.
  - intros (c & -> & F). inversion F as [c' k raw parts F1 B P G]; subst; clear F.
    exists (bp_height u), c', (k :: concat parts ++ rest). split; [rewrite <- app_assoc; reflexivity|]. split; [exact F1|].
    unfold rd_bind. cbn [rd_byte]. replace (levels_read ins (N.to_nat (b2n k)) (concat parts ++ rest)) with (Some (map (insert_all ins) raw, rest)).
    + unfold rd_ret. rewrite <- P. destruct u. reflexivity.
    + symmetry. apply parses_levels. exists raw, parts. repeat split; [|exact G]. rewrite B, P, map_length. lia.
Qed.

Lemma parses_beef : parses (beef_form ins) (beef_read ins).
Proof.
  intros b u rest. unfold beef_read. rewrite (bind_parses _ _ _ _ _ _ (parses_le 4)). split.
  - intros (v & cv & b1 & -> & Fv & K). rewrite (bind_parses _ _ _ _ _ _ (parses_seq _ _ parses_bump)) in K.
    destruct K as (x & cx & b2 & -> & Fx & K). rewrite (bind_parses _ _ _ _ _ _ (parses_seq _ _ parses_btx)) in K.
    destruct K as (t & ct & b3 & -> & Ft & K). unfold rd_ret in K. assert (u = mkbeef v x t /\ rest = b3) as [-> ->] by (split; congruence).
    exists (cv ++ cx ++ ct). split; [rewrite <- !app_assoc; reflexivity|]. apply (be_form ins (mkbeef v x t)); assumption.
  - intros (c & -> & F). inversion F as [v x t Fv Fx Ft]; subst; clear F.
    exists (bf_version u), v, (x ++ t ++ rest). split; [rewrite <- !app_assoc; reflexivity|]. split; [exact Fv|].
    rewrite (bind_parses _ _ _ _ _ _ (parses_seq _ _ parses_bump)). exists (bf_bumps u), x, (t ++ rest). split; [reflexivity|]. split; [exact Fx|].
    rewrite (bind_parses _ _ _ _ _ _ (parses_seq _ _ parses_btx)). exists (bf_txs u), t, rest. split; [reflexivity|]. split; [exact Ft|].
    unfold rd_ret. destruct u. reflexivity.
Qed.
Lemma beef_reads_exact : forall b u, beef_of_bytes ins b = Some u <-> exists c rest, b = c ++ rest /\ beef_form ins u c.
Proof.
  intros b u. unfold beef_of_bytes. split.
  - destruct (beef_read ins b) as [[x rest]|] eqn:E; [|discriminate]. cbn [option_map fst]. intros Q.
    assert (x = u) as -> by congruence. apply parses_beef in E as (c & -> & F). eauto.
  - intros (c & rest & -> & F). replace (beef_read ins (c ++ rest)) with (Some (u, rest)); [reflexivity|].
    symmetry. apply parses_beef. eauto.
Qed.

(* ---------------------------------------------------------------- validity *)
Variable H : bytes -> bytes.

Lemma digest_in_iff : forall d l, digest_in d l = true <-> In d l.
Proof.
  intros d l. unfold digest_in. rewrite existsb_exists. split.
  - intros (x & I & E). apply bytes_eqb_eq in E. subst. exact I.
  - intros I. exists d. split; [exact I|apply bytes_eqb_eq; reflexivity].
Qed.

Lemma txs_valid_iff : forall l, txs_valid l = Ret true <-> Forall (fun t => tx_valid (bt_tx t) = Ret true) l.
Proof.
  induction l as [|t r IH]; cbn [txs_valid]; [split; [constructor|reflexivity]|].
  rewrite Forall_cons_iff, <- IH. destruct (tx_valid (bt_tx t)) as [[|]| |]; split; try tauto; try discriminate; try (intros [E _]; discriminate).
Qed.

Lemma order_valid_iff : forall l seen, order_valid H seen l = true <->
  NoDup (ids H l) /\ (forall d, In d (ids H l) -> ~ In d seen) /\
  (forall before t after, l = before ++ t :: after -> bt_index t = None ->
    forall i, In i (tx_inputs (bt_tx t)) -> In (op_digest (in_ref i)) (seen ++ ids H before)).
Proof.
  induction l as [|t r IH]; intros seen; cbn [order_valid].
  - split; [|reflexivity]. intros _. split; [constructor|]. split; [intros d []|]. intros before x after E. destruct before; discriminate.
  - rewrite !andb_true_iff, IH, negb_true_iff. clear IH. split.
    + intros ((A & B) & N1 & N2 & N3).
      assert (A' : ~ In (tx_id H (bt_tx t)) seen) by (intros X; apply digest_in_iff in X; congruence).
      split; [cbn; constructor; [intros X; apply (N2 _ X); left; reflexivity|exact N1]|]. split.
      * cbn. intros d [<-|X]; [exact A'|]. intros Y. apply (N2 _ X). right. exact Y.
      * intros before x after E Nx i Ii. destruct before as [|y before].
        -- cbn in E. assert (x = t) as -> by congruence. rewrite Nx in B. rewrite forallb_forall in B. apply B, digest_in_iff in Ii.
           apply in_or_app. left. exact Ii.
        -- cbn in E. assert (y = t) as -> by congruence. assert (r = before ++ x :: after) as E' by congruence.
           specialize (N3 _ _ _ E' Nx i Ii). cbn [ids map]. apply in_app_or in N3. apply in_or_app. cbn. destruct N3 as [[X|X]|X]; tauto.
    + cbn [ids map]. intros (N1 & N2 & N3). inversion N1 as [|? ? N1a N1b]; subst. split; [split|].
      * destruct (digest_in (tx_id H (bt_tx t)) seen) eqn:E; [|reflexivity]. apply digest_in_iff in E. elim (N2 _ (or_introl eq_refl) E).
      * destruct (bt_index t) as [|] eqn:E; [reflexivity|]. apply forallb_forall. intros i Ii. apply digest_in_iff.
        specialize (N3 [] t r eq_refl E i Ii). rewrite app_nil_r in N3. exact N3.
      * split; [exact N1b|]. split.
        -- intros d X [<-|Y]; [contradiction|]. apply (N2 d); [right; exact X|exact Y].
        -- intros before x after -> Nx i Ii. specialize (N3 (t :: before) x after eq_refl Nx i Ii).
           apply in_app_or in N3. apply in_or_app. cbn in *. tauto.
Qed.

Lemma beef_valid_iff : forall b, beef_valid H b = Ret true <->
  0xEFBE0000 < bf_version b /\ bf_txs b <> [] /\ (forall t, In t (bf_txs b) -> tx_valid (bt_tx t) = Ret true) /\
  (forall x, In x (bf_bumps b) -> bump_valid x = true) /\ NoDup (ids H (bf_txs b)) /\ supported_by_earlier H (bf_txs b).
Proof.
  intros b. unfold beef_valid.
  assert (O : order_valid H [] (bf_txs b) = true <-> NoDup (ids H (bf_txs b)) /\ supported_by_earlier H (bf_txs b)).
  { rewrite order_valid_iff. split.
    - intros (A & _ & B). split; [exact A|]. intros before t after E N i I. specialize (B before t after E N i I). cbn in B.
      apply in_map_iff in B as (u & E2 & I2). eauto.
    - intros (A & B). split; [exact A|]. split; [intros d _ []|]. intros before t after E N i I. cbn.
      destruct (B before t after E N i I) as (u & I2 & E2). apply in_map_iff. eauto. }
  assert (V : txs_valid (bf_txs b) = Ret true <-> forall t, In t (bf_txs b) -> tx_valid (bt_tx t) = Ret true) by (rewrite txs_valid_iff; apply Forall_forall).
  destruct (bf_txs b) as [|t0 r] eqn:T.
  { rewrite orb_true_r. split; [discriminate|]. intros (_ & X & _). congruence. }
  rewrite orb_false_r. destruct (bf_version b <=? 4022206464) eqn:C.
  { split; [discriminate|]. intros (X & _). lia. }
  destruct (txs_valid (t0 :: r)) as [[|]| |] eqn:Q.
  - split.
    + intros E. assert (E' : forallb bump_valid (bf_bumps b) && order_valid H [] (t0 :: r) = true) by congruence.
      apply andb_true_iff in E' as [E1 E2]. apply O in E2. split; [lia|]. split; [congruence|]. split; [apply V; reflexivity|].
      split; [apply forallb_forall; exact E1|exact E2].
    + intros (_ & _ & _ & B & D). apply O in D. rewrite D. replace (forallb bump_valid (bf_bumps b)) with true; [reflexivity|].
      symmetry. apply forallb_forall. exact B.
  - split; [discriminate|]. intros (_ & _ & X & _). apply V in X. congruence.
  - split; [discriminate|]. intros (_ & _ & X & _). apply V in X. congruence.
  - split; [discriminate|]. intros (_ & _ & X & _). apply V in X. congruence.
Qed.
(* so the first transaction has a BUMP index *)
Lemma first_has_index : forall b t r, beef_valid H b = Ret true -> bf_txs b = t :: r -> exists i, bt_index t = Some i.
Proof.
  intros b t r V E. apply beef_valid_iff in V as (_ & _ & V & _ & _ & S). rewrite E in *.
  destruct (bt_index t) as [i|] eqn:I; [eauto|]. specialize (S [] t r eq_refl I). specialize (V t (or_introl eq_refl)).
  unfold tx_valid in V. destruct (tx_inputs (bt_tx t)) as [|x xs]; [discriminate|]. destruct (S x (or_introl eq_refl)) as (u & [] & _).
Qed.

(* ---------------------------------------------------------------- validate *)
Lemma roots_iff : forall l acc rs, roots_from H ins acc l = Ret rs <->
  (exists ds, rs = acc ++ ds /\ Forall2 (fun x d => bump_root H ins x = Ret d /\ d <> zero_digest) l ds) \/
  (rs = [] /\ exists before x after, l = before ++ x :: after /\ bump_root H ins x = Ret zero_digest /\
     forall y, In y before -> exists d, bump_root H ins y = Ret d /\ d <> zero_digest).
Proof.
  induction l as [|x r IH]; intros acc rs; cbn [roots_from].
  - split.
    + intros E. left. exists []. rewrite app_nil_r. split; [congruence|constructor].
    + intros [(ds & -> & F)|(-> & before & y & after & E & _)]; [inversion F; rewrite app_nil_r; reflexivity|destruct before; discriminate].
  - destruct (bump_root H ins x) as [d| |] eqn:R.
    + unfold digest_valid. destruct (bytes_eqb d zero_digest) eqn:Z; cbn [negb].
      * apply bytes_eqb_eq in Z. subst d. split.
        -- intros E. right. split; [congruence|]. exists [], x, r. repeat split; [exact R|intros y []].
        -- intros [(ds & -> & F)|(-> & _)]; [|reflexivity]. inversion F as [|? ? ? ? [A B] _]; subst. congruence.
      * assert (NZ : d <> zero_digest) by (intros ->; rewrite (proj2 (bytes_eqb_eq _ _) eq_refl) in Z; discriminate).
        rewrite IH. split.
        -- intros [(ds & -> & F)|(-> & before & y & after & -> & A & B)].
           ++ left. exists (d :: ds). rewrite <- app_assoc. split; [reflexivity|]. constructor; [split; assumption|exact F].
           ++ right. split; [reflexivity|]. exists (x :: before), y, after. repeat split; [exact A|]. intros z [<-|I]; [eauto|auto].
        -- intros [(ds & -> & F)|(-> & before & y & after & E & A & B)].
           ++ left. inversion F as [|? d' ? ds' [A B] F']; subst. assert (d' = d) as -> by congruence. exists ds'. rewrite <- app_assoc.
              split; [reflexivity|exact F'].
           ++ right. split; [reflexivity|]. destruct before as [|z before]; cbn in E.
              ** assert (y = x) as -> by congruence. congruence.
              ** assert (z = x /\ r = before ++ y :: after) as [-> ->] by (split; congruence). exists before, y, after.
                 repeat split; [exact A|]. intros w I. apply B. right. exact I.
    + split; [discriminate|]. intros [(ds & -> & F)|(-> & before & y & after & E & A & B)].
      * inversion F as [|? ? ? ? [A B] _]; subst. congruence.
      * destruct before as [|z before]; cbn in E; [assert (y = x) as -> by congruence; congruence|].
        assert (z = x) as -> by congruence. destruct (B x (or_introl eq_refl)) as (d & D & _). congruence.
    + split; [discriminate|]. intros [(ds & -> & F)|(-> & before & y & after & E & A & B)].
      * inversion F as [|? ? ? ? [A B] _]; subst. congruence.
      * destruct before as [|z before]; cbn in E; [assert (y = x) as -> by congruence; congruence|].
        assert (z = x) as -> by congruence. destruct (B x (or_introl eq_refl)) as (d & D & _). congruence.
Qed.

Lemma validate_exact : forall known b, beef_validate H ins known b = Ret true <-> beef_valid H b = Ret true /\
  ((forall x, In x (bf_bumps b) -> exists d, bump_root H ins x = Ret d /\ d <> zero_digest /\ known d = true) \/
   (exists before x after, bf_bumps b = before ++ x :: after /\ bump_root H ins x = Ret zero_digest /\
     forall y, In y before -> exists d, bump_root H ins y = Ret d /\ d <> zero_digest)).
Proof.
  intros known b. unfold beef_validate.
  assert (R : (exists l, beef_roots H ins b = Ret l /\ forallb known l = true) <->
    ((forall x, In x (bf_bumps b) -> exists d, bump_root H ins x = Ret d /\ d <> zero_digest /\ known d = true) \/
     (exists before x after, bf_bumps b = before ++ x :: after /\ bump_root H ins x = Ret zero_digest /\
       forall y, In y before -> exists d, bump_root H ins y = Ret d /\ d <> zero_digest))).
  { unfold beef_roots. split.
    - intros (l & E & F). apply roots_iff in E as [(ds & -> & G)|(-> & B)]; [|right; exact B]. left. cbn in F.
      rewrite forallb_forall in F. intros x I. clear - F G I. induction G as [|y d l ds [A B] G IH]; [destruct I|].
      destruct I as [<-|I]; [exists d; repeat split; [exact A|exact B|apply F; left; reflexivity]|].
      apply IH; [intros z Z; apply F; right; exact Z|exact I].
    - intros [A|B].
      + assert (G : forall l, (forall x, In x l -> exists d, bump_root H ins x = Ret d /\ d <> zero_digest /\ known d = true) ->
          exists ds, Forall2 (fun x d => bump_root H ins x = Ret d /\ d <> zero_digest) l ds /\ forallb known ds = true).
        { clear. induction l as [|x l IH]; intros A; [exists []; split; [constructor|reflexivity]|].
          destruct (A x (or_introl eq_refl)) as (d & D1 & D2 & D3). destruct IH as (ds & F & K); [intros y I; apply A; right; exact I|].
          exists (d :: ds). split; [constructor; [split; assumption|exact F]|]. cbn [forallb]. rewrite D3. exact K. }
        destruct (G _ A) as (ds & F & K). exists ds. split; [|exact K]. apply roots_iff. left. exists ds. split; [reflexivity|exact F].
      + exists []. split; [|reflexivity]. apply roots_iff. right. split; [reflexivity|exact B]. }
  destruct (beef_valid H b) as [[|]| |]; split; try discriminate; try (intros [E _]; congruence).
  - destruct (beef_roots H ins b) as [l| |] eqn:Q; try discriminate. intros E. split; [reflexivity|]. apply R. exists l.
    split; [reflexivity|congruence].
  - intros [_ B]. apply R in B as (l & E & F). rewrite E, F. reflexivity.
Qed.

(* when the caller checks the rest, every transaction is anchored in known blocks *)
Lemma placed_sound : ordered_insert ins -> forall dup known b, dup_picks dup -> beef_validate H ins known b = Ret true -> placed H ins dup b ->
  forall t, In t (bf_txs b) -> anchored H known (map bt_tx (bf_txs b)) (bt_tx t).
Proof.
  intros O dup known b D V [P1 P2]. apply validate_exact in V as [V R].
  assert (R' : forall x, In x (bf_bumps b) -> exists d, bump_root H ins x = Ret d /\ d <> zero_digest /\ known d = true).
  { destruct R as [R|(before & x & after & E & Z & _)]; [exact R|]. exfalso.
    destruct (P1 x) as [_ (r & E1 & E2)]; [rewrite E; apply in_or_app; right; left; reflexivity|]. congruence. }
  apply beef_valid_iff in V as (_ & _ & _ & _ & _ & S).
  assert (G : forall n before t after, length before = n -> bf_txs b = before ++ t :: after -> anchored H known (map bt_tx (bf_txs b)) (bt_tx t)).
  { induction n as [n IH] using (well_founded_induction Wf_nat.lt_wf). intros before t after L E.
    assert (It : In t (bf_txs b)) by (rewrite E; apply in_or_app; right; left; reflexivity).
    destruct (bt_index t) as [i|] eqn:I.
    - apply an_proven; [apply in_map; exact It|]. destruct (P2 t i It I) as (x & m & p & N & M & Ip). exists p.
      assert (Ix : In x (bf_bumps b)) by (eapply nth_error_In; eauto). destruct (R' x Ix) as (d & E1 & E2 & K).
      rewrite (paths_sound H ins O dup x d m D (proj1 (P1 x Ix)) E1 E2 M _ _ Ip). exact K.
    - apply an_spends; [apply in_map; exact It|]. intros j Ij. destruct (S before t after E I j Ij) as (u & Iu & Eu).
      exists (bt_tx u). split; [exact Eu|]. apply in_split in Iu as (b1 & b2 & ->). apply (IH (length b1)) with b1 (b2 ++ t :: after).
      + rewrite app_length in L. cbn in L. lia.
      + reflexivity.
      + rewrite E, <- app_assoc. reflexivity. }
  intros t I. apply in_split in I as (before & after & E). eapply G; eauto.
Qed.
End Ins.
