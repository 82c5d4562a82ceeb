From Verif Require Import Base BaseProofs WireModel WireSpec.
From Coq Require Import ZifyBool ZifyNat ZifyN.
Ltac Zify.zify_post_hook ::= Z.div_mod_to_equations.
Local Open Scope N_scope.

Lemma pow256_2 : pow256 2 = 65536. Proof. reflexivity. Qed.
Lemma pow256_4 : pow256 4 = 4294967296. Proof. reflexivity. Qed.
Lemma pow256_8 : pow256 8 = 18446744073709551616. Proof. reflexivity. Qed.

Lemma codec_var_int : codec u64 var_int_write var_int_read.
Proof.
  constructor.
  - intros x rest Hx. unfold u64 in Hx. unfold var_int_write, var_int_read.
    destruct (x <=? 0xfc) eqn:C1.
    + cbn [app]. unfold rd_bind, rd_byte. rewrite b2n_n2b, N.mod_small by lia. rewrite C1. reflexivity.
    + destruct (x <=? 0xffff) eqn:C2; [|destruct (x <=? 0xffffffff) eqn:C3];
        cbn [app]; unfold rd_bind at 1, rd_byte; rewrite b2n_n2b;
        match goal with |- context [?n mod 256 <=? 0xfc] => change (n mod 256) with n end; cbn [N.leb N.eqb N.compare Pos.compare Pos.compare_cont Pos.eqb].
      * apply (c_rt _ _ _ (codec_le 2)). rewrite pow256_2. lia.
      * apply (c_rt _ _ _ (codec_le 4)). rewrite pow256_4. lia.
      * apply (c_rt _ _ _ (codec_le 8)). rewrite pow256_8. lia.
  - intros b a rest t. unfold var_int_read, rd_bind.
    destruct b as [|x b]; cbn [rd_byte app]; [discriminate|].
    destruct (b2n x <=? 0xfc); [unfold rd_ret; congruence|].
    destruct (b2n x =? 0xfd); [apply (c_ext _ _ _ (codec_le 2))|].
    destruct (b2n x =? 0xfe); [apply (c_ext _ _ _ (codec_le 4))|].
    apply (c_ext _ _ _ (codec_le 8)).
  - intros b a rest. unfold var_int_read, rd_bind at 1.
    destruct b as [|x b]; cbn [rd_byte]; [discriminate|].
    pose proof (b2n_lt x) as Hx.
    destruct (b2n x <=? 0xfc) eqn:C1.
    + unfold rd_ret. intros H; inversion H; subst a b. split; [unfold u64; lia|].
      exists [x]. unfold var_int_write. rewrite C1. rewrite n2b_b2n. auto.
    + assert (Hw : forall k tag, (k = 2 \/ k = 4 \/ k = 8)%nat -> x = n2b tag ->
                (tag = 0xfd /\ k = 2%nat \/ tag = 0xfe /\ k = 4%nat \/ tag = 0xff /\ k = 8%nat) ->
                rd_le k b = Some (a, rest) ->
                u64 a /\ exists c, x :: b = c ++ rest /\ (length (var_int_write a) <= length c)%nat /\
                  (length (var_int_write a) = length c -> var_int_write a = c)).
      { intros k tag Hk Ht Htk R. destruct (c_rw _ _ _ (codec_le k) _ _ _ R) as (W & c & -> & L & Q).
        rewrite le_length in L, Q.
        assert (Hc : length c = k).
        { unfold rd_le, rd_bind in R. destruct (rd_bytes (N.of_nat k) (c ++ rest)) as [[y r']|] eqn:E; [|discriminate].
          apply rd_bytes_inv in E as [E Hy]. unfold rd_ret in R; inversion R; subst.
          apply app_inv_tail in E. subst y. unfold len in Hy. lia. }
        assert (Hlec : le k a = c) by (apply Q; lia).
        split.
        - unfold u64. destruct Hk as [->|[->| ->]]; [rewrite pow256_2 in W|rewrite pow256_4 in W|rewrite pow256_8 in W]; lia.
        - exists (x :: c). cbn [app length]. split; [reflexivity|]. rewrite Hc. unfold var_int_write.
          destruct (a <=? 0xfc) eqn:D1; [|destruct (a <=? 0xffff) eqn:D2; [|destruct (a <=? 0xffffffff) eqn:D3]];
            cbn [length]; rewrite ?le_length.
          + split; lia.
          + split; [lia|]. intros K. assert (K2 : k = 2%nat) by lia. rewrite K2 in Hlec.
            destruct Htk as [[-> _]|[[_ ?]|[_ ?]]]; [|lia|lia]. rewrite Ht, Hlec. reflexivity.
          + split; [destruct Hk as [->|[->| ->]]; rewrite ?pow256_2 in W; lia|]. intros K. assert (K2 : k = 4%nat) by lia. rewrite K2 in Hlec.
            destruct Htk as [[_ ?]|[[-> _]|[_ ?]]]; [lia| |lia]. rewrite Ht, Hlec. reflexivity.
          + split; [destruct Hk as [->|[->| ->]]; rewrite ?pow256_2, ?pow256_4 in W; lia|]. intros K. assert (K2 : k = 8%nat) by lia. rewrite K2 in Hlec.
            destruct Htk as [[_ ?]|[[_ ?]|[-> _]]]; [lia|lia|]. rewrite Ht, Hlec. reflexivity. }
      destruct (b2n x =? 0xfd) eqn:C2.
      * apply (Hw 2%nat 0xfd); auto. apply b2n_inj. rewrite b2n_n2b. lia.
      * destruct (b2n x =? 0xfe) eqn:C3.
        -- apply (Hw 4%nat 0xfe); auto. apply b2n_inj. rewrite b2n_n2b. lia.
        -- apply (Hw 8%nat 0xff); auto. apply b2n_inj. rewrite b2n_n2b. lia.
Qed.

Lemma var_int_write_length x : N.of_nat (length (var_int_write x)) = var_int_size x.
Proof.
  unfold var_int_write, var_int_size.
  destruct (x <=? 0xfc); [reflexivity|]. destruct (x <=? 0xffff); [reflexivity|].
  destruct (x <=? 0xffffffff); reflexivity.
Qed.

(* a codec whose reader is followed by a reader that depends on the value *)
Lemma codec_var_string : codec (fun s => u64 (len s)) var_string_write var_string_read.
Proof.
  constructor.
  - intros s rest H. unfold var_string_write, var_string_read, rd_bind. rewrite <- app_assoc.
    rewrite (c_rt _ _ _ codec_var_int) by exact H. apply rd_bytes_app. reflexivity.
  - intros b s rest t. unfold var_string_read, rd_bind.
    destruct (var_int_read b) as [[n r]|] eqn:E; [|discriminate].
    rewrite (c_ext _ _ _ codec_var_int _ _ _ t E). apply rd_bytes_ext.
  - intros b s rest. unfold var_string_read, rd_bind.
    destruct (var_int_read b) as [[n r]|] eqn:E; [|discriminate].
    destruct (c_rw _ _ _ codec_var_int _ _ _ E) as (W & c & -> & L & Q).
    intros R. apply rd_bytes_inv in R as [-> Hs]. subst n. split; [exact W|].
    exists (c ++ s). unfold var_string_write. rewrite !app_length. split; [apply app_assoc|]. split; [lia|].
    intros K. rewrite Q by lia. reflexivity.
Qed.

Lemma var_string_write_length s : len (var_string_write s) = var_int_size (len s) + len s.
Proof.
  unfold var_string_write, len at 1. rewrite app_length, Nat2N.inj_add, var_int_write_length. reflexivity.
Qed.

(* ---------------------------------------------------------------- sequences *)

Lemma rd_prepend_spec {X} (wf : X -> Prop) w r (H : codec wf w r) l acc rest :
  Forall wf l -> rd_prepend r (length l) acc (concat (map w l) ++ rest) = Some (rev l ++ acc, rest).
Proof.
  revert acc; induction l as [|x l IH]; intros acc Hl; cbn [length rd_prepend map concat rev].
  - reflexivity.
  - inversion Hl; subst. unfold rd_bind. rewrite <- !app_assoc, (c_rt _ _ _ H) by assumption.
    rewrite IH by assumption. reflexivity.
Qed.

Lemma rd_prepend_ext {X} (wf : X -> Prop) w r (H : codec wf w r) n acc b l rest t :
  rd_prepend r n acc b = Some (l, rest) -> rd_prepend r n acc (b ++ t) = Some (l, rest ++ t).
Proof.
  revert acc b; induction n as [|n IH]; intros acc b; cbn [rd_prepend].
  - unfold rd_ret. congruence.
  - unfold rd_bind. destruct (r b) as [[x b']|] eqn:E; [|discriminate].
    rewrite (c_ext _ _ _ H _ _ _ t E). apply IH.
Qed.

Lemma rd_prepend_rw {X} (wf : X -> Prop) w r (H : codec wf w r) n acc b l rest :
  rd_prepend r n acc b = Some (l, rest) ->
  exists l', l = rev l' ++ acc /\ length l' = n /\ Forall wf l' /\
    exists c, b = c ++ rest /\ (length (concat (map w l')) <= length c)%nat /\
      (length (concat (map w l')) = length c -> concat (map w l') = c).
Proof.
  revert acc b; induction n as [|n IH]; intros acc b; cbn [rd_prepend].
  - unfold rd_ret. intros E; inversion E; subst. exists []. cbn [rev app map concat length]. repeat split; auto.
    exists []. cbn [length app]. auto.
  - unfold rd_bind. destruct (r b) as [[x b']|] eqn:E; [|discriminate].
    destruct (c_rw _ _ _ H _ _ _ E) as (W & c & -> & L & Q). intros R.
    destruct (IH _ _ R) as (l' & -> & Hn & F & c' & -> & L' & Q').
    exists (x :: l'). cbn [rev map concat length]. repeat split; auto.
    + rewrite <- app_assoc. reflexivity.
    + exists (c ++ c'). rewrite !app_length. split; [apply app_assoc|]. split; [lia|].
      intros K. rewrite Q, Q' by lia. reflexivity.
Qed.

Lemma codec_var_seq {X} (wf : X -> Prop) w r :
  codec wf w r -> codec (seq_wf wf) (var_seq_write w) (var_seq_read r).
Proof.
  intros H. constructor.
  - intros l rest [W F]. unfold var_seq_write, var_seq_read, rd_bind. rewrite <- app_assoc.
    rewrite (c_rt _ _ _ codec_var_int) by exact W. rewrite Nat2N.id.
    rewrite (rd_prepend_spec wf w r H) by exact F. unfold rd_ret. rewrite app_nil_r, rev_involutive. reflexivity.
  - intros b l rest t. unfold var_seq_read, rd_bind.
    destruct (var_int_read b) as [[n b']|] eqn:E; [|discriminate].
    rewrite (c_ext _ _ _ codec_var_int _ _ _ t E).
    destruct (rd_prepend r (N.to_nat n) [] b') as [[m b'']|] eqn:E2; [|discriminate].
    rewrite (rd_prepend_ext wf w r H _ _ _ _ _ t E2). unfold rd_ret. congruence.
  - intros b l rest. unfold var_seq_read, rd_bind.
    destruct (var_int_read b) as [[n b']|] eqn:E; [|discriminate].
    destruct (c_rw _ _ _ codec_var_int _ _ _ E) as (W & c & -> & L & Q).
    destruct (rd_prepend r (N.to_nat n) [] b') as [[m b'']|] eqn:E2; [|discriminate].
    destruct (rd_prepend_rw wf w r H _ _ _ _ _ E2) as (l' & -> & Hn & F & c' & -> & L' & Q').
    unfold rd_ret. intros R; inversion R; subst. rewrite app_nil_r, rev_involutive.
    assert (Hlen : N.of_nat (length l') = n) by lia.
    split.
    + split; [rewrite Hlen; exact W|exact F].
    + exists (c ++ c'). unfold var_seq_write. rewrite Hlen, !app_length. split; [apply app_assoc|]. split; [lia|].
      intros K. rewrite Q, Q' by lia. reflexivity.
Qed.

Lemma u32_pow n : u32 n <-> n < pow256 4.
Proof. unfold u32. rewrite pow256_4. change (2^32) with 4294967296. reflexivity. Qed.
Lemma i32_srange z : i32 z <-> srange 4 z.
Proof. unfold i32, srange. rewrite pow256_4. lia. Qed.
Lemma i64_srange z : i64 z <-> srange 8 z.
Proof. unfold i64, srange. rewrite pow256_8. lia. Qed.

Lemma len32 (b : bytes) : length b = 32%nat <-> len b = 32.
Proof. unfold len. lia. Qed.

Lemma codec_u32 : codec u32 (le 4) (rd_le 4).
Proof. eapply codec_iff; [intros a; symmetry; apply u32_pow | reflexivity | reflexivity | apply codec_le]. Qed.
Lemma codec_i32 : codec i32 (sle 4) (rd_sle 4).
Proof. eapply codec_iff; [intros a; symmetry; apply i32_srange | reflexivity | reflexivity | apply codec_sle]. Qed.
Lemma codec_i64 : codec i64 (sle 8) (rd_sle 8).
Proof. eapply codec_iff; [intros a; symmetry; apply i64_srange | reflexivity | reflexivity | apply codec_sle]. Qed.
Lemma codec_digest : codec (fun b => length b = 32%nat) (fun b => b) (rd_bytes 32).
Proof. eapply codec_iff; [intros a; symmetry; apply len32 | reflexivity | reflexivity | apply codec_bytes]. Qed.

(* the readers above are right-nested binds ending in rd_ret (mk ...); this reassociates them *)
Lemma codec_outpoint : codec outpoint_wf outpoint_write outpoint_read.
Proof.
  pose proof (codec_bind _ _ _ _ _ _ (fun d i => {| op_digest := d; op_index := i |}) op_digest op_index
     (fun _ _ => eq_refl) (fun _ _ => eq_refl) (fun c => match c with Build_outpoint _ _ => eq_refl end)
     codec_digest codec_u32) as H. exact H.
Qed.

(* generic three-field and more: via pairs *)
Lemma codec_pair {A B} (wfa : A -> Prop) wa ra (wfb : B -> Prop) wb rb :
  codec wfa wa ra -> codec wfb wb rb ->
  codec (fun c => wfa (fst c) /\ wfb (snd c)) (fun c => wa (fst c) ++ wb (snd c))
        (do a <- ra; do b <- rb; rd_ret (a, b)).
Proof.
  intros Ha Hb. apply (codec_bind wfa wa ra wfb wb rb pair fst snd); auto. intros [? ?]; reflexivity.
Qed.

Lemma codec_map {A B} (f : A -> B) (g : B -> A) (wf : A -> Prop) w r :
  (forall a, g (f a) = a) -> (forall b, f (g b) = b) -> codec wf w r ->
  codec (fun b => wf (g b)) (fun b => w (g b)) (do a <- r; rd_ret (f a)).
Proof.
  intros GF FG H. constructor.
  - intros b rest W. unfold rd_bind. rewrite (c_rt _ _ _ H) by exact W. unfold rd_ret. rewrite FG. reflexivity.
  - intros s b rest t. unfold rd_bind. destruct (r s) as [[a s']|] eqn:E; [|discriminate].
    rewrite (c_ext _ _ _ H _ _ _ t E). unfold rd_ret. congruence.
  - intros s b rest. unfold rd_bind. destruct (r s) as [[a s']|] eqn:E; [|discriminate].
    unfold rd_ret. intros R; inversion R; subst. rewrite GF. apply (c_rw _ _ _ H _ _ _ E).
Qed.

Ltac run_bind :=
  unfold rd_bind, rd_ret;
  repeat match goal with
  | |- context [match ?m ?b with Some _ => _ | None => _ end] =>
      destruct (m b) as [[? ?]|] eqn:?; [|reflexivity]
  end; reflexivity.

Lemma codec_input : codec input_wf input_write input_read.
Proof.
  pose proof (codec_map (fun x => {| in_ref := fst x; in_script := fst (snd x); in_seq := snd (snd x) |})
    (fun i => (in_ref i, (in_script i, in_seq i))) _ _ _
    (fun x => match x with (_, (_, _)) => eq_refl end) (fun i => match i with Build_input _ _ _ => eq_refl end)
    (codec_pair _ _ _ _ _ _ codec_outpoint (codec_pair _ _ _ _ _ _ codec_var_string codec_u32))) as H.
  eapply codec_iff; [ | | | exact H].
  - intros a; reflexivity.
  - intros a; reflexivity.
  - intros b. unfold input_read. run_bind.
Qed.

Lemma codec_output : codec output_wf output_write output_read.
Proof.
  pose proof (codec_bind _ _ _ _ _ _ (fun d i => {| out_value := d; out_script := i |}) out_value out_script
     (fun _ _ => eq_refl) (fun _ _ => eq_refl) (fun c => match c with Build_output _ _ => eq_refl end)
     codec_i64 codec_var_string) as H. exact H.
Qed.

Lemma codec_tx : codec tx_wf tx_write tx_read.
Proof.
  pose proof (codec_map
    (fun x => {| tx_version := fst x; tx_inputs := fst (snd x); tx_outputs := fst (snd (snd x)); tx_locktime := snd (snd (snd x)) |})
    (fun i => (tx_version i, (tx_inputs i, (tx_outputs i, tx_locktime i)))) _ _ _
    (fun x => match x with (_, (_, (_, _))) => eq_refl end) (fun i => match i with Build_tx _ _ _ _ => eq_refl end)
    (codec_pair _ _ _ _ _ _ codec_i32 (codec_pair _ _ _ _ _ _ (codec_var_seq _ _ _ codec_input)
       (codec_pair _ _ _ _ _ _ (codec_var_seq _ _ _ codec_output) codec_u32)))) as H.
  eapply codec_iff; [ | | | exact H].
  - intros a; reflexivity.
  - intros a; reflexivity.
  - intros b. unfold tx_read. run_bind.
Qed.

Lemma codec_header : codec header_wf header_write header_read.
Proof.
  pose proof (codec_map
    (fun x => {| h_version := fst x; h_previous := fst (snd x); h_merkle_root := fst (snd (snd x));
                 h_timestamp := fst (snd (snd (snd x))); h_target := fst (snd (snd (snd (snd x))));
                 h_nonce := snd (snd (snd (snd (snd x)))) |})
    (fun i => (h_version i, (h_previous i, (h_merkle_root i, (h_timestamp i, (h_target i, h_nonce i)))))) _ _ _
    (fun x => match x with (_, (_, (_, (_, (_, _))))) => eq_refl end)
    (fun i => match i with Build_header _ _ _ _ _ _ => eq_refl end)
    (codec_pair _ _ _ _ _ _ codec_i32 (codec_pair _ _ _ _ _ _ codec_digest
       (codec_pair _ _ _ _ _ _ codec_digest (codec_pair _ _ _ _ _ _ codec_u32
         (codec_pair _ _ _ _ _ _ codec_u32 codec_u32)))))) as H.
  eapply codec_iff; [ | | | exact H].
  - intros a; reflexivity.
  - intros a; reflexivity.
  - intros b. unfold header_read. run_bind.
Qed.

Lemma codec_block : codec block_wf block_write block_read.
Proof.
  exact (codec_bind _ _ _ _ _ _ (fun d i => {| bl_header := d; bl_txs := i |}) bl_header bl_txs
     (fun _ _ => eq_refl) (fun _ _ => eq_refl) (fun c => match c with Build_block _ _ => eq_refl end)
     codec_header (codec_var_seq _ _ _ codec_tx)).
Qed.

(* ---------------------------------------------------------------- sizes *)

Lemma len_app (a b : bytes) : len (a ++ b) = len a + len b.
Proof. unfold len. rewrite app_length. lia. Qed.

Lemma fold_size {X} (size : X -> N) l acc :
  fold_left (fun s x => s + size x) l acc = acc + fold_left (fun s x => s + size x) l 0.
Proof.
  revert acc; induction l as [|x l IH]; intros acc; cbn [fold_left]; [lia|].
  rewrite (IH (acc + size x)), (IH (0 + size x)). lia.
Qed.

Lemma concat_size {X} (size : X -> N) (w : X -> bytes) l :
  Forall (fun x => len (w x) = size x) l ->
  len (concat (map w l)) = fold_left (fun s x => s + size x) l 0.
Proof.
  induction 1 as [|x l Hx Hl IH]; cbn [map concat fold_left]; [reflexivity|].
  rewrite len_app, Hx, IH, (fold_size size l (0 + size x)). lia.
Qed.

Lemma outpoint_len o : outpoint_wf o -> len (outpoint_write o) = 36.
Proof. intros [H _]. unfold outpoint_write. rewrite len_app. unfold len. rewrite H, le_length. reflexivity. Qed.

Lemma input_len i : input_wf i -> len (input_write i) = input_size i.
Proof.
  intros (H & _ & _). unfold input_write, input_size. rewrite !len_app, outpoint_len by exact H.
  rewrite var_string_write_length. replace (len (le 4 (in_seq i))) with 4 by (unfold len; rewrite le_length; reflexivity). lia.
Qed.

Lemma output_len o : len (output_write o) = output_size o.
Proof.
  unfold output_write, output_size. rewrite len_app, var_string_write_length.
  replace (len (sle 8 (out_value o))) with 8 by (unfold len; rewrite sle_length; reflexivity). lia.
Qed.

Lemma tx_len t : Forall input_wf (tx_inputs t) -> len (tx_write t) = tx_size t.
Proof.
  intros H. unfold tx_write, tx_size, var_seq_write. rewrite !len_app.
  rewrite (concat_size input_size) by (eapply Forall_impl; [|exact H]; apply input_len).
  rewrite (concat_size output_size) by (apply Forall_forall; intros; apply output_len).
  unfold len at 2 3. rewrite !var_int_write_length.
  replace (len (le 4 (tx_locktime t))) with 4 by (unfold len; rewrite le_length; reflexivity).
  replace (len (sle 4 (tx_version t))) with 4 by (unfold len; rewrite sle_length; reflexivity). lia.
Qed.

Lemma header_len h : length (h_previous h) = 32%nat -> length (h_merkle_root h) = 32%nat ->
  length (header_write h) = 80%nat.
Proof.
  intros H1 H2. unfold header_write. rewrite !app_length, sle_length, !le_length, H1, H2. reflexivity.
Qed.

Lemma block_len b : block_wf b -> len (block_write b) = block_size b.
Proof.
  intros (H & _ & F). unfold block_write, block_size, var_seq_write. rewrite !len_app.
  rewrite (concat_size tx_size).
  2:{ eapply Forall_impl; [|exact F]. intros t (_ & (_ & Hi) & _). apply tx_len, Hi. }
  unfold len at 1 2. rewrite var_int_write_length, header_len by apply H. lia.
Qed.

Lemma buffer_write_exact n c : len c = n -> buffer_write n c = Some c.
Proof.
  intros H. unfold buffer_write. destruct (n <? len c) eqn:C; [lia|].
  replace (N.to_nat n - length c)%nat with O by (unfold len in H; lia). cbn [repeat]. rewrite app_nil_r. reflexivity.
Qed.

(* ---------------------------------------------------------------- shortest form of var_int *)

Lemma var_int_shortest b x rest : var_int_read b = Some (x, rest) ->
  N.of_nat (length b) - N.of_nat (length rest) >= var_int_size x.
Proof.
  intros H. destruct (c_rw _ _ _ codec_var_int _ _ _ H) as (_ & c & -> & L & _).
  rewrite <- var_int_write_length, app_length. lia.
Qed.

Lemma var_int_read_consumed b x rest : var_int_read b = Some (x, rest) ->
  x < 2 ^ 64 /\ exists c, b = c ++ rest /\ In (length c) [1; 3; 5; 9]%nat /\
    (var_int_write x = c <-> N.of_nat (length c) = var_int_size x).
Proof.
  intros H. destruct (c_rw _ _ _ codec_var_int _ _ _ H) as (W & c & -> & L & Q). split; [exact W|].
  exists c. split; [reflexivity|]. split.
  - revert H. unfold var_int_read, rd_bind at 1. destruct c as [|y c].
    { pose proof (var_int_write_length x) as Hl. cbn [length] in L.
      unfold var_int_size in Hl. destruct (x <=? 0xfc), (x <=? 0xffff), (x <=? 0xffffffff); lia. }
    cbn [rd_byte app length].
    assert (G : forall k, rd_le k (c ++ rest) = Some (x, rest) -> length c = k).
    { intros k. unfold rd_le, rd_bind. destruct (rd_bytes (N.of_nat k) (c ++ rest)) as [[z r']|] eqn:E; [|discriminate].
      apply rd_bytes_inv in E as [E Hy]. unfold rd_ret. intros R; inversion R; subst.
      apply app_inv_tail in E. subst z. unfold len in Hy. lia. }
    destruct (b2n y <=? 0xfc).
    + unfold rd_ret. intros R; inversion R as [[R1 R2]]. clear -R2.
      apply (f_equal (@length byte)) in R2. rewrite app_length in R2. left. lia.
    + destruct (b2n y =? 0xfd); [|destruct (b2n y =? 0xfe)]; intros R; apply G in R; rewrite R; cbn; auto.
  - rewrite <- var_int_write_length. split; [intros ->; reflexivity|]. intros K. apply Q. lia.
Qed.

(* ---------------------------------------------------------------- header slices *)

Lemma range_app (a b c : bytes) i j : length a = i -> length (a ++ b) = j -> range i j (a ++ b ++ c) = b.
Proof.
  intros H1 H2. unfold range. subst i. rewrite skipn_app_exact.
  rewrite app_length in H2. replace (j - length a)%nat with (length b) by lia. apply firstn_app_exact.
Qed.

Lemma header_of_slice_write h : header_wf h -> header_of_slice (header_write h) = h.
Proof.
  intros (W1 & W2 & W3 & W4 & W5 & W6). unfold header_of_slice, header_write.
  assert (L4 : forall n, length (le 4 n) = 4%nat) by (intros; apply le_length).
  set (v := sle 4 (h_version h)). assert (Lv : length v = 4%nat) by apply sle_length.
  set (t := le 4 (h_timestamp h)). set (g := le 4 (h_target h)). set (n := le 4 (h_nonce h)).
  set (p := h_previous h) in *. set (m := h_merkle_root h) in *.
  assert (R1 : range 0 4 (v ++ p ++ m ++ t ++ g ++ n) = v).
  { apply (range_app [] v); [reflexivity|exact Lv]. }
  assert (R2 : range 4 36 (v ++ p ++ m ++ t ++ g ++ n) = p).
  { apply (range_app v p); [exact Lv|rewrite app_length, Lv, W2; reflexivity]. }
  assert (R3 : range 36 68 (v ++ p ++ m ++ t ++ g ++ n) = m).
  { rewrite app_assoc. apply (range_app (v ++ p) m); rewrite !app_length, ?Lv, ?W2, ?W3; reflexivity. }
  assert (R4 : range 68 72 (v ++ p ++ m ++ t ++ g ++ n) = t).
  { rewrite (app_assoc v), (app_assoc (v ++ p)). apply (range_app ((v ++ p) ++ m) t);
      unfold t; rewrite !app_length, ?Lv, ?W2, ?W3, ?L4; reflexivity. }
  assert (R5 : range 72 76 (v ++ p ++ m ++ t ++ g ++ n) = g).
  { rewrite (app_assoc v), (app_assoc (v ++ p)), (app_assoc ((v ++ p) ++ m)).
    apply (range_app (((v ++ p) ++ m) ++ t) g);
      unfold t, g; rewrite !app_length, ?Lv, ?W2, ?W3, ?L4; reflexivity. }
  assert (R6 : range 76 80 (v ++ p ++ m ++ t ++ g ++ n) = n).
  { rewrite (app_assoc v), (app_assoc (v ++ p)), (app_assoc ((v ++ p) ++ m)), (app_assoc (((v ++ p) ++ m) ++ t)).
    rewrite <- (app_nil_r n) at 1. apply (range_app ((((v ++ p) ++ m) ++ t) ++ g) n);
      unfold t, g, n; rewrite !app_length, ?Lv, ?W2, ?W3, ?L4; reflexivity. }
  rewrite R1, R2, R3, R4, R5, R6. unfold v, t, g, n.
  rewrite sle_val_sle by (apply i32_srange, W1).
  rewrite !le_val_le, !N.mod_small by (apply u32_pow; assumption).
  destruct h; reflexivity.
Qed.

(* ---------------------------------------------------------------- slices of raw transactions *)

Lemma tx_slices_spec l rest : Forall tx_wf l ->
  tx_slices (length l) (concat (map tx_write l) ++ rest) = Some (map tx_write l).
Proof.
  induction 1 as [|t l Ht Hl IH]; cbn [length tx_slices map concat]; [reflexivity|].
  rewrite <- app_assoc, (c_rt _ _ _ codec_tx) by exact Ht. rewrite IH.
  rewrite !app_length. replace (length (tx_write t) + (length (concat (map tx_write l)) + length rest) -
    (length (concat (map tx_write l)) + length rest))%nat with (length (tx_write t)) by lia.
  rewrite firstn_app_exact. reflexivity.
Qed.

Lemma block_transactions_spec b rest : block_wf b ->
  block_transactions (block_write b ++ rest) = Some (map tx_write (bl_txs b)).
Proof.
  intros (Wh & Wn & Wt). unfold block_transactions, block_write, var_seq_write.
  rewrite <- !app_assoc, (c_rt _ _ _ codec_header) by exact Wh.
  rewrite (c_rt _ _ _ codec_var_int) by exact Wn. rewrite Nat2N.id. apply tx_slices_spec, Wt.
Qed.

Lemma of_N_land a b : Z.of_N (N.land a b) = Z.land (Z.of_N a) (Z.of_N b).
Proof. destruct a, b; reflexivity. Qed.

Lemma land_mod_32 (v : Z) : Z.land v (Z.of_N asicboost_mask) = Z.of_N (N.land (Z.to_N (v mod 2 ^ 32)) asicboost_mask).
Proof.
  rewrite of_N_land. rewrite Z2N.id by (apply Z.mod_pos_bound; lia).
  rewrite <- Z.land_ones by lia. rewrite <- Z.land_assoc. f_equal.
Qed.

Lemma read_tx_version_spec v rest : i32 v -> version_scannable v ->
  read_tx_version (sle 4 v ++ rest) = Some (true, rest).
Proof.
  intros Hv Hs. unfold read_tx_version, rd_bind. unfold sle.
  rewrite (c_rt _ _ _ (codec_le 4)).
  2:{ rewrite pow256_4. pose proof (Z.mod_pos_bound v (Z.of_N 4294967296) ltac:(lia)). lia. }
  unfold rd_ret. f_equal. f_equal. apply orb_true_iff. destruct Hs as [->|Hs].
  - left. reflexivity.
  - right. rewrite land_mod_32 in Hs. change (Z.of_N (pow256 4)) with (2 ^ 32)%Z. apply N.eqb_eq. lia.
Qed.

Lemma scan_input_spec i rest : input_wf i ->
  len (input_write i) < 2 ^ 64 ->
  scan_input (input_write i ++ rest) = Some (Some (input_write i), rest).
Proof.
  intros W Hl. pose proof (input_len i W) as Hlen. unfold scan_input, rd_bind.
  set (whole := input_write i ++ rest). unfold whole at 1. unfold input_write at 1. unfold var_string_write.
  rewrite <- !app_assoc. destruct W as (Wo & Ws & Wq).
  rewrite (c_rt _ _ _ codec_outpoint) by exact Wo.
  rewrite (c_rt _ _ _ codec_var_int) by exact Ws.
  unfold input_size in Hlen. unfold var_int_size in Hlen.
  assert (Hn : len (in_script i) + 4 < 2 ^ 64) by (destruct (len (in_script i) <=? 0xfc), (len (in_script i) <=? 0xffff), (len (in_script i) <=? 0xffffffff); lia).
  rewrite (N.mod_small (len (in_script i) + 4)) by exact Hn.
  unfold rd_skip, rd_bind. rewrite app_assoc, rd_bytes_app.
  2:{ rewrite len_app. unfold len at 2. rewrite le_length. reflexivity. }
  unfold rd_ret. f_equal. f_equal.
  replace ((len (in_script i) + 40 + var_int_size (len (in_script i))) mod 2 ^ 64) with (len (input_write i)).
  2:{ rewrite N.mod_small; unfold var_int_size; [|destruct (len (in_script i) <=? 0xfc), (len (in_script i) <=? 0xffff), (len (in_script i) <=? 0xffffffff)]; lia. }
  unfold mk_slice, whole. destruct (len (input_write i ++ rest) <? len (input_write i)) eqn:C.
  { rewrite len_app in C. lia. }
  f_equal. unfold len. rewrite Nat2N.id. apply firstn_app_exact.
Qed.

Lemma scan_inputs_spec l k i rest : Forall input_wf l -> Forall (fun i => len (input_write i) < 2 ^ 64) l ->
  nth_error l k = Some i -> scan_inputs k (concat (map input_write l) ++ rest) = Ret (input_write i).
Proof.
  revert k rest; induction l as [|x l IH]; intros k rest HF HB Hk; [destruct k; discriminate|].
  inversion HF; inversion HB; subst. cbn [map concat]. rewrite <- app_assoc.
  assert (Hne : len (input_write x) =? 0 = false).
  { rewrite input_len by assumption. unfold input_size. apply N.eqb_neq. lia. }
  destruct k as [|k]; cbn [scan_inputs]; rewrite scan_input_spec by assumption; rewrite Hne.
  - cbn in Hk. congruence.
  - apply IH; assumption.
Qed.

Lemma tx_input_slice_spec t k i rest : tx_wf t -> version_scannable (tx_version t) ->
  Forall (fun i => len (input_write i) < 2 ^ 64) (tx_inputs t) ->
  nth_error (tx_inputs t) (N.to_nat k) = Some i ->
  tx_input_slice (tx_write t ++ rest) k = Ret (input_write i).
Proof.
  intros (Wv & (Wn & Wi) & _ & _) Hs HB Hk. unfold tx_input_slice, tx_write, var_seq_write, rd_bind.
  rewrite <- !app_assoc, read_tx_version_spec by assumption.
  rewrite (c_rt _ _ _ codec_var_int) by exact Wn. unfold rd_ret.
  assert (Hlt : (N.to_nat k < length (tx_inputs t))%nat) by (apply nth_error_Some; congruence).
  destruct ((N.of_nat (length (tx_inputs t)) =? 0) || (N.of_nat (length (tx_inputs t)) <=? k)) eqn:C; [lia|].
  apply scan_inputs_spec; assumption.
Qed.

Lemma tx_input_slice_out_of_range t k rest : tx_wf t ->
  N.of_nat (length (tx_inputs t)) <= k -> tx_input_slice (tx_write t ++ rest) k = Ret [].
Proof.
  intros (Wv & (Wn & Wi) & _ & _) Hk. unfold tx_input_slice, tx_write, var_seq_write, rd_bind.
  rewrite <- !app_assoc. destruct (read_tx_version _) as [[[|] r]|] eqn:E; try reflexivity.
  unfold read_tx_version, rd_bind, sle in E. rewrite (c_rt _ _ _ (codec_le 4)) in E.
  2:{ rewrite pow256_4. pose proof (Z.mod_pos_bound (tx_version t) (Z.of_N 4294967296) ltac:(lia)). lia. }
  unfold rd_ret in E. inversion E; subst r.
  rewrite (c_rt _ _ _ codec_var_int) by exact Wn. unfold rd_ret.
  destruct ((N.of_nat (length (tx_inputs t)) =? 0) || (N.of_nat (length (tx_inputs t)) <=? k)) eqn:C; [reflexivity|lia].
Qed.

Lemma tx_output_slice_undef t k rest : tx_wf t -> version_scannable (tx_version t) ->
  tx_output_slice (tx_write t ++ rest) k = Undef.
Proof.
  intros (Wv & (Wn & Wi) & _ & _) Hs. unfold tx_output_slice, tx_write, var_seq_write, rd_bind.
  rewrite <- !app_assoc, read_tx_version_spec by assumption.
  rewrite (c_rt _ _ _ codec_var_int) by exact Wn. reflexivity.
Qed.

(* ---------------------------------------------------------------- readers accept exactly the forms *)

Definition parses {A} (F : A -> bytes -> Prop) (r : reader A) : Prop :=
  forall b a rest, r b = Some (a, rest) <-> exists c, b = c ++ rest /\ F a c.

Lemma parses_bytes n : parses (fun a c => c = a /\ len a = n) (rd_bytes n).
Proof.
  intros b a rest. split.
  - intros H. apply rd_bytes_inv in H as [-> H]. exists a. auto.
  - intros (c & -> & -> & H). apply rd_bytes_app, H.
Qed.

Lemma parses_le k : parses (le_form k) (rd_le k).
Proof.
  intros b a rest. unfold rd_le, rd_bind. split.
  - destruct (rd_bytes (N.of_nat k) b) as [[x r]|] eqn:E; [|discriminate].
    apply rd_bytes_inv in E as [-> E]. unfold rd_ret. intros H; inversion H; subst. exists x.
    unfold le_form, len in *. repeat split; auto; lia.
  - intros (c & -> & Hc & Hv). rewrite rd_bytes_app by (unfold len; lia). unfold rd_ret. congruence.
Qed.

Lemma parses_sle k : parses (sle_form k) (rd_sle k).
Proof.
  intros b a rest. unfold rd_sle, rd_bind. split.
  - destruct (rd_bytes (N.of_nat k) b) as [[x r]|] eqn:E; [|discriminate].
    apply rd_bytes_inv in E as [-> E]. unfold rd_ret. intros H; inversion H; subst. exists x.
    unfold sle_form, len in *. repeat split; auto; lia.
  - intros (c & -> & Hc & Hv). rewrite rd_bytes_app by (unfold len; lia). unfold rd_ret. congruence.
Qed.

Lemma parses_count : parses count_form var_int_read.
Proof.
  intros b a rest. split.
  - unfold var_int_read, rd_bind at 1. destruct b as [|x b]; cbn [rd_byte]; [discriminate|].
    pose proof (b2n_lt x) as Hx.
    destruct (b2n x <=? 0xfc) eqn:C1.
    + unfold rd_ret. intros H; inversion H; subst. exists [x]. split; [reflexivity|]. constructor; [reflexivity|lia].
    + destruct (b2n x =? 0xfd) eqn:C2; [|destruct (b2n x =? 0xfe) eqn:C3]; intros H; apply parses_le in H as (c & -> & Hc).
      * exists (x :: c). split; [reflexivity|]. replace x with xfd by (apply b2n_inj; change (b2n xfd) with 0xfd; lia). constructor; auto.
      * exists (x :: c). split; [reflexivity|]. replace x with xfe by (apply b2n_inj; change (b2n xfe) with 0xfe; lia). constructor; auto.
      * exists (x :: c). split; [reflexivity|]. replace x with xff by (apply b2n_inj; change (b2n xff) with 0xff; lia). constructor; auto.
  - intros (c & -> & H). inversion H as [x Hx Hlt | c' Hc | c' Hc | c' Hc]; subst; unfold var_int_read, rd_bind at 1; cbn [app rd_byte].
    + destruct (b2n x <=? 0xfc) eqn:C; [reflexivity|lia].
    + change (b2n xfd <=? 0xfc) with false. change (b2n xfd =? 0xfd) with true. cbn iota. apply parses_le. eauto.
    + change (b2n xfe <=? 0xfc) with false. change (b2n xfe =? 0xfd) with false. change (b2n xfe =? 0xfe) with true. cbn iota. apply parses_le. eauto.
    + change (b2n xff <=? 0xfc) with false. change (b2n xff =? 0xfd) with false. change (b2n xff =? 0xfe) with false. cbn iota. apply parses_le. eauto.
Qed.

Lemma parses_string : parses string_form var_string_read.
Proof.
  intros b a rest. unfold var_string_read, rd_bind. split.
  - destruct (var_int_read b) as [[n r]|] eqn:E; [|discriminate].
    apply parses_count in E as (c & -> & Hc). intros H. apply rd_bytes_inv in H as [-> H]. subst n.
    exists (c ++ a). split; [apply app_assoc|]. constructor; exact Hc.
  - intros (c & -> & H). inversion H as [c' Hc]; subst. rewrite <- app_assoc.
    assert (E : var_int_read (c' ++ a ++ rest) = Some (len a, a ++ rest)) by (apply parses_count; eauto).
    rewrite E. apply rd_bytes_app; reflexivity.
Qed.

Lemma parses_prepend {X} (F : X -> bytes -> Prop) r (H : parses F r) n acc b l rest :
  rd_prepend r n acc b = Some (l, rest) <->
  exists l' parts, l = rev l' ++ acc /\ length l' = n /\ Forall2 F l' parts /\ b = concat parts ++ rest.
Proof.
  revert acc b; induction n as [|n IH]; intros acc b; cbn [rd_prepend].
  - unfold rd_ret. split.
    + intros E; inversion E; subst. exists [], []. repeat split; auto.
    + intros (l' & parts & -> & Hl & HF & ->). destruct l'; [|discriminate]. inversion HF; subst. reflexivity.
  - unfold rd_bind. split.
    + destruct (r b) as [[x b']|] eqn:E; [|discriminate]. apply H in E as (c & -> & Hc).
      intros R. apply IH in R as (l' & parts & -> & Hl & HF & ->).
      exists (x :: l'), (c :: parts). cbn [rev concat length]. rewrite <- !app_assoc. repeat split; auto.
    + intros (l' & parts & -> & Hl & HF & ->). destruct l' as [|x l']; [discriminate|].
      inversion HF as [|? c ? parts' Hc HF']; subst. cbn [concat]. rewrite <- app_assoc.
      assert (E : r (c ++ concat parts' ++ rest) = Some (x, concat parts' ++ rest)) by (apply H; eauto).
      rewrite E. apply IH. exists l', parts'. cbn [rev]. rewrite <- app_assoc. repeat split; auto.
Qed.

Lemma parses_seq {X} (F : X -> bytes -> Prop) r : parses F r -> parses (seq_form F) (var_seq_read r).
Proof.
  intros H b l rest. unfold var_seq_read, rd_bind. split.
  - destruct (var_int_read b) as [[n b']|] eqn:E; [|discriminate].
    apply parses_count in E as (c & -> & Hc).
    destruct (rd_prepend r (N.to_nat n) [] b') as [[m b'']|] eqn:E2; [|discriminate].
    apply (parses_prepend F r H) in E2 as (l' & parts & -> & Hl & HF & ->).
    unfold rd_ret. intros R; inversion R; subst. rewrite app_nil_r, rev_involutive.
    exists (c ++ concat parts). split; [apply app_assoc|]. constructor; [|exact HF].
    replace (N.of_nat (length l')) with n by lia. exact Hc.
  - intros (c & -> & Q). inversion Q as [c' parts Hc HF]; subst. rewrite <- app_assoc.
    assert (E : var_int_read (c' ++ concat parts ++ rest) = Some (N.of_nat (length l), concat parts ++ rest)) by (apply parses_count; eauto).
    rewrite E, Nat2N.id.
    assert (E2 : rd_prepend r (length l) [] (concat parts ++ rest) = Some (rev l, rest)).
    { apply (parses_prepend F r H). exists l, parts. rewrite app_nil_r. auto. }
    rewrite E2. unfold rd_ret. rewrite rev_involutive. reflexivity.
Qed.

(* inverting one bind of a reader against a form, forwards and backwards *)
Lemma bind_parses {A B} (F : A -> bytes -> Prop) (r : reader A) (k : A -> reader B) b x rest :
  parses F r -> (rd_bind r k b = Some (x, rest) <-> exists a c b', b = c ++ b' /\ F a c /\ k a b' = Some (x, rest)).
Proof.
  intros H. unfold rd_bind. split.
  - destruct (r b) as [[a b']|] eqn:E; [|discriminate]. apply H in E as (c & -> & Hc). intros K. exists a, c, b'. auto.
  - intros (a & c & b' & -> & Hc & K).
    assert (E : r (c ++ b') = Some (a, b')) by (apply H; eauto). rewrite E. exact K.
Qed.

Lemma parses_outpoint : parses outpoint_form outpoint_read.
Proof.
  intros b o rest. unfold outpoint_read. rewrite (bind_parses _ _ _ _ _ _ (parses_bytes 32)). split.
  - intros (d & c & b' & -> & [-> Hd] & K). rewrite (bind_parses _ _ _ _ _ _ (parses_le 4)) in K.
    destruct K as (i & ci & b'' & -> & Hi & K). unfold rd_ret in K. inversion K; subst.
    exists (d ++ ci). split; [apply app_assoc|].
    apply (opf {| op_digest := d; op_index := i |}); [apply len32; exact Hd|exact Hi].
  - intros (c & -> & H). inversion H as [i Hd Hi]; subst. rewrite <- app_assoc.
    exists (op_digest o), (op_digest o), (i ++ rest). split; [reflexivity|]. split; [split; [reflexivity|apply len32, Hd]|].
    apply (bind_parses _ _ _ _ _ _ (parses_le 4)). exists (op_index o), i, rest. repeat split; try apply Hi.
    unfold rd_ret. destruct o; reflexivity.
Qed.

Lemma parses_input : parses input_form input_read.
Proof.
  intros b i rest. unfold input_read. rewrite (bind_parses _ _ _ _ _ _ parses_outpoint). split.
  - intros (o & co & b1 & -> & Ho & K). rewrite (bind_parses _ _ _ _ _ _ parses_string) in K.
    destruct K as (s & cs & b2 & -> & Hs & K). rewrite (bind_parses _ _ _ _ _ _ (parses_le 4)) in K.
    destruct K as (q & cq & b3 & -> & Hq & K). unfold rd_ret in K. inversion K; subst.
    exists (co ++ cs ++ cq). split; [rewrite <- !app_assoc; reflexivity|].
    apply (inf {| in_ref := o; in_script := s; in_seq := q |}); assumption.
  - intros (c & -> & H). inversion H as [o s q Ho Hs Hq]; subst. rewrite <- !app_assoc.
    exists (in_ref i), o, (s ++ q ++ rest). repeat split; auto.
    apply (bind_parses _ _ _ _ _ _ parses_string). exists (in_script i), s, (q ++ rest). repeat split; auto.
    apply (bind_parses _ _ _ _ _ _ (parses_le 4)). exists (in_seq i), q, rest. repeat split; try apply Hq.
    unfold rd_ret. destruct i; reflexivity.
Qed.

Lemma parses_output : parses output_form output_read.
Proof.
  intros b i rest. unfold output_read. rewrite (bind_parses _ _ _ _ _ _ (parses_sle 8)). split.
  - intros (o & co & b1 & -> & Ho & K). rewrite (bind_parses _ _ _ _ _ _ parses_string) in K.
    destruct K as (s & cs & b2 & -> & Hs & K). unfold rd_ret in K. inversion K; subst.
    exists (co ++ cs). split; [rewrite <- !app_assoc; reflexivity|].
    apply (ouf {| out_value := o; out_script := s |}); assumption.
  - intros (c & -> & H). inversion H as [o s Ho Hs]; subst. rewrite <- !app_assoc.
    exists (out_value i), o, (s ++ rest). repeat split; try apply Ho.
    apply (bind_parses _ _ _ _ _ _ parses_string). exists (out_script i), s, rest. repeat split; auto.
    unfold rd_ret. destruct i; reflexivity.
Qed.

Lemma parses_tx : parses tx_form tx_read.
Proof.
  intros b t rest. unfold tx_read. rewrite (bind_parses _ _ _ _ _ _ (parses_sle 4)). split.
  - intros (v & cv & b1 & -> & Hv & K). rewrite (bind_parses _ _ _ _ _ _ (parses_seq _ _ parses_input)) in K.
    destruct K as (i & ci & b2 & -> & Hi & K). rewrite (bind_parses _ _ _ _ _ _ (parses_seq _ _ parses_output)) in K.
    destruct K as (o & co & b3 & -> & Ho & K). rewrite (bind_parses _ _ _ _ _ _ (parses_le 4)) in K.
    destruct K as (l & cl & b4 & -> & Hl & K). unfold rd_ret in K. inversion K; subst.
    exists (cv ++ ci ++ co ++ cl). split; [rewrite <- !app_assoc; reflexivity|].
    apply (txf {| tx_version := v; tx_inputs := i; tx_outputs := o; tx_locktime := l |}); assumption.
  - intros (c & -> & H). inversion H as [v i o l Hv Hi Ho Hl]; subst. rewrite <- !app_assoc.
    exists (tx_version t), v, (i ++ o ++ l ++ rest). repeat split; try apply Hv.
    apply (bind_parses _ _ _ _ _ _ (parses_seq _ _ parses_input)). exists (tx_inputs t), i, (o ++ l ++ rest). repeat split; auto.
    apply (bind_parses _ _ _ _ _ _ (parses_seq _ _ parses_output)). exists (tx_outputs t), o, (l ++ rest). repeat split; auto.
    apply (bind_parses _ _ _ _ _ _ (parses_le 4)). exists (tx_locktime t), l, rest. repeat split; try apply Hl.
    unfold rd_ret. destruct t; reflexivity.
Qed.

Lemma parses_header : parses header_form header_read.
Proof.
  intros b h rest. unfold header_read. rewrite (bind_parses _ _ _ _ _ _ (parses_sle 4)). split.
  - intros (v & cv & b1 & -> & Hv & K). rewrite (bind_parses _ _ _ _ _ _ (parses_bytes 32)) in K.
    destruct K as (p & cp & b2 & -> & [-> Hp] & K). rewrite (bind_parses _ _ _ _ _ _ (parses_bytes 32)) in K.
    destruct K as (m & cm & b3 & -> & [-> Hm] & K). rewrite (bind_parses _ _ _ _ _ _ (parses_le 4)) in K.
    destruct K as (t & ct & b4 & -> & Ht & K). rewrite (bind_parses _ _ _ _ _ _ (parses_le 4)) in K.
    destruct K as (g & cg & b5 & -> & Hg & K). rewrite (bind_parses _ _ _ _ _ _ (parses_le 4)) in K.
    destruct K as (n & cn & b6 & -> & Hn & K). unfold rd_ret in K. inversion K; subst.
    exists (cv ++ p ++ m ++ ct ++ cg ++ cn). split; [rewrite <- !app_assoc; reflexivity|].
    apply (hf {| h_version := v; h_previous := p; h_merkle_root := m; h_timestamp := t; h_target := g; h_nonce := n |});
      cbn; try (apply len32); assumption.
  - intros (c & -> & H). inversion H as [v t g n Hv Hp Hm Ht Hg Hn]; subst. rewrite <- !app_assoc.
    exists (h_version h), v, (h_previous h ++ h_merkle_root h ++ t ++ g ++ n ++ rest). repeat split; try apply Hv.
    apply (bind_parses _ _ _ _ _ _ (parses_bytes 32)). exists (h_previous h), (h_previous h), (h_merkle_root h ++ t ++ g ++ n ++ rest). repeat split; try apply len32; auto.
    apply (bind_parses _ _ _ _ _ _ (parses_bytes 32)). exists (h_merkle_root h), (h_merkle_root h), (t ++ g ++ n ++ rest). repeat split; try apply len32; auto.
    apply (bind_parses _ _ _ _ _ _ (parses_le 4)). exists (h_timestamp h), t, (g ++ n ++ rest). repeat split; try apply Ht.
    apply (bind_parses _ _ _ _ _ _ (parses_le 4)). exists (h_target h), g, (n ++ rest). repeat split; try apply Hg.
    apply (bind_parses _ _ _ _ _ _ (parses_le 4)). exists (h_nonce h), n, rest. repeat split; try apply Hn.
    unfold rd_ret. destruct h; reflexivity.
Qed.

Lemma parses_block : parses block_form block_read.
Proof.
  intros b i rest. unfold block_read. rewrite (bind_parses _ _ _ _ _ _ parses_header). split.
  - intros (o & co & b1 & -> & Ho & K). rewrite (bind_parses _ _ _ _ _ _ (parses_seq _ _ parses_tx)) in K.
    destruct K as (s & cs & b2 & -> & Hs & K). unfold rd_ret in K. inversion K; subst.
    exists (co ++ cs). split; [rewrite <- !app_assoc; reflexivity|].
    apply (bf {| bl_header := o; bl_txs := s |}); assumption.
  - intros (c & -> & H). inversion H as [o s Ho Hs]; subst. rewrite <- !app_assoc.
    exists (bl_header i), o, (s ++ rest). repeat split; auto.
    apply (bind_parses _ _ _ _ _ _ (parses_seq _ _ parses_tx)). exists (bl_txs i), s, rest. repeat split; auto.
    unfold rd_ret. destruct i; reflexivity.
Qed.

(* writers produce one of the forms *)
Lemma parses_write {A} (F : A -> bytes -> Prop) wf w r : parses F r -> codec wf w r -> forall a, wf a -> F a (w a).
Proof.
  intros P C a Ha. pose proof (c_rt _ _ _ C a [] Ha) as H. apply P in H as (c & E & Hc).
  rewrite !app_nil_r in E. subst c. exact Hc.
Qed.

Lemma parses_shortest {A} (F : A -> bytes -> Prop) wf w r : parses F r -> codec wf w r ->
  forall a c, F a c -> wf a /\ (length (w a) <= length c)%nat /\ (length (w a) = length c -> w a = c).
Proof.
  intros P C a c H. assert (E : r (c ++ []) = Some (a, [])) by (apply P; eauto).
  destruct (c_rw _ _ _ C _ _ _ E) as (W & c' & E' & L & Q). rewrite !app_nil_r in E'. subst c'. auto.
Qed.

(* ---------------------------------------------------------------- statements used by PropertiesWire *)

Lemma var_int_round_trip n rest : n < 2 ^ 64 ->
  var_int_read (var_int_write n ++ rest) = Some (n, rest) /\
  N.of_nat (length (var_int_write n)) = var_int_size n /\
  (forall c, count_form n c -> (length (var_int_write n) <= length c)%nat /\
     (length (var_int_write n) = length c -> c = var_int_write n)).
Proof.
  intros H. split; [apply (c_rt _ _ _ codec_var_int), H|]. split; [apply var_int_write_length|].
  intros c Hc. destruct (parses_shortest _ _ _ _ parses_count codec_var_int _ _ Hc) as (_ & L & Q).
  split; [exact L|]. intros K. symmetry. apply Q, K.
Qed.

Lemma var_int_read_exact b n rest :
  (var_int_read b = Some (n, rest) <-> exists c, b = c ++ rest /\ count_form n c) /\
  (forall c, count_form n c -> n < 2 ^ 64 /\ In (length c) [1; 3; 5; 9]%nat /\
     (var_int_write n = c <-> N.of_nat (length c) = var_int_size n)).
Proof.
  split; [apply parses_count|]. intros c Hc.
  assert (E : var_int_read (c ++ []) = Some (n, [])) by (apply parses_count; eauto).
  destruct (var_int_read_consumed _ _ _ E) as (W & c' & E' & L & Q). rewrite !app_nil_r in E'. subst c'. auto.
Qed.

Lemma codec_inj0 {A} (wf : A -> Prop) w r a b : codec wf w r -> wf a -> wf b -> w a = w b -> a = b.
Proof.
  intros H Wa Wb E. apply (codec_inj wf w r a b [] [] H Wa Wb). rewrite E. reflexivity.
Qed.

Lemma tx_round_trip t rest : tx_wf t -> tx_read (tx_write t ++ rest) = Some (t, rest).
Proof. apply (c_rt _ _ _ codec_tx). Qed.
Lemma tx_inj t t' : tx_wf t -> tx_wf t' -> tx_write t = tx_write t' -> t = t'.
Proof. apply (codec_inj0 _ _ _ _ _ codec_tx). Qed.
Lemma tx_slice_round_trip t : tx_wf t -> exists b, tx_bytes t = Some b /\ tx_of_slice b = t /\ tx_form t b.
Proof.
  intros H. exists (tx_write t). unfold tx_bytes. rewrite buffer_write_exact by (apply tx_len, H).
  split; [reflexivity|]. split.
  - unfold tx_of_slice. rewrite <- (app_nil_r (tx_write t)), tx_round_trip by exact H. reflexivity.
  - apply (parses_write _ _ _ _ parses_tx codec_tx _ H).
Qed.

Lemma sizes_exact :
  (forall i, input_wf i -> input_bytes i = Some (input_write i) /\ len (input_write i) = input_size i) /\
  (forall o, output_bytes o = Some (output_write o) /\ len (output_write o) = output_size o) /\
  (forall t, tx_wf t -> tx_bytes t = Some (tx_write t) /\ len (tx_write t) = tx_size t) /\
  (forall b, block_wf b -> len (block_write b) = block_size b) /\
  (forall n, len (var_int_write n) = var_int_size n) /\
  (forall s, len (var_string_write s) = var_string_size (len s)) /\
  (forall X (w : X -> bytes) size l, (forall x, In x l -> len (w x) = size x) ->
      len (var_seq_write w l) = var_seq_size size l).
Proof.
  repeat split.
  - unfold input_bytes. rewrite buffer_write_exact; [reflexivity|]. apply input_len, H.
  - apply input_len, H.
  - unfold output_bytes. rewrite buffer_write_exact; [reflexivity|]. apply output_len.
  - apply output_len.
  - unfold tx_bytes. rewrite buffer_write_exact; [reflexivity|]. apply tx_len, H.
  - apply tx_len, H.
  - apply block_len.
  - apply var_int_write_length.
  - intros s. rewrite var_string_write_length. unfold var_string_size. lia.
  - intros X w size l H. unfold var_seq_write, var_seq_size. rewrite len_app, fold_size.
    rewrite (concat_size size w) by (apply Forall_forall; exact H).
    unfold len at 1. rewrite var_int_write_length. reflexivity.
Qed.

Lemma strict_prefix_rejected {A} (F : A -> bytes -> Prop) wf w r : parses F r -> codec wf w r ->
  forall a p s, F a (p ++ s) -> s <> [] -> r p = None.
Proof.
  intros P C a p s H Hs. destruct (r p) as [[a' rest]|] eqn:E; [|reflexivity]. exfalso.
  pose proof (c_ext _ _ _ C _ _ _ s E) as E1.
  assert (E2 : r ((p ++ s) ++ []) = Some (a, [])) by (apply P; eauto).
  rewrite app_nil_r in E2. rewrite E1 in E2. inversion E2 as [[E3 E4]]. apply app_eq_nil in E4 as [_ E4]. auto.
Qed.

Lemma truncated_tx t p s : tx_form t (p ++ s) -> s <> [] -> tx_read p = None /\ tx_of_slice p = tx_default.
Proof.
  intros H Hs. pose proof (strict_prefix_rejected _ _ _ _ parses_tx codec_tx _ _ _ H Hs) as E.
  split; [exact E|]. unfold tx_of_slice. rewrite E. reflexivity.
Qed.
Lemma truncated_header t p s : header_form t (p ++ s) -> s <> [] -> header_read p = None.
Proof. apply (strict_prefix_rejected _ _ _ _ parses_header codec_header). Qed.
Lemma truncated_block t p s : block_form t (p ++ s) -> s <> [] -> block_read p = None.
Proof. apply (strict_prefix_rejected _ _ _ _ parses_block codec_block). Qed.

Lemma header_layout h rest : header_wf h ->
  length (header_write h) = 80%nat /\ header_form h (header_write h) /\
  header_of_slice (header_write h) = h /\ header_read (header_write h ++ rest) = Some (h, rest) /\
  (forall h', header_wf h' -> header_write h' = header_write h -> h' = h).
Proof.
  intros H. split; [apply header_len; apply H|]. split; [apply (parses_write _ _ _ _ parses_header codec_header _ H)|].
  split; [apply header_of_slice_write, H|]. split; [apply (c_rt _ _ _ codec_header), H|].
  intros h' H' E. apply (codec_inj0 _ _ _ _ _ codec_header); auto.
Qed.
Lemma header_slice_total x : length x = 80%nat ->
  header_wf (header_of_slice x) /\ header_write (header_of_slice x) = x.
Proof.
  intros H.
  assert (E : exists h, header_read x = Some (h, [])).
  { unfold header_read.
    set (a := firstn 4 x). set (x1 := skipn 4 x).
    set (b := firstn 32 x1). set (x2 := skipn 32 x1).
    set (c := firstn 32 x2). set (x3 := skipn 32 x2).
    set (d := firstn 4 x3). set (x4 := skipn 4 x3).
    set (e := firstn 4 x4). set (f := skipn 4 x4).
    assert (Ex : x = a ++ b ++ c ++ d ++ e ++ f).
    { unfold e, f. rewrite firstn_skipn. unfold d, x4. rewrite firstn_skipn. unfold c, x3. rewrite firstn_skipn.
      unfold b, x2. rewrite firstn_skipn. unfold a, x1. rewrite firstn_skipn. reflexivity. }
    assert (L1 : length x1 = 76%nat) by (unfold x1; rewrite skipn_length; lia).
    assert (L2 : length x2 = 44%nat) by (unfold x2; rewrite skipn_length; lia).
    assert (L3 : length x3 = 12%nat) by (unfold x3; rewrite skipn_length; lia).
    assert (L4 : length x4 = 8%nat) by (unfold x4; rewrite skipn_length; lia).
    assert (L5 : length f = 4%nat) by (unfold f; rewrite skipn_length; lia).
    assert (La : length a = 4%nat) by (unfold a; rewrite firstn_length; lia).
    assert (Lb : length b = 32%nat) by (unfold b; rewrite firstn_length; lia).
    assert (Lc : length c = 32%nat) by (unfold c; rewrite firstn_length; lia).
    assert (Ld : length d = 4%nat) by (unfold d; rewrite firstn_length; lia).
    assert (Le : length e = 4%nat) by (unfold e; rewrite firstn_length; lia).
    rewrite Ex. clearbody a b c d e f.
    eexists. rewrite (bind_parses _ _ _ _ _ _ (parses_sle 4)).
    exists (sle_val a), a, (b ++ c ++ d ++ e ++ f). split; [reflexivity|]. split; [split; auto|].
    rewrite (bind_parses _ _ _ _ _ _ (parses_bytes 32)). exists b, b, (c ++ d ++ e ++ f). split; [reflexivity|]. split; [split; [reflexivity|apply len32, Lb]|].
    rewrite (bind_parses _ _ _ _ _ _ (parses_bytes 32)). exists c, c, (d ++ e ++ f). split; [reflexivity|]. split; [split; [reflexivity|apply len32, Lc]|].
    rewrite (bind_parses _ _ _ _ _ _ (parses_le 4)). exists (le_val d), d, (e ++ f). split; [reflexivity|]. split; [split; auto|].
    rewrite (bind_parses _ _ _ _ _ _ (parses_le 4)). exists (le_val e), e, f. split; [reflexivity|]. split; [split; auto|].
    rewrite (bind_parses _ _ _ _ _ _ (parses_le 4)). exists (le_val f), f, []. split; [rewrite app_nil_r; reflexivity|]. split; [split; auto|].
    reflexivity. }
  destruct E as [h E]. destruct (c_rw _ _ _ codec_header _ _ _ E) as (W & c & Ec & L & Q).
  rewrite app_nil_r in Ec. subst c. assert (Hw : header_write h = x).
  { apply Q. rewrite header_len by apply W. lia. }
  rewrite <- Hw, header_of_slice_write by exact W. auto.
Qed.

Lemma block_round_trip b rest : block_wf b ->
  block_read (block_write b ++ rest) = Some (b, rest) /\ block_form b (block_write b) /\
  (forall b', block_wf b' -> block_write b' = block_write b -> b' = b).
Proof.
  intros H. split; [apply (c_rt _ _ _ codec_block), H|].
  split; [apply (parses_write _ _ _ _ parses_block codec_block _ H)|].
  intros b' H' E. apply (codec_inj0 _ _ _ _ _ codec_block); auto.
Qed.

Lemma tx_reader_exact b t rest : tx_read b = Some (t, rest) <-> exists c, b = c ++ rest /\ tx_form t c.
Proof. apply parses_tx. Qed.
Lemma tx_form_shortest t c : tx_form t c ->
  tx_wf t /\ (length (tx_write t) <= length c)%nat /\ (tx_write t = c <-> length c = length (tx_write t)).
Proof.
  intros H. destruct (parses_shortest _ _ _ _ parses_tx codec_tx _ _ H) as (W & L & Q).
  split; [exact W|]. split; [exact L|]. split; [intros <-; reflexivity|]. intros K. apply Q. auto.
Qed.
Lemma block_reader_exact b t rest : block_read b = Some (t, rest) <-> exists c, b = c ++ rest /\ block_form t c.
Proof. apply parses_block. Qed.
Lemma block_form_shortest t c : block_form t c ->
  block_wf t /\ (length (block_write t) <= length c)%nat /\ (block_write t = c <-> length c = length (block_write t)).
Proof.
  intros H. destruct (parses_shortest _ _ _ _ parses_block codec_block _ _ H) as (W & L & Q).
  split; [exact W|]. split; [exact L|]. split; [intros <-; reflexivity|]. intros K. apply Q. auto.
Qed.
