(* Proofs about extended transactions, sums and designs. *)
From Coq Require Import Lia ZifyBool ZifyNat ZifyN.
From Verif Require Import Base BaseProofs WireModel WireSpec WireProofs ScriptModel MachineModel SighashModel ExtModel ExtSpec.
Local Open Scope N_scope.

(* ---------------------------------------------------------------- format *)
Lemma codec_xinput : codec xinput_wf xinput_write xinput_read.
Proof.
  exact (codec_bind _ _ _ _ _ _ (fun d i => {| xi_input := d; xi_prevout := i |}) xi_input xi_prevout
     (fun _ _ => eq_refl) (fun _ _ => eq_refl) (fun c => match c with Build_xinput _ _ => eq_refl end)
     codec_input codec_output).
Qed.
Lemma parses_xinput : parses xinput_form xinput_read.
Proof.
  intros b i rest. unfold xinput_read. rewrite (bind_parses _ _ _ _ _ _ parses_input). split.
  - intros (o & co & b1 & -> & Ho & K). rewrite (bind_parses _ _ _ _ _ _ parses_output) in K.
    destruct K as (s & cs & b2 & -> & Hs & K). unfold rd_ret in K. inversion K; subst.
    exists (co ++ cs). split; [rewrite <- !app_assoc; reflexivity|].
    apply (xinf {| xi_input := o; xi_prevout := s |}); assumption.
  - intros (c & -> & H). inversion H as [o s Ho Hs]; subst. rewrite <- !app_assoc.
    exists (xi_input i), o, (s ++ rest). repeat split; auto.
    apply (bind_parses _ _ _ _ _ _ parses_output). exists (xi_prevout i), s, rest. repeat split; auto.
    unfold rd_ret. destruct i; reflexivity.
Qed.
Lemma parses_skip n : parses (fun (_ : unit) c => len c = n) (rd_skip n).
Proof.
  intros b u rest. unfold rd_skip. rewrite (bind_parses _ _ _ _ _ _ (parses_bytes n)). split.
  - intros (a & c & b' & -> & [-> L] & K). unfold rd_ret in K. inversion K; subst. eauto.
  - intros (c & -> & L). exists c, c, rest. repeat split; auto. destruct u. reflexivity.
Qed.
Lemma xtx_reader_exact b t rest :
  xtx_read b = Some (t, rest) <-> exists m c, len m = 6 /\ b = c ++ rest /\ xtx_form m t c.
Proof.
  unfold xtx_read. rewrite (bind_parses _ _ _ _ _ _ (parses_sle 4)). split.
  - intros (v & cv & b1 & -> & Hv & K). rewrite (bind_parses _ _ _ _ _ _ (parses_skip 6)) in K.
    destruct K as (u & m & b0 & -> & Hm & K). rewrite (bind_parses _ _ _ _ _ _ (parses_seq _ _ parses_xinput)) in K.
    destruct K as (i & ci & b2 & -> & Hi & K). rewrite (bind_parses _ _ _ _ _ _ (parses_seq _ _ parses_output)) in K.
    destruct K as (o & co & b3 & -> & Ho & K). rewrite (bind_parses _ _ _ _ _ _ (parses_le 4)) in K.
    destruct K as (l & cl & b4 & -> & Hl & K). unfold rd_ret in K. inversion K; subst.
    exists m, (cv ++ m ++ ci ++ co ++ cl). split; [exact Hm |]. split; [rewrite <- !app_assoc; reflexivity|].
    apply (xtf m {| xt_version := v; xt_inputs := i; xt_outputs := o; xt_locktime := l |}); assumption.
  - intros (m & c & Hm & -> & H). inversion H as [v i o l Hv Hi Ho Hl]; subst. rewrite <- !app_assoc.
    exists (xt_version t), v, (m ++ i ++ o ++ l ++ rest). repeat split; try apply Hv.
    apply (bind_parses _ _ _ _ _ _ (parses_skip 6)). exists tt, m, (i ++ o ++ l ++ rest). repeat split; auto.
    apply (bind_parses _ _ _ _ _ _ (parses_seq _ _ parses_xinput)). exists (xt_inputs t), i, (o ++ l ++ rest). repeat split; auto.
    apply (bind_parses _ _ _ _ _ _ (parses_seq _ _ parses_output)). exists (xt_outputs t), o, (l ++ rest). repeat split; auto.
    apply (bind_parses _ _ _ _ _ _ (parses_le 4)). exists (xt_locktime t), l, rest. repeat split; try apply Hl.
    unfold rd_ret. destruct t; reflexivity.
Qed.
Lemma xtx_write_form t : xtx_wf t -> xtx_form xtx_marker t (xtx_write t).
Proof.
  intros (V & Hi & Ho & L). unfold xtx_write. constructor.
  - apply (parses_write _ _ _ _ (parses_sle 4) codec_i32 _ V).
  - apply (parses_write _ _ _ _ (parses_seq _ _ parses_xinput) (codec_var_seq _ _ _ codec_xinput) _ Hi).
  - apply (parses_write _ _ _ _ (parses_seq _ _ parses_output) (codec_var_seq _ _ _ codec_output) _ Ho).
  - apply (parses_write _ _ _ _ (parses_le 4) codec_u32 _ L).
Qed.
Lemma xtx_round_trip t rest : xtx_wf t -> xtx_read (xtx_write t ++ rest) = Some (t, rest).
Proof. intro W. apply xtx_reader_exact. exists xtx_marker, (xtx_write t). split; [reflexivity | split; [reflexivity | apply xtx_write_form, W]]. Qed.
Lemma xtx_form_wf m t c : xtx_form m t c -> xtx_wf t.
Proof.
  intros H. inversion H as [v i o l Hv Hi Ho Hl]; subst. split; [| split; [| split]].
  - apply (parses_shortest _ _ _ _ (parses_sle 4) codec_i32 _ _ Hv).
  - apply (parses_shortest _ _ _ _ (parses_seq _ _ parses_xinput) (codec_var_seq _ _ _ codec_xinput) _ _ Hi).
  - apply (parses_shortest _ _ _ _ (parses_seq _ _ parses_output) (codec_var_seq _ _ _ codec_output) _ _ Ho).
  - apply (parses_shortest _ _ _ _ (parses_le 4) codec_u32 _ _ Hl).
Qed.
Lemma xinput_len i : xinput_wf i -> len (xinput_write i) = xinput_size i.
Proof.
  intros [A B]. unfold xinput_write, xinput_size. rewrite len_app, input_len, output_len by exact A. reflexivity.
Qed.
Lemma xtx_len t : xtx_wf t -> len (xtx_write t) = xtx_size t.
Proof.
  intros (_ & (_ & H) & _). unfold xtx_write, xtx_size, var_seq_write. rewrite !len_app.
  rewrite (concat_size xinput_size) by (eapply Forall_impl; [|exact H]; apply xinput_len).
  rewrite (concat_size output_size) by (apply Forall_forall; intros; apply output_len).
  unfold len at 3 4. rewrite !var_int_write_length.
  replace (len (le 4 (xt_locktime t))) with 4 by (unfold len; rewrite le_length; reflexivity).
  replace (len (sle 4 (xt_version t))) with 4 by (unfold len; rewrite sle_length; reflexivity).
  change (len xtx_marker) with 6. lia.
Qed.
Lemma xtx_bytes_exact t : xtx_wf t -> xtx_bytes t = Some (xtx_write t) /\ len (xtx_write t) = xtx_size t.
Proof. intro W. split; [apply buffer_write_exact |]; apply xtx_len, W. Qed.
Lemma xinput_bytes_exact i : xinput_wf i -> xinput_bytes i = Some (xinput_write i) /\ len (xinput_write i) = xinput_size i.
Proof. intro W. split; [apply buffer_write_exact |]; apply xinput_len, W. Qed.

Lemma fold_sizes_map {X Y} (size : Y -> N) (f : X -> Y) l acc :
  fold_left (fun s i => s + size i) (map f l) acc = fold_left (fun s x => s + size (f x)) l acc.
Proof. revert acc. induction l as [|x l IH]; intro acc; cbn; [reflexivity | apply IH]. Qed.
Lemma xinput_sizes l : fold_left (fun s i => s + xinput_size i) l 0 =
  fold_left (fun s i => s + input_size i) (map xi_input l) 0 + fold_left (fun s o => s + output_size o) (map xi_prevout l) 0.
Proof.
  rewrite !fold_sizes_map.
  induction l as [|x l IH]; [reflexivity |]. cbn [fold_left].
  rewrite (fold_size xinput_size l (0 + _)), (fold_size (fun x => input_size (xi_input x)) l (0 + _)),
    (fold_size (fun x => output_size (xi_prevout x)) l (0 + _)), IH. unfold xinput_size. lia.
Qed.
Lemma xtx_size_plain t :
  xtx_size t = tx_size (xtx_plain t) + 6 + fold_left (fun s o => s + output_size o) (map xi_prevout (xt_inputs t)) 0.
Proof. unfold xtx_size, tx_size, xtx_plain. cbn [tx_inputs tx_outputs]. rewrite map_length, xinput_sizes. lia. Qed.

Lemma plain_reader t rest : i32 (xt_version t) ->
  tx_read (xtx_write t ++ rest) =
    Some ({| tx_version := xt_version t; tx_inputs := []; tx_outputs := []; tx_locktime := 0xef000000 |},
          var_seq_write xinput_write (xt_inputs t) ++ var_seq_write output_write (xt_outputs t) ++ le 4 (xt_locktime t) ++ rest).
Proof.
  intro V. unfold xtx_write, tx_read, rd_bind. rewrite <- !app_assoc, (c_rt _ _ _ codec_i32) by exact V.
  change xtx_marker with (var_seq_write input_write [] ++ var_seq_write output_write [] ++ le 4 0xef000000).
  rewrite <- !app_assoc, (c_rt _ _ _ (codec_var_seq _ _ _ codec_input)) by (split; [reflexivity | constructor]).
  rewrite (c_rt _ _ _ (codec_var_seq _ _ _ codec_output)) by (split; [reflexivity | constructor]).
  rewrite (c_rt _ _ _ codec_u32) by reflexivity. reflexivity.
Qed.

(* ---------------------------------------------------------------- sums *)
Lemma total_app a b : (total (a ++ b) = total a + total b)%Z.
Proof. induction a as [|x a IH]; cbn [app total]; lia. Qed.
Lemma total_bound l : Forall amount l -> (0 <= total l <= 2099999999999999 * Z.of_nat (length l))%Z.
Proof. induction 1 as [|x l A _ IH]; cbn [total length]; unfold amount in *; lia. Qed.
Lemma sum_exact_from ovf l acc : Forall amount l -> (0 <= acc)%Z -> (acc + total l < 9223372036854775808)%Z ->
  fold_left (fun x v => satoshi_add ovf v x) l acc = (acc + total l)%Z.
Proof.
  revert acc. induction l as [|v l IH]; intros acc F A B; cbn [fold_left total] in *; [lia |].
  inversion F as [| ? ? Fv Fl]; subst. pose proof (total_bound l Fl) as [T _]. unfold amount in Fv.
  assert (E : satoshi_add ovf v acc = (v + acc)%Z).
  { unfold satoshi_add, fits64. replace ((-9223372036854775808 <=? v + acc)%Z && (v + acc <? 9223372036854775808)%Z) with true by lia. reflexivity. }
  rewrite E, IH; [lia | assumption | lia | lia].
Qed.
Lemma fold_map {X A} (f : X -> A) (g : Z -> A -> Z) (l : list X) acc :
  fold_left g (map f l) acc = fold_left (fun x i => g x (f i)) l acc.
Proof. revert acc. induction l as [|x l IH]; intro acc; cbn; [reflexivity | apply IH]. Qed.
Lemma sum_exact ovf l : Forall amount l -> N.of_nat (length l) <= 4392 ->
  fold_left (fun x v => satoshi_add ovf v x) l 0%Z = total l /\ (0 <= total l < 9223372036854775808)%Z.
Proof.
  intros F L. pose proof (total_bound l F). split; [| lia]. rewrite sum_exact_from; [lia | exact F | lia | lia].
Qed.
Lemma sums_exact ovf t : modest t ->
  xtx_spent ovf t = total_in t /\ xtx_sent ovf t = total_out t /\ xtx_fee ovf t = (total_in t - total_out t)%Z.
Proof.
  intros (A & B & La & Lb).
  destruct (sum_exact ovf _ A) as [E1 B1]; [rewrite map_length; exact La |].
  destruct (sum_exact ovf _ B) as [E2 B2]; [rewrite map_length; exact Lb |].
  rewrite fold_map in E1. rewrite fold_map in E2. fold (total_in t) in E1, B1. fold (total_out t) in E2, B2.
  change (xtx_spent ovf t = total_in t) in E1. change (xtx_sent ovf t = total_out t) in E2.
  split; [exact E1 | split; [exact E2 |]]. unfold xtx_fee, satoshi_sub, fits64. rewrite E1, E2.
  replace (_ && _) with true by lia. reflexivity.
Qed.
(* a valid one does not spend more than it has *)
Lemma valid_balanced ovf t : modest t -> xtx_valid ovf t = Ret true -> (total_out t <= total_in t)%Z.
Proof.
  intros M H. destruct (sums_exact ovf t M) as (E1 & E2 & _).
  unfold xtx_valid in H. destruct (xt_inputs t) as [|i r]; [discriminate |]. destruct (xt_outputs t) as [|o s]; [discriminate |].
  destruct (xinputs_valid (i :: r)); try discriminate.
  assert (K : (xtx_sent ovf t <=? xtx_spent ovf t)%Z = true).
  { destruct (xtx_sent ovf t <=? xtx_spent ovf t)%Z; [reflexivity |]. rewrite Bool.andb_false_r in H. discriminate. }
  rewrite E1, E2 in K. lia.
Qed.

(* ---------------------------------------------------------------- designs *)
Lemma complete_exact d scripts : length scripts = length (ds_inputs d) ->
  exists t, design_complete d scripts = Ret t /\
    itx_of (xtx_plain t) = design_incomplete d /\
    map xi_prevout (xt_inputs t) = map di_prevout (ds_inputs d) /\
    map (fun i => in_script (xi_input i)) (xt_inputs t) = scripts /\
    xt_outputs t = ds_outputs d.
Proof.
  intro L. unfold design_complete. rewrite L, Nat.eqb_refl. eexists. split; [reflexivity |].
  assert (G : forall l s, length s = length l ->
    map iinput_of (map xi_input (map2 dinput_complete l s)) = map di_input l /\
    map xi_prevout (map2 dinput_complete l s) = map di_prevout l /\
    map (fun i => in_script (xi_input i)) (map2 dinput_complete l s) = s).
  { clear. induction l as [|a l IH]; intros [|b s] L; try discriminate L; cbn [map2 map]; [repeat split |].
    destruct (IH s) as (A & B & C); [cbn in L; congruence |]. rewrite A, B, C.
    unfold dinput_complete at 1 2 3. cbn. split; [| split; reflexivity].
    destruct a as [[r q] p e]. reflexivity. }
  destruct (G (ds_inputs d) scripts L) as (A & B & C).
  unfold itx_of, xtx_plain, design_incomplete. cbn. rewrite A, B, C. repeat split.
Qed.
Lemma complete_throws d scripts : length scripts <> length (ds_inputs d) -> design_complete d scripts = Throw X_logic_error.
Proof. intro L. unfold design_complete. apply Nat.eqb_neq in L. rewrite L. reflexivity. Qed.
Lemma design_inputs_size l s : Forall2 (fun i x => len x = di_expected i) l s ->
  fold_left (fun z i => z + input_size i) (map xi_input (map2 dinput_complete l s)) 0 = fold_left (fun z i => z + dinput_size i) l 0.
Proof.
  induction 1 as [|i x l s E F IH]; cbn [map2 map fold_left]; [reflexivity |].
  rewrite (fold_size input_size _ (0 + _)), (fold_size dinput_size l (0 + _)), IH.
  f_equal. f_equal. unfold input_size, dinput_size, dinput_complete, iinput_complete. cbn. rewrite E. reflexivity.
Qed.
Lemma map2_length {A B C} (f : A -> B -> C) l m : length l = length m -> length (map2 f l m) = length l.
Proof. revert m. induction l as [|a l IH]; intros [|b m] H; try discriminate H; cbn; [reflexivity |]. f_equal. apply IH. cbn in H. congruence. Qed.
Lemma design_size_exact d scripts t : as_expected d scripts -> design_complete d scripts = Ret t ->
  design_size d + var_int_size (N.of_nat (length (ds_outputs d))) =
  tx_size (xtx_plain t) + var_int_size (N.of_nat (length (ds_inputs d))).
Proof.
  intros F H. unfold design_complete in H. destruct (Nat.eqb _ _) eqn:L; [| discriminate]. apply Nat.eqb_eq in L.
  assert (E : t = {| xt_version := ds_version d; xt_inputs := map2 dinput_complete (ds_inputs d) scripts;
           xt_outputs := ds_outputs d; xt_locktime := ds_locktime d |}) by congruence. subst t.
  unfold design_size, tx_size, xtx_plain. cbn [tx_inputs tx_outputs xt_inputs xt_outputs].
  rewrite (design_inputs_size _ _ F), map_length, map2_length by congruence. lia.
Qed.
Lemma design_sums ovf d scripts t : design_complete d scripts = Ret t ->
  xtx_spent ovf t = design_spent ovf d /\ xtx_sent ovf t = design_sent ovf d /\ xtx_fee ovf t = design_fee ovf d.
Proof.
  intro H. assert (L : length scripts = length (ds_inputs d)).
  { unfold design_complete in H. destruct (Nat.eqb _ _) eqn:L; [| discriminate]. apply Nat.eqb_eq, L. }
  destruct (complete_exact d scripts L) as (t' & E & _ & P & _ & O). assert (t' = t) by congruence. subst t'.
  assert (S1 : xtx_spent ovf t = design_spent ovf d).
  { unfold xtx_spent, design_spent. rewrite <- (fold_map xi_prevout (fun x o => satoshi_add ovf (out_value o) x)), P, fold_map. reflexivity. }
  assert (S2 : xtx_sent ovf t = design_sent ovf d) by (unfold xtx_sent, design_sent; rewrite O; reflexivity).
  split; [exact S1 | split; [exact S2 |]]. unfold xtx_fee, design_fee. rewrite S1, S2. reflexivity.
Qed.

(* ---------------------------------------------------------------- rates *)
Lemma fits64_iff z : fits64 z = true <-> i64 z.
Proof. unfold fits64, i64. change (2 ^ 63)%Z with 9223372036854775808%Z. lia. Qed.
Lemma as_int64_small n : n < 2 ^ 63 -> as_int64 n = Z.of_N n.
Proof. intro H. unfold as_int64. change (2 ^ 63) with 9223372036854775808 in H. replace (n <? 9223372036854775808) with true by lia. reflexivity. Qed.
Lemma rate_q_den n : 0 < n -> Zpos (N.succ_pos (n - 1)) = Z.of_N n.
Proof. intro H. destruct n as [|p]; [lia |]. assert (E : N.pos (N.succ_pos (N.pos p - 1)) = N.pos p) by (rewrite N.succ_pos_spec; lia). lia. Qed.
Lemma compare_exact a b : comparable a b ->
  rate_compare a b = Some (QArith_base.Qcompare (rate_q a) (rate_q b)) /\
  rate_eqb a b = Some (QArith_base.Qeq_bool (rate_q a) (rate_q b)).
Proof.
  intros ((A0 & A) & (B0 & B) & P & Q). apply fits64_iff in P, Q.
  unfold rate_compare, rate_eqb, rate_sides. rewrite (as_int64_small _ A), (as_int64_small _ B), P, Q. cbn [andb].
  unfold QArith_base.Qcompare, QArith_base.Qeq_bool, rate_q. cbn [QArith_base.Qnum QArith_base.Qden].
  rewrite (rate_q_den _ A0), (rate_q_den _ B0). split; [reflexivity | rewrite Z.eqb_compare; reflexivity].
Qed.
Lemma compare_undefined a b : rt_bytes a < 2 ^ 63 -> rt_bytes b < 2 ^ 63 ->
  (rate_compare a b = None <-> ~ (i64 (rt_satoshis a * Z.of_N (rt_bytes b)) /\ i64 (rt_satoshis b * Z.of_N (rt_bytes a)))).
Proof.
  intros A B. unfold rate_compare, rate_sides. rewrite (as_int64_small _ A), (as_int64_small _ B), <- !fits64_iff.
  destruct (fits64 _), (fits64 _); cbn; split; intro H; try discriminate; try reflexivity; try (intros [X Y]; discriminate); exfalso; apply H; split; reflexivity.
Qed.
Lemma compare_default a : rate_compare rate_default a = Some Eq /\ rate_eqb rate_default a = Some true.
Proof.
  unfold rate_compare, rate_eqb, rate_sides, rate_default. cbn [rt_satoshis rt_bytes]. change (as_int64 0) with 0%Z.
  rewrite Z.mul_0_r, Z.mul_0_l. split; reflexivity.
Qed.
