From Coq Require Import Lia ZifyBool ZifyNat ZifyN String.
From Verif Require Import Base BaseProofs WireModel WireSpec TextModel TextSpec TextFormProofs EnvelopeProofs JsonModel TscModel BumpModel BumpSpec BumpJsonModel BumpJsonSpec BumpJsonProofs
  MachineModel BeefModel BeefSpec BeefJsonModel BeefJsonSpec.
Local Open Scope list_scope.
Local Open Scope N_scope.

Section S.
Variable u1 u2 : bool.

Lemma input_json_exact i : input_json u1 u2 i = input_object u1 u2 i.
Proof. reflexivity. Qed.
Lemma output_json_exact o : output_json u1 o = output_object u1 o.
Proof. reflexivity. Qed.
Lemma btx_json_exact t : btx_json u1 u2 t = btx_object u1 u2 t.
Proof. destruct t as [x [i|]]; reflexivity. Qed.
Lemma bump_written b : bump_json u2 b = if forallb (forallb node_valid) (bp_path b) then Ret (bump_object u2 b) else Throw tt.
Proof. apply bump_json_exact. Qed.
Lemma bumps_written l : each (bump_json u2) l = if forallb (fun b => forallb (forallb node_valid) (bp_path b)) l then Ret (map (bump_object u2) l) else Throw tt.
Proof.
  induction l as [|b l IH]; [reflexivity|]. cbn [each forallb map]. rewrite bump_written.
  destruct (forallb (forallb node_valid) (bp_path b)); [|reflexivity]. cbn [and_then andb]. rewrite IH.
  destruct (forallb _ l); reflexivity.
Qed.
Lemma valid_forall b : forallb (forallb node_valid) (bp_path b) = true <-> nodes_valid b.
Proof.
  unfold nodes_valid. rewrite forallb_forall, Forall_forall. split; intros A x I; specialize (A x I).
  - apply Forall_forall. apply forallb_forall. exact A.
  - apply forallb_forall. apply Forall_forall. exact A.
Qed.
Lemma beef_json_written b : beef_json u1 u2 b =
  if forallb (fun x => forallb (forallb node_valid) (bp_path x)) (bf_bumps b) then Ret (beef_object u1 u2 b) else Throw tt.
Proof.
  unfold beef_json. rewrite bumps_written. destruct (forallb _ (bf_bumps b)); [|reflexivity]. cbn [and_then].
  rewrite (map_ext _ (btx_object u1 u2) btx_json_exact). reflexivity.
Qed.
Lemma all_valid l : forallb (fun x => forallb (forallb node_valid) (bp_path x)) l = true <-> Forall nodes_valid l.
Proof. rewrite forallb_forall, Forall_forall. split; intros A x I; apply valid_forall, A, I. Qed.
Lemma beef_json_exact b j : beef_json u1 u2 b = Ret j <-> Forall nodes_valid (bf_bumps b) /\ j = beef_object u1 u2 b.
Proof.
  rewrite beef_json_written, <- all_valid. destruct (forallb _ (bf_bumps b)); split.
  - intros E. assert (j = beef_object u1 u2 b) by congruence. auto.
  - intros [_ ->]. reflexivity.
  - discriminate.
  - intros [A _]. discriminate A.
Qed.
Lemma beef_json_throws b : beef_json u1 u2 b = Throw tt <-> ~ Forall nodes_valid (bf_bumps b).
Proof.
  rewrite beef_json_written, <- all_valid. destruct (forallb _ (bf_bumps b)); split.
  - discriminate.
  - intros A. elim A. reflexivity.
  - intros _ A. discriminate A.
  - reflexivity.
Qed.
Lemma beef_json_defined b : beef_json u1 u2 b <> Undef.
Proof. rewrite beef_json_written. destruct (forallb _ _); discriminate. Qed.
Lemma beef_valid_json H b : beef_valid H b = Ret true -> exists j, beef_json u1 u2 b = Ret j.
Proof.
  intros V. exists (beef_object u1 u2 b). apply beef_json_exact. split; [|reflexivity]. apply all_valid. apply forallb_forall. intros x I.
  unfold beef_valid in V. destruct (_ || _); [discriminate|]. destruct (txs_valid (bf_txs b)) as [[]| |]; try discriminate.
  assert (E : forallb bump_valid (bf_bumps b) && order_valid H [] (bf_txs b) = true) by congruence.
  apply andb_prop in E. destruct E as [E _]. rewrite forallb_forall in E. specialize (E x I). unfold bump_valid in E. apply andb_prop in E. apply E.
Qed.

(* ---------------------------------------------------------------- what the text determines *)
Lemma hex_of_inj a b : hex_of u1 a = hex_of u1 b -> a = b.
Proof.
  unfold hex_of. intros E. destruct u1.
  - assert (A : Some a = Some b) by (rewrite <- (hex_read_upper a), <- (hex_read_upper b), E; reflexivity). congruence.
  - assert (A : Some a = Some b) by (rewrite <- (hex_read_write a), <- (hex_read_write b), E; reflexivity). congruence.
Qed.
Lemma digest_text_inj a b : digest_text u2 a = digest_text u2 b -> a = b.
Proof.
  unfold digest_text. intros E. rewrite <- (rev_involutive a), <- (rev_involutive b). f_equal. destruct u2.
  - assert (A : Some (rev a) = Some (rev b)) by (rewrite <- (hex_read_upper (rev a)), <- (hex_read_upper (rev b)), E; reflexivity). congruence.
  - assert (A : Some (rev a) = Some (rev b)) by (rewrite <- (hex_read_write (rev a)), <- (hex_read_write (rev b)), E; reflexivity). congruence.
Qed.
Lemma map_inj_on {A B} (P : A -> Prop) (f : A -> B) : (forall x y, P x -> P y -> f x = f y -> x = y) ->
  forall l m, Forall P l -> Forall P m -> map f l = map f m -> l = m.
Proof.
  intros F l. induction l as [|x l IH]; intros [|y m] Pl Pm E; try discriminate; [reflexivity|].
  cbn [map] in E. inversion Pl; inversion Pm; subst. f_equal; [apply F; congruence|]. apply IH; auto. congruence.
Qed.
Lemma map_inj_all {A B} (f : A -> B) : (forall x y, f x = f y -> x = y) -> forall l m, map f l = map f m -> l = m.
Proof.
  intros F l. induction l as [|x l IH]; intros [|y m] E; try discriminate; [reflexivity|]. cbn [map] in E. f_equal; [apply F; congruence|apply IH; congruence].
Qed.
Lemma input_object_inj a b : input_object u1 u2 a = input_object u1 u2 b -> a = b.
Proof.
  destruct a as [[d i] s q], b as [[d' i'] s' q']. unfold input_object. cbn [in_ref in_script WireModel.in_seq op_digest op_index].
  generalize (text "prevout") (text "index") (text "txid") (text "script") (text "sequence") (text "0x"). intros k1 k2 k3 k4 k5 p E.
  assert (E1 : i = i') by congruence. assert (E2 : q = q') by congruence.
  assert (E3 : hex_of u1 s = hex_of u1 s') by congruence. apply hex_of_inj in E3.
  assert (E4 : p ++ digest_text u2 d = p ++ digest_text u2 d') by congruence.
  apply app_inv_head in E4. apply digest_text_inj in E4. subst. reflexivity.
Qed.
Lemma output_object_inj a b : (- 2 ^ 63 <= out_value a < 2 ^ 63)%Z -> (- 2 ^ 63 <= out_value b < 2 ^ 63)%Z -> output_object u1 a = output_object u1 b -> a = b.
Proof.
  destruct a as [v s], b as [v' s']. unfold output_object. cbn [out_value out_script].
  generalize (text "script") (text "value"). intros k1 k2 A B E.
  assert (E1 : hex_of u1 s = hex_of u1 s') by congruence. apply hex_of_inj in E1. subst s'.
  assert (E2 : Z.to_N (v mod 2 ^ 64) = Z.to_N (v' mod 2 ^ 64)) by congruence.
  assert (E3 : v = v').
  { change (2 ^ 63)%Z with 9223372036854775808%Z in *. change (2 ^ 64)%Z with 18446744073709551616%Z in *. Z.to_euclidean_division_equations; lia. }
  subst. reflexivity.
Qed.
Lemma btx_object_inj a b : tx_ranges (bt_tx a) -> tx_ranges (bt_tx b) -> btx_object u1 u2 a = btx_object u1 u2 b -> a = b.
Proof.
  destruct a as [[v i o t] x], b as [[v' i' o' t'] x']. unfold tx_ranges, btx_object. cbn [bt_tx bt_index tx_version tx_inputs tx_outputs tx_locktime].
  intros [A1 A2] [B1 B2] E.
  assert (K : match x with Some i => [(text "BUMPIndex", JUint i)] | None => [] end = match x' with Some i => [(text "BUMPIndex", JUint i)] | None => [] end /\
    JArray (map (input_object u1 u2) i) = JArray (map (input_object u1 u2) i') /\ JUint t = JUint t' /\
    JArray (map (output_object u1) o) = JArray (map (output_object u1) o') /\ JUint (Z.to_N (v mod 2 ^ 32)) = JUint (Z.to_N (v' mod 2 ^ 32))).
  { revert E. generalize (JUint (Z.to_N (v mod 2 ^ 32))) (JUint (Z.to_N (v' mod 2 ^ 32))) (JArray (map (output_object u1) o)) (JArray (map (output_object u1) o'))
      (JArray (map (input_object u1 u2) i)) (JArray (map (input_object u1 u2) i')) (JUint t) (JUint t').
    intros. destruct x, x'; cbn [app] in E; try (exfalso; discriminate E); [|]; repeat apply conj; congruence. }
  clear E. destruct K as (K1 & K2 & K3 & K4 & K5).
  assert (E1 : x = x') by (destruct x, x'; congruence). assert (E2 : t = t') by congruence.
  assert (E3 : map (input_object u1 u2) i = map (input_object u1 u2) i') by congruence. apply (map_inj_all _ input_object_inj) in E3.
  assert (E4 : map (output_object u1) o = map (output_object u1) o') by congruence. apply (map_inj_on _ _ output_object_inj) in E4; [|assumption|assumption].
  assert (E5 : Z.to_N (v mod 2 ^ 32) = Z.to_N (v' mod 2 ^ 32)) by congruence.
  assert (E6 : v = v').
  { change (2 ^ 31)%Z with 2147483648%Z in *. change (2 ^ 32)%Z with 4294967296%Z in *. Z.to_euclidean_division_equations; lia. }
  subst. reflexivity.
Qed.
Lemma clean_object n : node_object u2 (clean_node n) = node_object u2 n.
Proof.
  destruct n as [o f [d|]]; unfold clean_node, node_object, is_client, clean_flag; cbn [n_digest n_offset n_flag]; [|reflexivity].
  destruct (byte_eqb f flag_duplicate); [reflexivity|]. destruct (byte_eqb f flag_client) eqn:E; rewrite ?E; reflexivity.
Qed.
Lemma node_object_inj a b : node_valid a = true -> node_valid b = true -> node_object u2 a = node_object u2 b -> clean_node a = clean_node b.
Proof.
  destruct a as [o f d], b as [o' f' d']. unfold node_valid, node_object, clean_node, is_duplicate, is_client. cbn [n_digest n_offset n_flag]. intros A B E.
  destruct d as [d|], d' as [d'|].
  - assert (K : digest_text u2 d = digest_text u2 d' /\ o = o' /\ byte_eqb f flag_client = byte_eqb f' flag_client).
    { revert E. generalize (digest_text u2 d) (digest_text u2 d'). intros t t' E.
      destruct (byte_eqb f flag_client), (byte_eqb f' flag_client); cbn [app] in E; try (exfalso; discriminate E); repeat apply conj; congruence. }
    destruct K as (K1 & K2 & K3). apply digest_text_inj in K1. subst. unfold clean_flag. rewrite K3.
    destruct (byte_eqb f flag_duplicate); [discriminate A|]. destruct (byte_eqb f' flag_duplicate); [discriminate B|].
    destruct (byte_eqb f' flag_client) eqn:F'; [|reflexivity]. apply byte_eqb_eq in K3. apply byte_eqb_eq in F'. subst. reflexivity.
  - exfalso. destruct (byte_eqb f flag_client); discriminate E.
  - exfalso. destruct (byte_eqb f' flag_client); discriminate E.
  - assert (o = o') by congruence. apply byte_eqb_eq in A. apply byte_eqb_eq in B. subst. reflexivity.
Qed.
Lemma clean_map_inj l m : Forall (fun n => node_valid n = true) l -> Forall (fun n => node_valid n = true) m ->
  map (node_object u2) l = map (node_object u2) m -> map clean_node l = map clean_node m.
Proof.
  revert m. induction l as [|x l IH]; intros [|y m] A B E; try discriminate; [reflexivity|]. cbn [map] in *. inversion A; inversion B; subst.
  f_equal; [apply node_object_inj; congruence|]. apply IH; auto. congruence.
Qed.
Lemma bump_object_inj a b : nodes_valid a -> nodes_valid b -> (bump_object u2 a = bump_object u2 b <-> clean a = clean b).
Proof.
  destruct a as [h p], b as [h' p']. unfold nodes_valid, bump_object, clean. cbn [bp_height bp_path]. intros A B. split.
  - intros E. assert (E1 : h = h') by congruence. subst h'.
    assert (E2 : map (fun l => JArray (map (node_object u2) l)) p = map (fun l => JArray (map (node_object u2) l)) p') by congruence. clear E. f_equal.
    revert p' B E2. induction A as [|x p V A IH]; intros [|y p'] B E; try discriminate; [reflexivity|]. cbn [map] in *. inversion B; subst.
    f_equal; [apply clean_map_inj; [assumption|assumption|congruence]|]. apply IH; [assumption|congruence].
  - intros E. assert (E1 : h = h') by congruence. subst h'. assert (E2 : map (map clean_node) p = map (map clean_node) p') by congruence.
    assert (F : forall q, map (fun l => JArray (map (node_object u2) l)) q = map (fun l => JArray (map (node_object u2) l)) (map (map clean_node) q)).
    { intros q. rewrite map_map. apply map_ext. intros l. rewrite map_map. f_equal. apply map_ext. intros n. symmetry. apply clean_object. }
    rewrite (F p), (F p'), E2. reflexivity.
Qed.
Lemma bumps_object_inj l m : Forall nodes_valid l -> Forall nodes_valid m -> (map (bump_object u2) l = map (bump_object u2) m <-> map clean l = map clean m).
Proof.
  intros A. revert m. induction A as [|x l V A IH]; intros [|y m] B; try (split; discriminate); [split; reflexivity|]. inversion B; subst. cbn [map].
  assert (E1 := bump_object_inj x y V H1). assert (E2 := IH m H2). split; intros E.
  - f_equal; [apply E1|apply E2]; congruence.
  - f_equal; [apply E1|apply E2]; congruence.
Qed.
Lemma beef_object_inj a b : Forall nodes_valid (bf_bumps a) -> Forall nodes_valid (bf_bumps b) -> beef_ranges a -> beef_ranges b ->
  (beef_object u1 u2 a = beef_object u1 u2 b <-> beef_clean a = beef_clean b).
Proof.
  destruct a as [v p t], b as [v' p' t']. unfold beef_ranges, beef_object, beef_clean. cbn [bf_version bf_bumps bf_txs]. intros A B C D.
  assert (Q := bumps_object_inj p p' A B). split; intros E.
  - assert (E1 : v = v') by congruence. assert (E2 : map (bump_object u2) p = map (bump_object u2) p') by congruence.
    assert (E3 : map (btx_object u1 u2) t = map (btx_object u1 u2) t') by congruence. apply Q in E2.
    apply (map_inj_on _ _ btx_object_inj) in E3; [|assumption|assumption]. congruence.
  - assert (E1 : v = v') by congruence. assert (E2 : map clean p = map clean p') by congruence. assert (E3 : t = t') by congruence. apply Q in E2. congruence.
Qed.
Lemma beef_json_same a b j : Forall nodes_valid (bf_bumps b) -> beef_ranges a -> beef_ranges b -> beef_json u1 u2 a = Ret j ->
  (beef_json u1 u2 b = Ret j <-> beef_clean a = beef_clean b).
Proof.
  intros V A B E. apply beef_json_exact in E. destruct E as [Va ->]. rewrite beef_json_exact. rewrite <- (beef_object_inj a b Va V A B). split.
  - intros [_ E]. exact E.
  - auto.
Qed.
Lemma names_differ a b : digest_hexidecimal u2 a <> digest_text u2 b.
Proof.
  unfold digest_hexidecimal. intros E.
  assert (A : hex_read (digest_text u2 b) = Some (rev b)) by (unfold digest_text; destruct u2; [apply hex_read_upper|apply hex_read_write]).
  rewrite <- E in A. discriminate A.
Qed.
End S.
