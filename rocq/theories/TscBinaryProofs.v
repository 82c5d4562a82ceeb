(* Proofs about the binary form of TSC proofs. *)
From Coq Require Import Lia ZifyBool ZifyNat ZifyN.
From Verif Require Import Base BaseProofs WireModel WireSpec WireProofs MerkleModel TscModel TscSpec.
Local Open Scope list_scope.
Local Open Scope N_scope.

Lemma valid_exact p : tsc_valid p = true <-> identified p /\ targeted p.
Proof.
  destruct p as [t i pa h r b]. unfold tsc_valid, identified, targeted. cbn [ts_tx ts_id ts_hash ts_root ts_header]. split.
  - destruct t as [t|], i as [i|], h as [h|], r as [r|], b as [b|]; cbn; try discriminate; intros _; split;
      (now left; eauto) || (now right; eauto) || (now right; left; eauto) || (now right; right; eauto).
  - intros [A B]. destruct A as [(x & A1 & A2)|(x & A1 & A2)]; destruct B as [(y & B1 & B2 & B3)|[(y & B1 & B2 & B3)|(y & B1 & B2 & B3)]]; subst; reflexivity.
Qed.

(* ---------------------------------------------------------------- reading *)
Lemma parses_node : parses node_form node_read.
Proof.
  intros b a rest. unfold node_read, rd_bind at 1. split.
  - destruct b as [|x b]; cbn [rd_byte]; [discriminate|]. destruct (b2n x =? 1) eqn:E1.
    + assert (x = x01) as -> by (apply b2n_inj; change (b2n x01) with 1; lia). unfold rd_ret. intros E. assert (a = None) as -> by congruence. assert (b = rest) as -> by congruence.
      exists [x01]. split; [reflexivity|constructor].
    + destruct (b2n x =? 0) eqn:E0; [|discriminate]. assert (x = x00) as -> by (apply b2n_inj; change (b2n x00) with 0; lia).
      unfold rd_bind. destruct (rd_bytes 32 b) as [[d r]|] eqn:R; [|discriminate]. apply rd_bytes_inv in R as [-> L]. unfold rd_ret. intros E.
      assert (a = Some d) as -> by congruence. assert (r = rest) as -> by congruence. exists (x00 :: d). split; [reflexivity|]. constructor. unfold len in L. lia.
  - intros (c & -> & F). destruct F as [|d L]; [reflexivity|]. cbn [app rd_byte]. change (b2n x00 =? 1) with false. change (b2n x00 =? 0) with true. cbv iota.
    unfold rd_bind. rewrite rd_bytes_app by (unfold len; lia). reflexivity.
Qed.
Lemma parses_subject f : parses (subject_form f) (read_subject f).
Proof.
  intros b a rest. unfold read_subject. rewrite N.bit0_odd. destruct (N.odd f) eqn:O; split.
  - intros E. apply (proj1 (bind_parses _ _ _ _ _ _ parses_string)) in E. destruct E as (t & c & b' & -> & F & E). unfold rd_ret in E.
    assert (a = None) as -> by congruence. assert (b' = rest) as -> by congruence. exists c. split; [reflexivity|]. econstructor; eassumption.
  - intros (c & -> & F). destruct F as [t c _ F|d O' L]; [|congruence]. apply (bind_parses _ _ _ _ _ _ parses_string). exists t, c, rest. auto.
  - intros E. apply (proj1 (bind_parses _ _ _ _ _ _ (parses_bytes 32))) in E. destruct E as (t & c & b' & -> & [-> L] & E). unfold rd_ret in E.
    assert (a = Some t) as -> by congruence. assert (b' = rest) as -> by congruence. exists t. split; [reflexivity|]. constructor; [exact O|unfold len in L; lia].
  - intros (c & -> & F). destruct F as [t c O' F|d _ L]; [congruence|]. apply (bind_parses _ _ _ _ _ _ (parses_bytes 32)). exists d, d, rest.
    split; [reflexivity|]. split; [|reflexivity]. split; [reflexivity|unfold len; lia].
Qed.

Lemma flags_kind_bits f : f < 256 -> flags_kind f = match N.testbit f 1, N.testbit f 2 with false, false => KHash | true, false => KHeader | false, true => KRoot | true, true => KInvalid end.
Proof.
  intros L. assert (X : forallb (fun k => match flags_kind (N.of_nat k), N.testbit (N.of_nat k) 1, N.testbit (N.of_nat k) 2 with
    KHash, false, false | KHeader, true, false | KRoot, false, true | KInvalid, true, true => true | _, _, _ => false end) (List.seq 0 256) = true) by (vm_compute; reflexivity).
  rewrite forallb_forall in X. specialize (X (N.to_nat f)). rewrite N2Nat.id in X.
  assert (Y : In (N.to_nat f) (List.seq 0 256)) by (apply List.in_seq; lia). specialize (X Y). destruct (flags_kind f), (N.testbit f 1), (N.testbit f 2); congruence.
Qed.
Lemma header_form_slice b : length b = 80%nat -> header_form (header_of_slice b) b.
Proof.
  intros L. apply header_slice_total in L. destruct L as [W E]. pose proof (proj1 (proj2 (header_layout _ [] W))) as F. rewrite E in F. exact F.
Qed.
Lemma header_form_length h c : header_form h c -> length c = 80%nat.
Proof.
  intros F. destruct F as [v t g n [A _] B C [D _] [E _] [F _]]. rewrite !app_length, A, B, C, D, E, F. reflexivity.
Qed.
Lemma header_form_inj h h' c : header_form h c -> header_form h' c -> h = h'.
Proof.
  intros A B. assert (X : header_read (c ++ []) = Some (h, [])) by (apply parses_header; eauto). assert (Y : header_read (c ++ []) = Some (h', [])) by (apply parses_header; eauto). congruence.
Qed.
Lemma parses_target f : f < 256 -> parses (fun x c => target_form f (fst (fst x)) (snd (fst x)) (snd x) c) (read_target (flags_kind f)).
Proof.
  intros Lf b a rest. destruct a as [[h r] k]. cbn [fst snd]. rewrite flags_kind_bits by exact Lf.
  destruct (N.testbit f 1) eqn:T1, (N.testbit f 2) eqn:T2; cbn [read_target]; split.
  - discriminate.
  - intros (c & _ & F). destruct F; congruence.
  - intros E. apply (proj1 (bind_parses _ _ _ _ _ _ (parses_bytes 80))) in E. destruct E as (t & c & b' & -> & [-> L] & E). unfold rd_ret in E.
    assert (h = None) as -> by congruence. assert (r = None) as -> by congruence. assert (k = Some (header_of_slice t)) as -> by congruence. assert (b' = rest) as -> by congruence.
    exists t. split; [reflexivity|]. apply tf_header; [exact T1|exact T2|]. apply header_form_slice. unfold len in L. lia.
  - intros (c & -> & F). destruct F as [d A B L|x c A B F|d A B L]; try congruence. apply (bind_parses _ _ _ _ _ _ (parses_bytes 80)). exists c, c, rest.
    pose proof (header_form_length _ _ F). split; [reflexivity|]. split; [split; [reflexivity|unfold len; lia]|]. unfold rd_ret.
    rewrite (header_form_inj x (header_of_slice c) c F); [reflexivity|]. apply header_form_slice. assumption.
  - intros E. apply (proj1 (bind_parses _ _ _ _ _ _ (parses_bytes 32))) in E. destruct E as (t & c & b' & -> & [-> L] & E). unfold rd_ret in E.
    assert (h = None) as -> by congruence. assert (r = Some t) as -> by congruence. assert (k = None) as -> by congruence. assert (b' = rest) as -> by congruence.
    exists t. split; [reflexivity|]. apply tf_root; [exact T1|exact T2|]. unfold len in L. lia.
  - intros (c & -> & F). destruct F as [d A B L|x c A B F|d A B L]; try congruence. apply (bind_parses _ _ _ _ _ _ (parses_bytes 32)). exists d, d, rest.
    split; [reflexivity|]. split; [split; [reflexivity|unfold len; lia]|reflexivity].
  - intros E. apply (proj1 (bind_parses _ _ _ _ _ _ (parses_bytes 32))) in E. destruct E as (t & c & b' & -> & [-> L] & E). unfold rd_ret in E.
    assert (h = Some t) as -> by congruence. assert (r = None) as -> by congruence. assert (k = None) as -> by congruence. assert (b' = rest) as -> by congruence.
    exists t. split; [reflexivity|]. apply tf_hash; [exact T1|exact T2|]. unfold len in L. lia.
  - intros (c & -> & F). destruct F as [d A B L|x c A B F|d A B L]; try congruence. apply (bind_parses _ _ _ _ _ _ (parses_bytes 32)). exists d, d, rest.
    split; [reflexivity|]. split; [split; [reflexivity|unfold len; lia]|reflexivity].
Qed.
Lemma parses_tsc : parses tsc_form tsc_reader.
Proof.
  intros b p rest. unfold tsc_reader. split.
  - unfold rd_bind at 1. destruct b as [|f b]; cbn [rd_byte]; [discriminate|]. intros E.
    apply (proj1 (bind_parses _ _ _ _ _ _ parses_count)) in E. destruct E as (i & ci & b1 & -> & Fi & E).
    apply (proj1 (bind_parses _ _ _ _ _ _ (parses_subject (b2n f)))) in E. destruct E as (s & cs & b2 & -> & Fs & E).
    apply (proj1 (bind_parses _ _ _ _ _ _ (parses_target (b2n f) (b2n_lt f)))) in E. destruct E as (t & ct & b3 & -> & Ft & E).
    apply (proj1 (bind_parses _ _ _ _ _ _ (parses_seq _ _ parses_node))) in E. destruct E as (n & cn & b4 & -> & Fn & E). unfold rd_ret in E.
    assert (p = mktsc None s (mkpath i n) (fst (fst t)) (snd (fst t)) (snd t)) as -> by congruence. assert (b4 = rest) as -> by congruence.
    exists (f :: ci ++ cs ++ ct ++ cn). split; [cbn [app]; rewrite <- !app_assoc; reflexivity|]. constructor; assumption.
  - intros (c & -> & F). destruct F as [f i s h r k ds ci cs ct cn Fi Fs Ft Fn]. cbn [app]. unfold rd_bind at 1. cbn [rd_byte]. rewrite <- !app_assoc.
    apply (bind_parses _ _ _ _ _ _ parses_count). exists i, ci, (cs ++ ct ++ cn ++ rest). split; [reflexivity|]. split; [exact Fi|].
    apply (bind_parses _ _ _ _ _ _ (parses_subject (b2n f))). exists s, cs, (ct ++ cn ++ rest). split; [reflexivity|]. split; [exact Fs|].
    apply (bind_parses _ _ _ _ _ _ (parses_target (b2n f) (b2n_lt f))). exists (h, r, k), ct, (cn ++ rest). split; [reflexivity|]. split; [exact Ft|].
    apply (bind_parses _ _ _ _ _ _ (parses_seq _ _ parses_node)). exists ds, cn, rest. split; [reflexivity|]. split; [exact Fn|]. reflexivity.
Qed.

Lemma form_not_none p c : tsc_form p c -> targeted p /\ ts_tx p = None.
Proof.
  intros F. destruct F as [f i s h r k ds ci cs ct cn _ _ Ft _]. split; [|reflexivity]. unfold targeted. cbn [ts_hash ts_root ts_header].
  destruct Ft; [left|right; right|right; left]; eauto.
Qed.
Lemma read_binary_exact b p :
  (read_binary b = p /\ p <> tsc_none <-> exists c rest, b = c ++ rest /\ tsc_form p c) /\
  (read_binary b = tsc_none <-> forall c rest q, b = c ++ rest -> ~ tsc_form q c).
Proof.
  assert (N : forall q c, tsc_form q c -> q <> tsc_none).
  { intros q c F ->. apply form_not_none in F. destruct F as [[(d & E & _)|[(d & _ & E & _)|(d & _ & _ & E)]] _]; discriminate. }
  unfold read_binary. split; split.
  - intros [E X]. destruct (tsc_reader b) as [[q r]|] eqn:R; [|congruence]. subst q. apply parses_tsc in R. destruct R as (c & -> & F). eauto.
  - intros (c & rest & -> & F). split; [|eapply N; exact F]. assert (R : tsc_reader (c ++ rest) = Some (p, rest)) by (apply parses_tsc; eauto). rewrite R. reflexivity.
  - intros E c rest q -> F. assert (R : tsc_reader (c ++ rest) = Some (q, rest)) by (apply parses_tsc; eauto). rewrite R in E. apply (N q c F E).
  - intros X. destruct (tsc_reader b) as [[q r]|] eqn:R; [|reflexivity]. apply parses_tsc in R. destruct R as (c & -> & F). destruct (X c r q eq_refl F).
Qed.
(* a record that was read is valid exactly when the flags say that there is no transaction *)
Lemma read_binary_valid b : tsc_valid (read_binary b) = true <->
  exists c rest p f c', b = c ++ rest /\ tsc_form p c /\ c = f :: c' /\ N.odd (b2n f) = false.
Proof.
  split.
  - intros V. assert (X : read_binary b <> tsc_none) by (intros E; rewrite E in V; discriminate V).
    destruct (proj1 (proj1 (read_binary_exact b (read_binary b))) (conj eq_refl X)) as (c & rest & E & F).
    apply valid_exact in V. destruct V as [V _]. remember (read_binary b) as p eqn:P. clear P X. exists c, rest, p.
    assert (G := F). destruct F as [f i s h r k ds ci cs ct cn Fi Fs Ft Fn]. exists f, (ci ++ cs ++ ct ++ cn). split; [exact E|]. split; [exact G|]. split; [reflexivity|].
    destruct Fs as [t cs O _|d O _]; [|exact O]. exfalso. destruct V as [(t' & V & _)|(d & _ & V)]; cbn [ts_tx ts_id] in V; discriminate.
  - intros (c & rest & p & f & c' & E & F & Ec & O). pose proof (proj2 (proj1 (read_binary_exact b p))) as R.
    destruct R as [R _]; [exists c, rest; split; assumption|]. rewrite R. apply valid_exact. split; [|apply (form_not_none p c F)].
    destruct F as [f' i s h r k ds ci cs ct cn Fi Fs Ft Fn]. assert (f' = f) as -> by congruence.
    destruct Fs as [t cs O' _|d _ _]; [congruence|]. right. exists d. split; reflexivity.
Qed.

(* ---------------------------------------------------------------- writing *)
Lemma node_bytes_eq l : concat (map node_write l) = flat_map (fun d => match d with Some x => x00 :: x | None => [x01] end) l.
Proof. rewrite flat_map_concat_map. reflexivity. Qed.
Lemma nodes_size_acc l : forall n, fold_left (fun n (d : option digest) => n + (if some d then 33 else 1)) l n = n + nodes_size l.
Proof.
  unfold nodes_size. induction l as [|d l IH]; intros n; cbn [fold_left]; [lia|]. rewrite IH, (IH (0 + _)). lia.
Qed.
Lemma nodes_length l : Forall (opt_wf (fun d => length d = 32%nat)) l -> len (concat (map node_write l)) = nodes_size l.
Proof.
  induction 1 as [|d l W F IH]; [reflexivity|]. cbn [map concat]. rewrite len_app, IH.
  assert (E : nodes_size (d :: l) = 0 + (if some d then 33 else 1) + nodes_size l) by (unfold nodes_size at 1; cbn [fold_left]; apply nodes_size_acc). rewrite E.
  destruct d as [d|]; cbn [opt_wf some node_write] in *; [unfold len; cbn [length]; lia|unfold len; cbn [length]; lia].
Qed.
Lemma subject_length p : tsc_wf p -> identified p -> len (subject_bytes p) = subject_size p.
Proof.
  intros (W1 & W2 & _) I. unfold subject_bytes, subject_size. destruct I as [(t & E1 & E2)|(d & E1 & E2)]; rewrite E1, ?E2 in *; cbn [opt_wf] in *.
  - rewrite len_app. unfold len at 1. rewrite var_int_write_length. lia.
  - unfold len. lia.
Qed.
Lemma target_length p : tsc_wf p -> targeted p -> len (target_bytes p) = kind_size (target_type p).
Proof.
  intros (_ & _ & W3 & W4 & W5 & _) T. unfold target_bytes, target_type, some.
  destruct T as [(d & E1 & E2 & E3)|[(d & E1 & E2 & E3)|(h & E1 & E2 & E3)]]; rewrite E1, E2, E3 in *; cbn [opt_wf kind_size] in *.
  - unfold len. lia.
  - unfold len. lia.
  - unfold len. rewrite (proj1 (header_layout h [] W5)). reflexivity.
Qed.
Lemma flags_eq p : targeted p -> tsc_flags p = flags_of p.
Proof.
  intros T. unfold tsc_flags, flags_of, target_type, some, kind_flags.
  destruct T as [(d & E1 & E2 & E3)|[(d & E1 & E2 & E3)|(h & E1 & E2 & E3)]]; rewrite E1, ?E2, E3; destruct (ts_tx p); reflexivity.
Qed.
Lemma var_int_size_le a b : a <= b -> var_int_size a <= var_int_size b.
Proof. intros L. unfold var_int_size. repeat match goal with |- context[?x <=? ?y] => destruct (x <=? y) eqn:? end; lia. Qed.
Lemma index_small i : i mod 2 ^ 32 <= i. Proof. apply N.mod_le. discriminate. Qed.
Lemma write_binary_exact p : tsc_wf p -> identified p -> targeted p ->
  write_binary p = Ret (layout p ++ repeat x00 (left_over (p_index (ts_path p)))).
Proof.
  intros W I T. pose proof W as W'. destruct W' as (_ & _ & _ & _ & _ & Wi & Wn & Wd). unfold write_binary.
  assert (A : (match ts_tx p, ts_id p with Some t, _ => Some (var_string_write t) | None, Some d => Some d | None, None => None end) = Some (subject_bytes p)).
  { unfold subject_bytes, var_string_write. destruct I as [(t & E1 & E2)|(d & E1 & E2)]; rewrite E1, ?E2; reflexivity. }
  assert (B : (match target_type p with KHash => ts_hash p | KRoot => ts_root p | _ => option_map header_write (ts_header p) end) = Some (target_bytes p)).
  { unfold target_type, target_bytes, some. destruct T as [(d & E1 & E2 & E3)|[(d & E1 & E2 & E3)|(h & E1 & E2 & E3)]]; rewrite E1, E2, E3; reflexivity. }
  rewrite A, B. rewrite flags_eq by exact T. unfold index32, var_seq_write. rewrite node_bytes_eq. fold (nodes_bytes (p_digests (ts_path p))). change ([n2b (flags_of p)] ++ ?x) with (n2b (flags_of p) :: x). fold (layout p).
  assert (L : len (layout p) = binary_size p - var_int_size (p_index (ts_path p)) + var_int_size (p_index (ts_path p) mod 2 ^ 32)).
  { unfold layout, nodes_bytes. change (n2b (flags_of p) :: ?x) with ([n2b (flags_of p)] ++ x). rewrite !len_app, subject_length, target_length by assumption.
    rewrite <- node_bytes_eq, nodes_length by exact Wd. unfold binary_size. unfold len. rewrite !var_int_write_length. cbn [length]. lia. }
  unfold buffer_write. pose proof (var_int_size_le _ _ (index_small (p_index (ts_path p)))) as X.
  assert (Y : var_int_size (p_index (ts_path p)) <= binary_size p) by (unfold binary_size; lia).
  destruct (binary_size p <? len (layout p)) eqn:E; [lia|]. f_equal. f_equal. f_equal. unfold left_over. unfold len in L. lia.
Qed.
Lemma write_binary_undef p : tsc_wf p ->
  (write_binary p = Undef <-> (ts_tx p = None /\ ts_id p = None) \/ (ts_hash p = None /\ ts_root p = None /\ ts_header p = None)) /\
  forall e, write_binary p <> Throw e.
Proof.
  intros W. pose proof W as W'. destruct W' as (W1 & W2 & W3 & W4 & W5 & Wi & Wn & Wd). unfold write_binary.
  destruct p as [t i pa h r b]. unfold target_type, some, option_map in *. cbn [ts_tx ts_id ts_hash ts_root ts_header ts_path] in *.
  assert (G : forall s y k, len s = subject_size (mktsc t i pa h r b) -> len y = kind_size k -> target_type (mktsc t i pa h r b) = k -> exists c,
    buffer_write (binary_size (mktsc t i pa h r b)) ([n2b (tsc_flags (mktsc t i pa h r b))] ++ var_int_write (index32 (mktsc t i pa h r b)) ++ s ++ y ++ var_seq_write node_write (p_digests pa)) = Some c).
  { intros s y k Ls Ly Lk. unfold buffer_write. destruct (_ <? _) eqn:E; [exfalso|eexists; reflexivity]. revert E.
    rewrite !len_app, Ls, Ly. unfold var_seq_write. rewrite len_app, nodes_length by exact Wd. unfold binary_size. rewrite Lk. cbn [ts_path]. unfold index32. cbn [ts_path].
    pose proof (var_int_size_le _ _ (index_small (p_index pa))) as X. unfold len. rewrite !var_int_write_length. cbn [length]. lia. }
  assert (S1 : forall x, t = Some x -> len (var_string_write x) = subject_size (mktsc t i pa h r b)).
  { intros x ->. unfold subject_size. cbn [ts_tx]. apply var_string_write_length. }
  assert (S2 : forall d, t = None -> i = Some d -> len d = subject_size (mktsc t i pa h r b)).
  { intros d -> ->. unfold subject_size. cbn [ts_tx opt_wf] in *. unfold len. lia. }
  destruct b as [b|].
  { assert (Y : len (header_write b) = kind_size KHeader) by (unfold len; rewrite (proj1 (header_layout b [] W5)); reflexivity).
    destruct t as [t|]; [|destruct i as [i|]].
    - destruct (G _ _ KHeader (S1 t eq_refl) Y eq_refl) as [c ->]. split; [|discriminate]. split; [discriminate|]. intros [[A _]|(_ & _ & A)]; discriminate.
    - destruct (G _ _ KHeader (S2 i eq_refl eq_refl) Y eq_refl) as [c ->]. split; [|discriminate]. split; [discriminate|]. intros [[_ A]|(_ & _ & A)]; discriminate.
    - split; [|discriminate]. split; [|reflexivity]. intros _. left. split; reflexivity. }
  destruct h as [h|].
  { assert (Y : len h = kind_size KHash) by (cbn [opt_wf kind_size] in *; unfold len; lia).
    destruct t as [t|]; [|destruct i as [i|]].
    - destruct (G _ _ KHash (S1 t eq_refl) Y eq_refl) as [c ->]. split; [|discriminate]. split; [discriminate|]. intros [[A _]|(A & _)]; discriminate.
    - destruct (G _ _ KHash (S2 i eq_refl eq_refl) Y eq_refl) as [c ->]. split; [|discriminate]. split; [discriminate|]. intros [[_ A]|(A & _)]; discriminate.
    - split; [|discriminate]. split; [|reflexivity]. intros _. left. split; reflexivity. }
  destruct r as [r|].
  { assert (Y : len r = kind_size KRoot) by (cbn [opt_wf kind_size] in *; unfold len; lia).
    destruct t as [t|]; [|destruct i as [i|]].
    - destruct (G _ _ KRoot (S1 t eq_refl) Y eq_refl) as [c ->]. split; [|discriminate]. split; [discriminate|]. intros [[A _]|(_ & A & _)]; discriminate.
    - destruct (G _ _ KRoot (S2 i eq_refl eq_refl) Y eq_refl) as [c ->]. split; [|discriminate]. split; [discriminate|]. intros [[_ A]|(_ & A & _)]; discriminate.
    - split; [|discriminate]. split; [|reflexivity]. intros _. left. split; reflexivity. }
  destruct t as [t|]; [|destruct i as [i|]]; (split; [|discriminate]); split; try reflexivity; intros _; right; repeat split; reflexivity.
Qed.

(* what was written is read back without the transaction and with 32 bits of the index *)
Lemma parts_form l : Forall (opt_wf (fun d => length d = 32%nat)) l -> Forall2 node_form l (map node_write l).
Proof. induction 1 as [|d l W F IH]; cbn [map]; constructor; [|exact IH]. destruct d as [d|]; constructor. exact W. Qed.
Lemma layout_form p : tsc_wf p -> identified p -> targeted p -> tsc_form (without_tx (with_index32 p)) (layout p).
Proof.
  intros W I T. pose proof W as W'. destruct W' as (W1 & W2 & W3 & W4 & W5 & Wi & Wn & Wd). unfold layout.
  assert (Ff : flags_of p < 8). { unfold flags_of. destruct (ts_header p), (ts_hash p), (ts_tx p); lia. }
  assert (B : b2n (n2b (flags_of p)) = flags_of p) by (rewrite b2n_n2b; apply N.mod_small; lia).
  change (without_tx (with_index32 p)) with (mktsc None (ts_id p) (mkpath (p_index (ts_path p) mod 2 ^ 32) (p_digests (ts_path p))) (ts_hash p) (ts_root p) (ts_header p)).
  constructor.
  - apply (parses_write _ _ _ _ parses_count codec_var_int). unfold u64. pose proof (N.mod_lt (p_index (ts_path p)) (2 ^ 32)). change (2 ^ 64) with (2 ^ 32 * 2 ^ 32). lia.
  - rewrite B. unfold subject_bytes. destruct I as [(t & E1 & E2)|(d & E1 & E2)]; rewrite E1, ?E2 in *; cbn [opt_wf] in *.
    + apply (sf_tx _ t); [unfold flags_of; rewrite E1; destruct (ts_header p), (ts_hash p); reflexivity|]. constructor.
      apply (parses_write _ _ _ _ parses_count codec_var_int). exact W1.
    + apply sf_id; [unfold flags_of; rewrite E1; destruct (ts_header p), (ts_hash p); reflexivity|exact W2].
  - rewrite B. unfold target_bytes, flags_of.
    destruct T as [(d & E1 & E2 & E3)|[(d & E1 & E2 & E3)|(h & E1 & E2 & E3)]]; rewrite E1, E2, E3 in *; cbn [opt_wf] in *.
    + apply tf_hash; [destruct (ts_tx p); reflexivity|destruct (ts_tx p); reflexivity|assumption].
    + apply tf_root; [destruct (ts_tx p); reflexivity|destruct (ts_tx p); reflexivity|assumption].
    + apply tf_header; [destruct (ts_tx p); reflexivity|destruct (ts_tx p); reflexivity|]. apply header_layout; [exact []|assumption].
  - unfold nodes_bytes. rewrite <- node_bytes_eq. constructor; [|apply parts_form; exact Wd]. apply (parses_write _ _ _ _ parses_count codec_var_int). exact Wn.
Qed.
Lemma binary_round_trip p : tsc_wf p -> tsc_valid p = true ->
  exists b, write_binary p = Ret b /\ forall rest, read_binary (b ++ rest) = without_tx (with_index32 p).
Proof.
  intros W V. apply valid_exact in V. destruct V as [I T]. exists (layout p ++ repeat x00 (left_over (p_index (ts_path p)))). split; [apply write_binary_exact; assumption|]. intros rest.
  apply (proj1 (read_binary_exact _ _)). exists (layout p), (repeat x00 (left_over (p_index (ts_path p))) ++ rest). rewrite <- app_assoc. split; [reflexivity|]. apply layout_form; assumption.
Qed.
Lemma binary_round_trip_id p : tsc_wf p -> tsc_valid p = true ->
  exists b, write_binary p = Ret b /\ (read_binary b = p <-> ts_tx p = None /\ p_index (ts_path p) < 2 ^ 32) /\ (tsc_valid (read_binary b) = true <-> ts_tx p = None).
Proof.
  intros W V. destruct (binary_round_trip p W V) as (b & E & R). specialize (R []). rewrite app_nil_r in R. exists b. split; [exact E|]. rewrite R.
  apply valid_exact in V. destruct V as [I T]. destruct p as [t i [k ds] h r x]. unfold without_tx, with_index32 in *. cbn [ts_tx ts_id ts_path ts_hash ts_root ts_header p_index p_digests] in *.
  split; split.
  - intros X. assert (t = None) as -> by congruence. split; [reflexivity|]. assert (Y : k mod 2 ^ 32 = k) by congruence. rewrite <- Y. apply N.mod_lt. discriminate.
  - intros [-> L]. rewrite N.mod_small by exact L. reflexivity.
  - intros Y. apply valid_exact in Y. destruct Y as [[(y & Y & _)|(d & _ & Y)] _]; cbn [ts_tx ts_id] in Y; [discriminate|].
    destruct I as [(u & E1 & E2)|(u & E1 & E2)]; cbn [ts_tx ts_id] in *; congruence.
  - intros ->. apply valid_exact. split; assumption.
Qed.
