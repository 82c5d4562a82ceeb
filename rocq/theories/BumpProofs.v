(* BUMP: binary form, branches, paths. *)
From Verif Require Import Base BaseProofs WireModel WireSpec WireProofs MerkleModel MerkleSpec MerkleProofs MerkleTreeProofs DualProofs BumpModel BumpSpec.
From Coq Require Import Sorting.Permutation.
From Coq Require Import ZifyBool ZifyNat ZifyN.
Ltac Zify.zify_post_hook ::= Z.div_mod_to_equations.
Local Open Scope N_scope.

(* ---- ordered insertion ---- *)

Lemma ascending_NoDup : forall l, ascending l -> NoDup l.
Proof.
  induction l as [|x l IH]; intros S; [constructor|]. destruct S as [A B]. constructor; [|apply IH, B].
  intros X. specialize (A x X). lia.
Qed.

Lemma place_perm : forall A (off : A -> N) x l, Permutation (place off x l) (x :: l).
Proof.
  induction l as [|y l IH]; cbn [place]; [reflexivity|]. destruct (off x <? off y); [reflexivity|].
  rewrite IH. apply perm_swap.
Qed.

Lemma place_sorted : forall A (off : A -> N) x l, ascending (map off l) -> ~ In (off x) (map off l) -> ascending (map off (place off x l)).
Proof.
  induction l as [|y l IH]; intros S N; cbn [place map]; [split; [intros ? []|exact I]|].
  destruct S as [F1 F2]. cbn [map In] in N. destruct (N.ltb_spec (off x) (off y)).
  - cbn [map]. split; [|split; assumption]. intros z [<-|Z]; [assumption|]. specialize (F1 z Z). lia.
  - cbn [map]. split; [|apply IH; tauto]. intros z Z.
    assert (P : Permutation (map off (place off x l)) (map off (x :: l))) by (apply Permutation_map, place_perm).
    apply (Permutation_in _ P) in Z. destruct Z as [<-|Z]; [|apply F1, Z]. assert (off x <> off y) by (intros E; apply N; left; congruence). lia.
Qed.

Lemma sorted_unique : forall A (off : A -> N) a b, ascending (map off a) -> ascending (map off b) -> Permutation a b -> a = b.
Proof.
  intros A off. induction a as [|x a IH]; intros b Sa Sb P.
  - apply Permutation_nil in P. subst. reflexivity.
  - destruct b as [|y b]; [apply Permutation_sym, Permutation_nil in P; discriminate|].
    destruct Sa as [A1 A2], Sb as [B1 B2].
    assert (E : x = y).
    { assert (X : In x (y :: b)) by (apply (Permutation_in _ P); left; reflexivity).
      assert (Y : In y (x :: a)) by (apply (Permutation_in _ (Permutation_sym P)); left; reflexivity).
      destruct X as [X|X]; [auto|]. destruct Y as [Y|Y]; [auto|].
      apply (in_map off) in X, Y. specialize (A1 _ Y). specialize (B1 _ X). lia. }
    subst y. f_equal. apply IH; auto. apply Permutation_cons_inv in P. exact P.
Qed.

Section Insert.
Variable ins : forall A, (A -> N) -> A -> list A -> list A.
Hypothesis Ins : ordered_insert ins.

Lemma fold_ins : forall A (off : A -> N) l acc, NoDup (map off (l ++ acc)) -> ascending (map off acc) ->
  ascending (map off (fold_left (fun r n => ins A off n r) l acc)) /\ Permutation (fold_left (fun r n => ins A off n r) l acc) (l ++ acc).
Proof.
  intros A off. induction l as [|x l IH]; intros acc ND S; cbn [fold_left app]; [split; [exact S|reflexivity]|].
  cbn [app map] in ND. inversion ND as [|? ? N1 N2]; subst.
  assert (F : ~ In (off x) (map off acc)) by (intros X; apply N1; rewrite map_app; apply in_or_app; right; exact X).
  rewrite (Ins A off x acc F).
  assert (P : Permutation (l ++ place off x acc) (x :: l ++ acc)).
  { rewrite (place_perm A off x acc). symmetry. apply Permutation_middle. }
  destruct (IH (place off x acc)) as [G1 G2].
  - apply (Permutation_NoDup (l := map off (x :: l ++ acc))); [apply Permutation_map, Permutation_sym, P|cbn [map]; constructor; assumption].
  - apply place_sorted; assumption.
  - split; [exact G1|]. rewrite G2. exact P.
Qed.

Lemma fold_ins_is : forall A (off : A -> N) l s, ascending (map off s) -> Permutation l s -> fold_left (fun r n => ins A off n r) l [] = s.
Proof.
  intros A off l s S P. destruct (fold_ins A off l []) as [G1 G2].
  - rewrite app_nil_r. apply (Permutation_NoDup (Permutation_map off (Permutation_sym P))), ascending_NoDup, S.
  - exact I.
  - rewrite app_nil_r in G2. apply (sorted_unique A off); [exact G1|exact S|]. rewrite G2. exact P.
Qed.

Lemma insert_all_sorted : forall l, sorted l -> insert_all ins l = l.
Proof. intros l S. apply fold_ins_is; [exact S|reflexivity]. Qed.

(* a new element in front of everything *)
Lemma ins_front : forall A (off : A -> N) x l, (forall y, In y (map off l) -> off x < y) -> ins A off x l = x :: l.
Proof.
  intros A off x l F. rewrite Ins; [|intros X; specialize (F _ X); lia]. destruct l as [|y l]; cbn [place]; [reflexivity|].
  specialize (F (off y) (or_introl eq_refl)). replace (off x <? off y) with true by lia. reflexivity.
Qed.
Lemma ins_back : forall A (off : A -> N) x l, (forall y, In y (map off l) -> y < off x) -> ins A off x l = l ++ [x].
Proof.
  intros A off x l F. rewrite Ins; [|intros X; specialize (F _ X); lia]. induction l as [|y l IH]; cbn [place app]; [reflexivity|].
  pose proof (F (off y) (or_introl eq_refl)). replace (off x <? off y) with false by lia. f_equal. apply IH. intros; apply F; right; assumption.
Qed.

(* ---- binary form ---- *)

Lemma flag_dec : forall f, byte_eqb f flag_duplicate = true <-> f = flag_duplicate.
Proof. intros f. unfold byte_eqb. split; [apply Byte.byte_dec_bl|apply Byte.byte_dec_lb]. Qed.

Lemma node_codec : codec node_wf node_write node_read.
Proof.
  constructor.
  - intros [o f d] rest [W D]. unfold node_write, node_read, rd_bind. cbn [n_offset n_flag n_digest] in *. rewrite <- app_assoc.
    rewrite (c_rt _ _ _ codec_var_int) by exact W. cbn [app rd_byte]. destruct d as [d|].
    + destruct D as [D F]. destruct (byte_eqb f flag_duplicate) eqn:E; [apply flag_dec in E; contradiction|].
      rewrite rd_bytes_app by (unfold len; lia). reflexivity.
    + subst f. reflexivity.
  - intros b [o f d] rest t. unfold node_read, rd_bind. destruct (var_int_read b) as [[o' r]|] eqn:E; [|discriminate].
    rewrite (c_ext _ _ _ codec_var_int _ _ _ t E). destruct r as [|f' r]; [discriminate|]. cbn [app rd_byte].
    destruct (byte_eqb f' flag_duplicate); [unfold rd_ret; intros X; congruence|].
    destruct (rd_bytes 32 r) as [[x r']|] eqn:R; [|discriminate]. rewrite (rd_bytes_ext _ _ _ _ t R). unfold rd_ret. congruence.
  - intros b n rest. unfold node_read, rd_bind. destruct (var_int_read b) as [[o r]|] eqn:E; [|discriminate].
    apply (c_rw _ _ _ codec_var_int) in E. destruct E as (U & c & -> & L1 & L2). destruct r as [|f r]; [discriminate|]. cbn [rd_byte].
    destruct (byte_eqb f flag_duplicate) eqn:F.
    + apply flag_dec in F. subst f. unfold rd_ret. intros X. assert (n = dup_node o /\ r = rest) as [-> ->] by (split; congruence).
      split; [split; [exact U|reflexivity]|]. exists (c ++ [flag_duplicate]). rewrite <- app_assoc. split; [reflexivity|].
      unfold node_write. cbn [dup_node n_offset n_flag n_digest]. rewrite !app_length. cbn [length].
      split; [lia|]. intros Q. rewrite L2 by lia. reflexivity.
    + destruct (rd_bytes 32 r) as [[d r']|] eqn:R; [|discriminate]. unfold rd_ret. intros X.
      assert (n = mknode o f (Some d) /\ r' = rest) as [-> ->] by (split; congruence).
      apply rd_bytes_inv in R. destruct R as [-> Hl]. unfold len in Hl.
      split; [split; [exact U|]; cbn [n_digest n_flag]; split; [lia|]; intros ->; rewrite (proj2 (flag_dec _) eq_refl) in F; discriminate|].
      exists (c ++ f :: d). rewrite <- app_assoc. split; [reflexivity|].
      unfold node_write. cbn [n_offset n_flag n_digest]. rewrite !app_length. cbn [length]. split; [lia|]. intros Q. rewrite L2 by lia. reflexivity.
Qed.

Lemma level_codec : codec level_wf (var_seq_write node_write) (var_seq_read node_read).
Proof. exact (codec_var_seq _ _ _ node_codec). Qed.

Lemma levels_rt : forall path rest, Forall level_wf path ->
  levels_read ins (length path) (concat (map (var_seq_write node_write) path) ++ rest) = Some (map (insert_all ins) path, rest).
Proof.
  induction path as [|l path IH]; intros rest F; [reflexivity|]. inversion F as [|? ? F1 F2]; subst.
  cbn [length levels_read map concat]. unfold rd_bind. rewrite <- app_assoc, (c_rt _ _ _ level_codec) by exact F1.
  rewrite (IH _ F2). reflexivity.
Qed.

Lemma bump_rt : forall b rest, bump_wf b -> Forall sorted (bp_path b) ->
  bump_read ins (bump_write b ++ rest) = Some (b, rest).
Proof.
  intros [h p] rest (W & L & F) S. unfold bump_read, bump_write, bump_depth, rd_bind. cbn [bp_height bp_path] in *.
  rewrite <- app_assoc, (c_rt _ _ _ codec_var_int) by exact W. cbn [app rd_byte].
  rewrite b2n_n2b, N.mod_small, Nat2N.id by exact L. rewrite levels_rt by exact F. unfold rd_ret. do 3 f_equal.
  clear -Ins S. induction p as [|l p IH]; [reflexivity|]. inversion S; subst. cbn [map]. rewrite insert_all_sorted by assumption. f_equal. auto.
Qed.

Lemma bump_of_bytes_rt : forall b, bump_wf b -> Forall sorted (bp_path b) -> bump_of_bytes ins (bump_write b) = b.
Proof.
  intros b W S. unfold bump_of_bytes. pose proof (bump_rt b [] W S) as R. rewrite app_nil_r in R. rewrite R. reflexivity.
Qed.

(* whatever the levels look like *)
Lemma bump_rt_any : forall b rest, bump_wf b ->
  bump_read ins (bump_write b ++ rest) = Some (mkbump (bp_height b) (map (insert_all ins) (bp_path b)), rest).
Proof.
  intros [h p] rest (W & L & F). unfold bump_read, bump_write, bump_depth, rd_bind. cbn [bp_height bp_path] in *.
  rewrite <- app_assoc, (c_rt _ _ _ codec_var_int) by exact W. cbn [app rd_byte].
  rewrite b2n_n2b, N.mod_small, Nat2N.id by exact L. rewrite levels_rt by exact F. reflexivity.
Qed.

(* size *)
Lemma node_size_exact : forall n, node_wf n -> len (node_write n) = node_size n.
Proof.
  intros [o f d] [W D]. unfold node_write, node_size, is_duplicate, len. cbn [n_offset n_flag n_digest] in *.
  rewrite app_length. cbn [length]. pose proof (var_int_write_length o) as V.  destruct d as [d|].
  - destruct D as [D F]. destruct (byte_eqb f flag_duplicate) eqn:E; [apply flag_dec in E; contradiction|]. lia.
  - subst f. change (byte_eqb flag_duplicate flag_duplicate) with true. cbn [length]. lia.
Qed.

Lemma fold_add : forall A (f : A -> N) l z, fold_left (fun z n => z + f n) l z = z + fold_left (fun z n => z + f n) l 0.
Proof.
  induction l as [|x l IH]; intros z; cbn [fold_left]; [lia|]. rewrite IH, (IH (0 + f x)). lia.
Qed.

Lemma level_size_exact : forall l z, Forall node_wf l -> fold_left (fun z n => z + node_size n) l z = z + len (concat (map node_write l)).
Proof.
  induction l as [|n l IH]; intros z F; cbn [fold_left map concat]; [unfold len; cbn [length]; lia|].
  inversion F; subst. rewrite IH by assumption. unfold len in *. rewrite app_length. pose proof (node_size_exact n H1). unfold len in *. lia.
Qed.

Lemma bump_size_exact : forall b, bump_wf b -> len (bump_write b) = bump_size b.
Proof.
  intros [h p] (W & L & F). unfold bump_write, bump_size, len. cbn [bp_height bp_path] in *. rewrite app_length. cbn [length].
  pose proof (var_int_write_length h) as V. 
  assert (G : forall z, fold_left (fun z nnn => fold_left (fun z n => z + node_size n) nnn (z + var_int_size (N.of_nat (length nnn)))) p z =
    z + N.of_nat (length (concat (map (var_seq_write node_write) p)))).
  { clear -F. induction p as [|l p IH]; intros z; cbn [fold_left map concat]; [cbn [length]; lia|].
    inversion F as [|? ? [F1 F2] F3]; subst. rewrite IH by exact F3. rewrite level_size_exact by exact F2.
    unfold var_seq_write, len in *. rewrite !app_length. pose proof (var_int_write_length (N.of_nat (length l))) as V.  lia. }
  rewrite G. lia.
Qed.

Lemma bump_valid_wf : forall b, bump_wf b -> bp_path b <> [] -> bump_valid b = true.
Proof.
  intros [h p] (W & L & F) Ne. unfold bump_valid. cbn [bp_path] in *. apply andb_true_iff. split; [destruct p; [congruence|reflexivity]|].
  apply forallb_forall. intros l Il. apply forallb_forall. intros n In'. rewrite Forall_forall in F. destruct (F l Il) as [_ F1].
  rewrite Forall_forall in F1. destruct (F1 n In') as [_ D]. unfold node_valid, is_duplicate. destruct (n_digest n).
  - destruct D as [_ D]. destruct (byte_eqb (n_flag n) flag_duplicate) eqn:E; [apply flag_dec in E; contradiction|reflexivity].
  - rewrite D. reflexivity.
Qed.

Lemma bump_bytes_exact : forall b, bump_wf b -> bp_path b <> [] -> bump_bytes b = Some (bump_write b).
Proof.
  intros b W Ne. unfold bump_bytes. rewrite bump_valid_wf by assumption. unfold buffer_write. rewrite <- bump_size_exact by exact W.
  replace (len (bump_write b) <? len (bump_write b)) with false by lia. unfold len. rewrite Nat2N.id, Nat.sub_diag. cbn [repeat]. rewrite app_nil_r. reflexivity.
Qed.

End Insert.
