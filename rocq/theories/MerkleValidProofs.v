(* Which trees valid accepts. *)
From Verif Require Import Base BaseProofs WireModel MerkleModel MerkleSpec MerkleProofs MerkleTreeProofs.
From Coq Require Import Lia ZifyBool ZifyNat ZifyN.
Local Open Scope N_scope.

Section Valid.
Variable H : bytes -> bytes.

Lemma well_bounds : forall t k n, well_made H t k n -> 1 <= n /\ n <= 2 ^ N.of_nat k.
Proof.
  induction 1.
  - change (2 ^ N.of_nat 0) with 1. lia.
  - destruct IHwell_made. rewrite pow2_S. lia.
  - destruct IHwell_made1, IHwell_made2. rewrite pow2_S. lia.
Qed.

Lemma hcat_eq : forall a b, hcat H a b = H (a ++ b).
Proof. reflexivity. Qed.

Lemma check_sound : forall t w h, w < 4294967296 -> check_tree H t w h = Some true ->
  exists k n, h = N.of_nat k + 1 /\ well_made H t k n /\ n <= 4294967296 /\ w = n mod 4294967296.
Proof.
  induction t as [|d lt IHl rt IHr]; intros w h W E; cbn [check_tree] in E.
  - destruct (h =? 0); [discriminate|]. destruct (h =? 1); discriminate.
  - destruct (N.eqb_spec h 0); [discriminate|]. destruct (N.eqb_spec h 1) as [->|].
    + exists O, 1. split; [reflexivity|]. assert (B : (w =? 1) && dt_empty lt && dt_empty rt && digest_valid d = true) by congruence.
      apply andb_prop in B. destruct B as [B V]. apply andb_prop in B. destruct B as [B R]. apply andb_prop in B. destruct B as [B L].
      destruct lt; [|discriminate]. destruct rt; [|discriminate]. split; [constructor; exact V|]. split; [lia|].
      apply N.eqb_eq in B. rewrite B. reflexivity.
    + destruct (dt_root lt) as [dl|] eqn:DL; [|discriminate]. destruct rt as [|dr ra rb].
      * destruct (check_tree H lt w (h - 1)) as [[]|] eqn:C; try discriminate.
        destruct (IHl _ _ W C) as (k & n' & Hk & Wk & B & M). exists (S k), n'. split; [lia|]. split; [|split; assumption].
        assert (Q : bytes_eqb d (hcat H dl dl) = true) by congruence. apply bytes_eqb_eq in Q.
        eapply well_one; eassumption.
      * destruct (N.leb_spec 32 (h - 2)) as [|HB]; [discriminate|].
        remember (Node dr ra rb) as rt eqn:RT. cbv zeta in E.
        destruct (check_tree H rt _ (h - 1)) as [[]|] eqn:CR; try discriminate.
        destruct (check_tree H lt _ (h - 1)) as [[]|] eqn:CL; try discriminate.
        assert (Q : bytes_eqb d (hcat H dl dr) = true) by congruence. apply bytes_eqb_eq in Q.
        assert (P : 2 ^ (h - 2) <= 2 ^ 31) by (apply N.pow_le_mono_r; lia). change (2 ^ 31) with 2147483648 in P.
        destruct (IHl (2 ^ (h - 2)) (h - 1) ltac:(lia) CL) as (k & n' & Hk & Wk & B & M).
        assert (WW : w32 (w + 4294967296 - 2 ^ (h - 2)) < 4294967296) by (unfold w32; apply N.mod_lt; discriminate).
        destruct (IHr _ (h - 1) WW CR) as (k' & m & Hk' & Wk' & B' & M').
        assert (KK : k' = k) by lia. subst k'. replace (h - 2) with (N.of_nat k) in * by lia.
        destruct (well_bounds _ _ _ Wk) as [L1 L2]. destruct (well_bounds _ _ _ Wk') as [L3 L4].
        set (p := 2 ^ N.of_nat k) in *.
        assert (N1 : n' = p) by (rewrite N.mod_small in M by lia; lia). subst n'.
        rewrite N.mod_small in M' by lia.
        exists (S k), (p + m). split; [lia|]. split; [|split; [lia|]].
        { unfold p. eapply well_two; try eassumption. subst rt. reflexivity. }
        unfold w32 in M'. clearbody p.
        destruct (N.ltb_spec w p).
        { rewrite N.mod_small in M' by lia. assert (w = p + m - 4294967296) by lia. assert (p + m = 4294967296) by lia.
          replace (p + m) with 4294967296 by lia. rewrite N.mod_same by lia. lia. }
        { assert (m = w - p). { rewrite <- M'. replace (w + 4294967296 - p) with (w - p + 1 * 4294967296) by lia. rewrite N.mod_add by lia. apply N.mod_small; lia. }
          replace (p + m) with w by lia. rewrite N.mod_small by lia. reflexivity. }
Qed.

Lemma check_complete : forall t k n, well_made H t k n -> n < 4294967296 -> check_tree H t n (N.of_nat k + 1) = Some true.
Proof.
  induction 1 as [d V|d lt k n dl W IH R E|d lt rt k m dl dr WL IHl WR IHr RL RR E]; intros B; cbn [check_tree].
  - change (N.of_nat 0 + 1 =? 0) with false. change (N.of_nat 0 + 1 =? 1) with true. cbv iota. rewrite V. reflexivity.
  - replace (N.of_nat (S k) + 1 =? 0) with false by lia. replace (N.of_nat (S k) + 1 =? 1) with false by lia. rewrite R.
    replace (N.of_nat (S k) + 1 - 1) with (N.of_nat k + 1) by lia. rewrite IH by assumption. f_equal. rewrite hcat_eq, <- E. apply bytes_eqb_refl.
  - replace (N.of_nat (S k) + 1 =? 0) with false by lia. replace (N.of_nat (S k) + 1 =? 1) with false by lia. rewrite RL.
    destruct (well_bounds _ _ _ WL) as [L1 L2]. destruct (well_bounds _ _ _ WR) as [L3 L4].
    replace (N.of_nat (S k) + 1 - 1) with (N.of_nat k + 1) by lia. replace (N.of_nat (S k) + 1 - 2) with (N.of_nat k) by lia.
    assert (K : N.of_nat k < 32). { apply (N.pow_lt_mono_r_iff 2); [lia|]. change (2 ^ 32) with 4294967296. lia. }
    destruct rt as [|d' ra rb]; [discriminate|]. replace (32 <=? N.of_nat k) with false by lia. cbv zeta.
    assert (D : d' = dr) by (cbn [dt_root] in RR; congruence). subst d'.
    set (p := 2 ^ N.of_nat k) in *.
    assert (Q : w32 (p + m + 4294967296 - p) = m). { unfold w32. clearbody p. replace (p + m + 4294967296 - p) with (m + 1 * 4294967296) by lia. rewrite N.mod_add by lia. apply N.mod_small; lia. }
    rewrite Q, IHr by lia. rewrite IHl by lia. f_equal. rewrite hcat_eq, <- E. apply bytes_eqb_refl.
Qed.

Lemma tree_valid_iff : forall t, t_width t < 4294967296 ->
  tree_valid H t = Some true <-> exists k, t_height t = N.of_nat k + 1 /\ well_made H (t_tree t) k (t_width t).
Proof.
  intros [t w h] W. unfold tree_valid. cbn [t_tree t_width t_height] in *. split.
  - destruct (N.eqb_spec h 0), (N.eqb_spec w 0); cbn [orb]; try discriminate. intros E.
    destruct (check_sound _ _ _ W E) as (k & n' & Hk & Wk & B & M). exists k. split; [exact Hk|].
    assert (n' <> 4294967296) by (intros ->; rewrite N.mod_same in M by lia; lia).
    rewrite N.mod_small in M by lia. subst. exact Wk.
  - intros (k & Hk & Wk). subst h. destruct (well_bounds _ _ _ Wk). replace ((N.of_nat k + 1 =? 0) || (w =? 0)) with false by lia.
    apply check_complete; assumption.
Qed.
End Valid.
