(* Which extended transactions are valid. *)
From Coq Require Import Lia ZifyBool ZifyNat ZifyN.
From Verif Require Import Base BaseProofs WireModel WireSpec ScriptModel MachineModel SighashModel OriginalProofs ExtModel ExtSpec.
Local Open Scope N_scope.

Lemma xinput_good_iff i : xinput_valid i = Ret true <-> xinput_good i.
Proof. unfold xinput_valid, xinput_good. destruct (input_valid (xi_input i)) as [[]| |]; [destruct (output_valid (xi_prevout i))| | |]; split; intuition congruence. Qed.
Lemma xinput_bad_iff i : xinput_valid i = Ret false <-> xinput_bad i.
Proof. unfold xinput_valid, xinput_bad. destruct (input_valid (xi_input i)) as [[]| |]; [destruct (output_valid (xi_prevout i))| | |]; split; intuition congruence. Qed.
Lemma xinputs_good l : xinputs_valid l = Ret true <-> Forall xinput_good l.
Proof.
  induction l as [|i r IH]; cbn [xinputs_valid]; [split; [constructor|reflexivity]|].
  rewrite Forall_cons_iff, <- IH, <- xinput_good_iff. destruct (xinput_valid i) as [[]| |]; split; intuition congruence.
Qed.
Lemma xtx_valid_exact ovf t : xtx_valid ovf t = Ret true <->
  xt_inputs t <> [] /\ xt_outputs t <> [] /\ Forall (fun o => output_valid o = true) (xt_outputs t) /\ (xtx_sent ovf t <= xtx_spent ovf t)%Z /\
  (Forall xinput_good (xt_inputs t) \/ exists i, xt_inputs t = [i] /\ xinput_bad i /\ xinput_null i).
Proof.
  assert (FO : forall l, forallb output_valid l = true <-> Forall (fun o => output_valid o = true) l).
  { intros l. rewrite forallb_forall, Forall_forall. reflexivity. }
  unfold xtx_valid. destruct (xt_inputs t) as [|i r] eqn:Ei; [split; [discriminate|intros [C _]; congruence]|].
  destruct (xt_outputs t) as [|o s] eqn:Eo; [split; [discriminate|intros (_ & C & _); congruence]|].
  rewrite <- FO, <- Z.leb_le. set (ov := forallb output_valid (o :: s)). set (le := (xtx_sent ovf t <=? xtx_spent ovf t)%Z).
  rewrite <- xinputs_good. 
  assert (Nz : forall j, outpoint_eqb (in_ref (xi_input j)) outpoint_zero && (length (out_script (xi_prevout j)) =? 0)%nat = true <-> xinput_null j).
  { intros j. unfold xinput_null. rewrite andb_true_iff, outpoint_eqb_eq', Nat.eqb_eq, length_zero_iff_nil. reflexivity. }
  split.
  - intros E. destruct (xinputs_valid (i :: r)) as [v| |] eqn:V; try discriminate.
    assert (K : (v || match r with [] => outpoint_eqb (in_ref (xi_input i)) outpoint_zero && (length (out_script (xi_prevout i)) =? 0)%nat | _ => false end) && ov && le = true) by congruence.
    apply andb_true_iff in K. destruct K as [K Kl]. apply andb_true_iff in K. destruct K as [K Ko].
    split; [discriminate|]. split; [discriminate|]. split; [exact Ko|]. split; [exact Kl|].
    destruct v; [left; reflexivity|]. right. destruct r as [|? ?]; [|discriminate]. cbn [orb] in K. exists i. split; [reflexivity|]. rewrite <- xinput_bad_iff.
    split; [|apply Nz; exact K]. cbn [xinputs_valid] in V. destruct (xinput_valid i) as [[]| |]; congruence.
  - intros (_ & _ & Ko & Kl & [V|(j & J & B & Z)]).
    + rewrite V. rewrite Ko, Kl. reflexivity.
    + assert (i = j /\ r = []) as [-> ->] by (split; congruence). apply xinput_bad_iff in B. cbn [xinputs_valid]. rewrite B. apply Nz in Z. rewrite Z, Ko, Kl. reflexivity.
Qed.
