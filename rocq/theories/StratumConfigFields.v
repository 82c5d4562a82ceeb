(* The requests and answers of single extensions; version masks. *)
From Coq Require Import String Sorted Lia ZifyBool ZifyNat ZifyN.
From Verif Require Import Base BaseProofs TextModel TextFormProofs WireModel WireSpec JsonModel StratumModel StratumSpec StratumProofs StratumFields StratumConfigModel StratumConfigSpec DictProofs StratumConfigProofs.
Local Open Scope N_scope.

Lemma mask_none mem z : mask_read (mask_text mem z) = Ret None.
Proof. exact (set_mask_lost mem z). Qed.
Lemma rolling_never p c : rolling_read p <> Ret (Some c).
Proof.
  unfold rolling_read. destruct (obj_find (text "mask") p) as [m|]; [|discriminate]. destruct (obj_find (text "min-bit-count") p) as [[]|]; try discriminate.
  destruct m; cbn [as_string bind]; try discriminate. destruct (mask_read s) as [[z|]|[]|] eqn:E; cbn [bind]; try discriminate. exfalso. exact (proj1 (mask_never s) z E).
Qed.
Lemma rolled_never p z : rolled_read p <> Ret (Some z).
Proof.
  unfold rolled_read. destruct (obj_find (text "mask") p) as [m|]; [|discriminate]. destruct m; cbn [as_string bind]; try discriminate. apply (proj1 (mask_never s)).
Qed.
Lemma rolling_lost mem c : rolling_read (rolling_write mem c) = Ret None.
Proof.
  unfold rolling_read, rolling_write.
  change (obj_find (text "mask") _) with (Some (JString (mask_text mem (vr_mask c)))). change (obj_find (text "min-bit-count") _) with (Some (JUint (vr_bits c))).
  cbn [as_string bind]. rewrite mask_none. reflexivity.
Qed.
Lemma rolled_lost mem z : rolled_read (rolled_write mem z) = Ret None.
Proof. unfold rolled_read, rolled_write. change (obj_find (text "mask") _) with (Some (JString (mask_text mem z))). cbn [as_string bind]. apply mask_none. Qed.
Lemma about_lost a : about_read (about_write a) = Ret None.
Proof. reflexivity. Qed.
Lemma minimum_exact p d : minimum_read p = Some d <-> maps p (text "value") d /\ ((exists n, d = JUint n) \/ exists f, d = JFloat f).
Proof.
  unfold minimum_read, maps. split.
  - destruct (obj_find (text "value") p) as [[]|]; try discriminate; intros E; assert (X := E); injection X as <-; split; eauto.
  - intros [-> [[n ->]|[f ->]]]; reflexivity.
Qed.
Lemma result_valid_exact x : result_valid x = Ret true <-> rs_accepted x = AccBool true /\ rs_params x = [] \/ rs_accepted x = AccBool false \/ exists s, rs_accepted x = AccError s.
Proof.
  unfold result_valid. destruct (rs_accepted x) as [[]|s|]; cbn [acc_bool bind negb orb]; split.
  - destruct (rs_params x); [auto|discriminate].
  - intros [[_ ->]|[X|[s X]]]; [reflexivity|discriminate X|discriminate X].
  - auto.
  - reflexivity.
  - eauto.
  - reflexivity.
  - discriminate.
  - intros [[X _]|[X|[s X]]]; discriminate X.
Qed.
Lemma result_valid_defined x : exists b, result_valid x = Ret b.
Proof. unfold result_valid. destruct (rs_accepted x) as [[]|s|]; cbn [acc_bool bind]; eauto. Qed.

(* a request to roll versions is not understood *)
Lemma rolling_throws mem c r : requests_ok r -> maps r (text "version_rolling") (rolling_write mem c) -> (forall q, ~ maps r (text "mask") q) -> requests_of (configure_of r) = Throw tt.
Proof.
  intros O M N. apply (requests_back_throws r O). exists (text "version_rolling"), (rolling_write mem c), (text "mask"), (JString (mask_text mem (vr_mask c))). split; [exact M|]. split; [reflexivity|]. right. exact N.
Qed.
Lemma rolling_sorted mem c : sorted (rolling_write mem c).
Proof. unfold rolling_write. constructor; [constructor; constructor|]. constructor; [reflexivity|constructor]. Qed.

(* ---------------------------------------------------------------- masks *)
Lemma land_bit x y i : bit (Z.land x y) i <-> bit x i /\ bit y i.
Proof. unfold bit. rewrite Z.land_spec, andb_true_iff. reflexivity. Qed.
Lemma positions x y : let l := filter (fun i => Z.testbit (Z.land x y) (Z.of_nat i)) (List.seq 0 32) in NoDup l /\ forall i, In i l <-> (i < 32)%nat /\ bit x i /\ bit y i.
Proof.
  cbn zeta. split; [apply NoDup_filter; apply seq_NoDup|]. intros i. rewrite filter_In, List.in_seq. pose proof (land_bit x y i) as L. unfold bit in *. split; [intros [A B]; split; [lia|tauto]|intros [A B]; split; [lia|tauto]].
Qed.
Lemma mask_make_exact x r n : mask_make x r = Some n <-> n = Z.land x (vr_mask r) /\ exists l, NoDup l /\ (forall i, In i l -> (i < 32)%nat /\ bit x i /\ bit (vr_mask r) i) /\ vr_bits r <= N.of_nat (length l).
Proof.
  unfold mask_make. destruct (positions x (vr_mask r)) as [D P]. cbn zeta. generalize dependent (filter (fun i => Z.testbit (Z.land x (vr_mask r)) (Z.of_nat i)) (List.seq 0 32)). intros l D P. destruct (N.of_nat (length l) <? vr_bits r) eqn:L; split.
  - discriminate.
  - intros (_ & l' & D' & P' & B). exfalso. assert (X : (length l' <= length l)%nat) by (apply NoDup_incl_length; [exact D'|intros i I; apply P; apply P'; exact I]). lia.
  - intros E. split; [congruence|]. exists l. split; [exact D|]. split; [intros i I; apply P; exact I|lia].
  - intros (-> & _). reflexivity.
Qed.
Lemma mask_make_bits x r n : mask_make x r = Some n -> forall i, bit n i <-> bit x i /\ bit (vr_mask r) i.
Proof. intros E i. apply mask_make_exact in E. destruct E as [-> _]. apply land_bit. Qed.
