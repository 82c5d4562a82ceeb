From Coq Require Import ZArith Lia ZifyBool ZifyNat ZifyN.
From Verif Require Import Base BaseProofs WireModel MerkleModel WorkModel WorkSpec WorkProofs StratumModel StratumJobModel StratumJobSpec.
Local Open Scope N_scope.

Section Job.
Variable H : bytes -> bytes.
Variable ok : worker -> bool.

Lemma version_of_work p :
  Z.lor (Z.land (nt_version (sp_notify p)) (pz_mask (wp_puzzle (work_proof p)))) (match sh_bits (ss_share (sp_share p)) with Some b => Z.land b (Z.lnot (pz_mask (wp_puzzle (work_proof p)))) | None => 0%Z end) =
  version_used (sp_notify p) (wk_mask (sp_worker p)) (ss_share (sp_share p)).
Proof.
  unfold version_used, rolled, bits_of. cbn [work_proof wp_puzzle puzzle_with pz_mask]. destruct (wk_mask (sp_worker p)) as [m|].
  - rewrite Z.lnot_involutive. destruct (sh_bits (ss_share (sp_share p))); [reflexivity|]. rewrite Z.land_0_l. reflexivity.
  - change (Z.lnot (-1)) with 0%Z. rewrite Z.land_m1_r. destruct (sh_bits (ss_share (sp_share p))) as [b|]; [rewrite Z.land_0_r|]; apply Z.lor_0_r.
Qed.
Lemma work_header p : header_write (wproof_string H (work_proof p)) =
  header_of H (sp_notify p) (wk_extra (sp_worker p)) (ss_share (sp_share p)) (version_used (sp_notify p) (wk_mask (sp_worker p)) (ss_share (sp_share p))).
Proof. rewrite <- version_of_work. reflexivity. Qed.
Theorem proof_for_exact p target : sproof_valid_for H p target = true <->
  ss_job (sp_share p) = nt_job (sp_notify p) /\ (wk_mask (sp_worker p) = None <-> sh_bits (ss_share (sp_share p)) = None) /\ solves H (sp_notify p) (sp_worker p) (ss_share (sp_share p)) target.
Proof.
  unfold sproof_valid_for, solves, string_hash. rewrite work_header, !andb_true_iff, bytes_eqb_eq, N.ltb_lt.
  assert (B : Bool.eqb (is_some (wk_mask (sp_worker p))) (is_some (sh_bits (ss_share (sp_share p)))) = true <-> (wk_mask (sp_worker p) = None <-> sh_bits (ss_share (sp_share p)) = None)).
  { destruct (wk_mask (sp_worker p)), (sh_bits (ss_share (sp_share p))); cbn [is_some Bool.eqb]; split; try (intros _; reflexivity); try discriminate; try (intros _; split; intros X; discriminate X); intros (A & A'); [discriminate (A' eq_refl)|discriminate (A eq_refl)]. }
  rewrite B. tauto.
Qed.
Theorem proof_exact p : sproof_valid H p = true <->
  ss_job (sp_share p) = nt_job (sp_notify p) /\ (wk_mask (sp_worker p) = None <-> sh_bits (ss_share (sp_share p)) = None) /\ solves H (sp_notify p) (sp_worker p) (ss_share (sp_share p)) (nt_target (sp_notify p)).
Proof. apply proof_for_exact. Qed.
Lemma zero_target_invalid s : wproof_valid H (proof_of_job empty_job s) = false.
Proof.
  unfold wproof_valid, string_valid. change (h_target (wproof_string H (proof_of_job empty_job s))) with 0. change (expand 0) with 0.
  apply N.ltb_ge, N.le_0_l.
Qed.
Theorem solved_exact s : solved_valid H ok s = true <->
  ok (sj_worker (sv_job s)) = true /\ notify_params_valid (sj_notify (sv_job s)) = true /\
  solves H (sj_notify (sv_job s)) (sj_worker (sv_job s)) (ss_share (sv_share s)) (nt_target (sj_notify (sv_job s))).
Proof.
  unfold solved_valid, solved_proof, work_job, sjob_valid. destruct (ok (sj_worker (sv_job s))) eqn:A; cbn [andb].
  2:{ split; [intros X; exfalso|intros (X & _); discriminate X]. rewrite zero_target_invalid in X. discriminate X. }
  destruct (notify_params_valid (sj_notify (sv_job s))) eqn:B.
  2:{ split; [intros X; exfalso|intros (_ & X & _); discriminate X]. rewrite zero_target_invalid in X. discriminate X. }
  pose (q := mksproof (sj_worker (sv_job s)) (sj_notify (sv_job s)) (sv_share s)).
  change (proof_of_job _ (ss_share (sv_share s))) with (work_proof q). unfold wproof_valid, string_valid, string_hash. rewrite work_header. unfold solves. rewrite N.ltb_lt. subst q. cbn [sp_notify sp_worker sp_share]. cbn [work_proof]. 
  split; [intros X; split; [reflexivity|split; [reflexivity|exact X]]|intros (_ & _ & X); exact X].
Qed.
Theorem version_right v b m : rolled v b (Z.lnot m) = rolled v b m <-> v = b.
Proof.
  unfold rolled. rewrite Z.lnot_involutive. split.
  - intros E. apply Z.bits_inj. intros i. apply (f_equal (fun z => Z.testbit z i)) in E. rewrite !Z.lor_spec, !Z.land_spec in E.
    destruct (Z_lt_le_dec i 0) as [L|L]; [rewrite !Z.testbit_neg_r by exact L; reflexivity|]. rewrite Z.lnot_spec in E by exact L.
    destruct (Z.testbit v i), (Z.testbit b i), (Z.testbit m i); cbn in E; congruence.
  - intros ->. apply Z.lor_comm.
Qed.
Theorem same_work w n a b : (forall x y, sh_bits a = Some x -> sh_bits b = Some y -> forall m, wk_mask w = Some m -> Z.land x (Z.lnot m) = Z.land y (Z.lnot m)) ->
  (sh_bits a = None <-> sh_bits b = None) -> sh_timestamp a = sh_timestamp b -> sh_nonce a = sh_nonce b -> sh_extra2 a = sh_extra2 b ->
  header_of H n (wk_extra w) a (version_used n (wk_mask w) a) = header_of H n (wk_extra w) b (version_used n (wk_mask w) b).
Proof.
  intros B S T C E. assert (V : version_used n (wk_mask w) a = version_used n (wk_mask w) b).
  { unfold version_used, rolled, bits_of. destruct (wk_mask w) as [m|]; [|reflexivity]. f_equal. destruct (sh_bits a) as [x|], (sh_bits b) as [y|]; [exact (B x y eq_refl eq_refl m eq_refl)|discriminate (proj2 S eq_refl)|discriminate (proj1 S eq_refl)|reflexivity]. }
  unfold header_of, block_root, coinbase_of. rewrite V, T, C, E. reflexivity.
Qed.
Theorem puzzle_back id p now clean : puzzle_of_notify (notify_of_puzzle id p now clean) = p <-> p_index (ca_path (pz_candidate p)) = 0 /\ pz_mask p = (-1)%Z.
Proof.
  destruct p as [[v d t [i ds]] h b m]. unfold puzzle_of_notify, puzzle_with, notify_of_puzzle. cbn [pz_candidate pz_header pz_body pz_mask ca_category ca_digest ca_target ca_path p_digests p_index nt_version nt_digest nt_target nt_path nt_tx1 nt_tx2].
  split; [intros E; split; congruence|intros (-> & ->); reflexivity].
Qed.
Theorem notify_back n : notify_of_puzzle (nt_job n) (puzzle_of_notify n) (nt_now n) (nt_clean n) = n.
Proof. destruct n. reflexivity. Qed.
End Job.

(* ---- the record of jobs *)
Lemma pop_old_exact keep now l : exists a, l = a ++ pop_old keep now l /\ Forall (fun e => old keep now e = true) a /\ (forall e r, pop_old keep now l = e :: r -> old keep now e = false).
Proof.
  induction l as [|e r IH]; [exists []; split; [reflexivity|split; [constructor|discriminate]]|]. cbn [pop_old]. destruct (old keep now e) eqn:O.
  - destruct IH as (a & E & F & G). exists (e :: a). split; [cbn [app]; congruence|]. split; [constructor; assumption|exact G].
  - exists []. split; [reflexivity|]. split; [constructor|]. intros f q X. assert (f = e) as -> by congruence. exact O.
Qed.
Theorem push_exact keep l e : exists kept dropped, l = kept ++ dropped /\ history_push keep l e = e :: kept /\
  Forall (fun f => old keep (nt_now (en_notify e)) f = true) dropped /\ (forall k f, kept = k ++ [f] -> old keep (nt_now (en_notify e)) f = false).
Proof.
  destruct (pop_old_exact keep (nt_now (en_notify e)) (rev l)) as (a & E & F & G). exists (rev (pop_old keep (nt_now (en_notify e)) (rev l))), (rev a).
  split; [rewrite <- rev_app_distr, <- E, rev_involutive; reflexivity|]. split; [reflexivity|]. split.
  - apply Forall_forall. intros f I0. rewrite Forall_forall in F. apply F. apply in_rev. exact I0.
  - intros k f X. apply (G f (rev k)). rewrite <- (rev_involutive (pop_old _ _ _)), X, rev_app_distr. reflexivity.
Qed.
Lemma ordered_app a b : newest_first (a ++ b) -> newest_first a /\ newest_first b /\ (forall x y, In x a -> In y b -> nt_now (en_notify y) <= nt_now (en_notify x)).
Proof.
  induction a as [|e a IH]; cbn [app newest_first]; [intros O; split; [exact Logic.I|split; [exact O|intros x y []]]|].
  intros (F & O). destruct (IH O) as (A & B & C). rewrite Forall_forall in F. split; [split; [apply Forall_forall; intros f I0; apply F, in_app_iff; left; exact I0|exact A]|]. split; [exact B|].
  intros x y [<- | X] Y; [apply F, in_app_iff; right; exact Y|exact (C x y X Y)].
Qed.
Theorem push_ordered keep l e : newest_first l -> Forall (fun f => nt_now (en_notify f) <= nt_now (en_notify e)) l ->
  history_push keep l e = e :: filter (fun f => negb (old keep (nt_now (en_notify e)) f)) l /\ newest_first (history_push keep l e).
Proof.
  intros O F. destruct (push_exact keep l e) as (kept & dropped & E & P & D & L). rewrite P.
  assert (K : Forall (fun f => old keep (nt_now (en_notify e)) f = false) kept).
  { subst l. apply ordered_app in O. destruct O as (O & _ & _). destruct (rev kept) as [|f q] eqn:R.
    - apply (f_equal (@rev entry)) in R. rewrite rev_involutive in R. subst kept. constructor.
    - apply (f_equal (@rev entry)) in R. rewrite rev_involutive in R. cbn [rev] in R. specialize (L _ _ R). rewrite R in O |- *. apply ordered_app in O. destruct O as (_ & _ & C).
      apply Forall_forall. intros x X. apply in_app_iff in X. destruct X as [X|[<- |[]]]; [|exact L]. specialize (C x f X (or_introl eq_refl)). unfold old in *. lia. }
  split.
  - f_equal. rewrite E, filter_app. replace (filter _ dropped) with (@nil entry).
    + rewrite app_nil_r. clear E P L D. induction K as [|x k X K IH]; [reflexivity|]. cbn [filter]. rewrite X. cbn [negb]. congruence.
    + clear E P L K. induction D as [|x k X D IH]; [reflexivity|]. cbn [filter]. rewrite X. exact IH.
  - cbn [newest_first]. subst l. apply ordered_app in O. destruct O as (O & _ & _). apply Forall_app in F. destruct F as (F & _). split; [exact F|exact O].
Qed.
Lemma old_expired keep now e : old keep now e = true <-> expired keep now e.
Proof. unfold old, expired. lia. Qed.
Theorem push_expired keep l e : exists kept dropped, l = kept ++ dropped /\ history_push keep l e = e :: kept /\
  Forall (expired keep (nt_now (en_notify e))) dropped /\ (forall k f, kept = k ++ [f] -> ~ expired keep (nt_now (en_notify e)) f).
Proof.
  destruct (push_exact keep l e) as (kept & dropped & E & P & D & L). exists kept, dropped. split; [exact E|]. split; [exact P|]. split.
  - revert D. apply Forall_impl. intros f. apply old_expired.
  - intros k f X. rewrite <- old_expired, (L k f X). discriminate.
Qed.
Theorem push_recent keep l e : newest_first l -> Forall (fun f => nt_now (en_notify f) <= nt_now (en_notify e)) l ->
  newest_first (history_push keep l e) /\ exists kept, history_push keep l e = e :: kept /\ forall f, In f kept <-> In f l /\ ~ expired keep (nt_now (en_notify e)) f.
Proof.
  intros O F. destruct (push_ordered keep l e O F) as (P & Q). split; [exact Q|]. exists (filter (fun f => negb (old keep (nt_now (en_notify e)) f)) l). split; [exact P|].
  intros f. rewrite filter_In, <- old_expired. destruct (old keep (nt_now (en_notify e)) f); cbn [negb]; intuition congruence.
Qed.
