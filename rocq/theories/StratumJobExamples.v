From Coq Require Import ZArith String.
From Verif Require Import Base TextModel WireModel MerkleModel MerkleExamples WorkModel WorkExamples StratumModel StratumJobModel StratumJobSpec.
Local Open Scope N_scope.

Definition ex_job_notify : notify := mknotify (text "job") (ex_digest 9) [x01; x02] [x03; x04; x05] [Some (ex_digest 4)] 0x20000002 success_sixteenth 1000 false.
Definition ex_worker (mask : option Z) : worker := mkworker (text "worker") (mkextra 7 2) mask.
Definition ex_share (id : bytes) (nonce : N) (extra : bytes) (bits : option Z) : sshare :=
  mksshare (text "worker") id {| sh_timestamp := 1001; sh_nonce := nonce; sh_extra2 := extra; sh_bits := bits |}.
Definition ex_entry (now : N) : entry := mkentry None (mkextra 7 2) (mknotify (text "job") (ex_digest 9) [] [] [] 2 success_sixteenth now false).
Definition ex_mask : Z := 0xffff0000%Z.
Definition ex_proof : sproof := mksproof (ex_worker None) ex_job_notify (ex_share (text "job") 9 [x06; x07] None).
Definition ex_rolled : sproof := mksproof (ex_worker (Some ex_mask)) ex_job_notify (ex_share (text "job") 13 [x06; x07] (Some 3%Z)).

Lemma proof_example : sproof_valid ex_hash32 ex_proof = true /\ sproof_valid ex_hash32 ex_rolled = true /\
  version_used ex_job_notify (Some ex_mask) (ss_share (sp_share ex_rolled)) = 0x20000003%Z /\ len (header_of ex_hash32 ex_job_notify (mkextra 7 2) (ss_share (sp_share ex_rolled)) 0x20000003%Z) = 80.
Proof. repeat split; vm_compute; reflexivity. Qed.
Lemma solved_example : solved_valid ex_hash32 (fun _ => true) (mksolved (mksjob (sp_worker ex_rolled) ex_job_notify) (sp_share ex_rolled)) = true /\
  solved_valid ex_hash32 (fun _ => true) (mksolved (mksjob (sp_worker ex_rolled) notify_none) (sp_share ex_rolled)) = false.
Proof. repeat split; vm_compute; reflexivity. Qed.
Lemma job_refuted : exists H ok s, solved_valid H ok s = true /\ ss_job (sv_share s) <> nt_job (sj_notify (sv_job s)) /\ (wk_mask (sj_worker (sv_job s)) = None /\ sh_bits (ss_share (sv_share s)) <> None).
Proof.
  exists ex_hash32, (fun _ => true), (mksolved (mksjob (ex_worker None) ex_job_notify) (ex_share (text "other") 9 [x06; x07] (Some 3%Z))).
  repeat split; vm_compute; try reflexivity; discriminate.
Qed.
Lemma size_refuted : exists H p, sproof_valid H p = true /\ len (sh_extra2 (ss_share (sp_share p))) <> en_2_size (wk_extra (sp_worker p)) /\ ss_name (sp_share p) <> wk_name (sp_worker p).
Proof.
  exists ex_hash32, (mksproof (mkworker (text "other") (mkextra 7 2) None) ex_job_notify (ex_share (text "job") 2 [x06; x07; x08] None)).
  repeat split; vm_compute; try reflexivity; discriminate.
Qed.
Lemma replay_refuted : exists H p q, sproof_valid H p = true /\ sproof_valid H q = true /\ sp_worker p = sp_worker q /\ sp_notify p = sp_notify q /\ sp_share p <> sp_share q /\
  wproof_string H (work_proof p) = wproof_string H (work_proof q).
Proof.
  exists ex_hash32, ex_rolled, (mksproof (ex_worker (Some ex_mask)) ex_job_notify (ex_share (text "job") 13 [x06; x07] (Some 0x10003%Z))).
  repeat split; vm_compute; try reflexivity; discriminate.
Qed.
Lemma push_example :
  history_push 100 [ex_entry 250; ex_entry 200; ex_entry 120; ex_entry 100] (ex_entry 300) = [ex_entry 300; ex_entry 250; ex_entry 200].
Proof. reflexivity. Qed.
Lemma late_refuted : exists keep l e, exists f, In f (history_push keep l e) /\ old keep (nt_now (en_notify e)) f = true.
Proof. exists 100%Z, [ex_entry 100; ex_entry 250], (ex_entry 300), (ex_entry 100). split; [right; left; reflexivity|reflexivity]. Qed.
