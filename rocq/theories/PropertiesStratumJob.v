(* C111, C112: Stratum shares as solutions of jobs, and the record of recent jobs. *)
From Coq Require Import ZArith String.
From Verif Require Import Base TextModel WireModel MerkleModel MerkleExamples WorkModel WorkExamples StratumModel StratumJobModel StratumJobSpec StratumJobProofs StratumJobExamples.
Local Open Scope N_scope.

(* A proof is valid exactly when the share names the job, bits are given just when a mask is set, and the header built of
   the job, the worker and the share is hashed below the target. *)
Theorem C111_proof : forall H p, sproof_valid H p = true <->
  ss_job (sp_share p) = nt_job (sp_notify p) /\ (wk_mask (sp_worker p) = None <-> sh_bits (ss_share (sp_share p)) = None) /\ solves H (sp_notify p) (sp_worker p) (ss_share (sp_share p)) (nt_target (sp_notify p)).
Proof. exact proof_exact. Qed.
Print Assumptions C111_proof.
Theorem C111_proof_for : forall H p target, sproof_valid_for H p target = true <->
  ss_job (sp_share p) = nt_job (sp_notify p) /\ (wk_mask (sp_worker p) = None <-> sh_bits (ss_share (sp_share p)) = None) /\ solves H (sp_notify p) (sp_worker p) (ss_share (sp_share p)) target.
Proof. exact proof_for_exact. Qed.
Print Assumptions C111_proof_for.
Example C111_proof_example : sproof_valid ex_hash32 ex_proof = true /\ sproof_valid ex_hash32 ex_rolled = true /\
  version_used ex_job_notify (Some ex_mask) (ss_share (sp_share ex_rolled)) = 0x20000003%Z /\ len (header_of ex_hash32 ex_job_notify (mkextra 7 2) (ss_share (sp_share ex_rolled)) 0x20000003%Z) = 80.
Proof. exact proof_example. Qed.

(* A solved job is valid exactly when the job is and the header is hashed below its target; the share need not name the job. *)
Theorem C111_solved : forall H ok s, solved_valid H ok s = true <->
  ok (sj_worker (sv_job s)) = true /\ notify_params_valid (sj_notify (sv_job s)) = true /\
  solves H (sj_notify (sv_job s)) (sj_worker (sv_job s)) (ss_share (sv_share s)) (nt_target (sj_notify (sv_job s))).
Proof. exact solved_exact. Qed.
Print Assumptions C111_solved.
Example C111_solved_example : solved_valid ex_hash32 (fun _ => true) (mksolved (mksjob (sp_worker ex_rolled) ex_job_notify) (sp_share ex_rolled)) = true /\
  solved_valid ex_hash32 (fun _ => true) (mksolved (mksjob (sp_worker ex_rolled) notify_none) (sp_share ex_rolled)) = false.
Proof. exact solved_example. Qed.
Theorem C111_job_refuted : exists H ok s, solved_valid H ok s = true /\ ss_job (sv_share s) <> nt_job (sj_notify (sv_job s)) /\ (wk_mask (sj_worker (sv_job s)) = None /\ sh_bits (ss_share (sv_share s)) <> None).
Proof. exact job_refuted. Qed.
Print Assumptions C111_job_refuted.
(* Nor is it checked that the second extra nonce has the size agreed on, or that the share is the worker's. *)
Theorem C111_size_refuted : exists H p, sproof_valid H p = true /\ len (sh_extra2 (ss_share (sp_share p))) <> en_2_size (wk_extra (sp_worker p)) /\ ss_name (sp_share p) <> wk_name (sp_worker p).
Proof. exact size_refuted. Qed.
Print Assumptions C111_size_refuted.

(* The version mask is that of BIP 310 inverted: the version used is the one a miner means only if the bits are the version. *)
Theorem C111_mask_refuted : forall version bits mask, rolled version bits (Z.lnot mask) = rolled version bits mask <-> version = bits.
Proof. exact version_right. Qed.
Print Assumptions C111_mask_refuted.
Example C111_mask_example : rolled 0x20000000 0x00abc000 0x1fffe000 = 0x20abc000%Z /\ rolled 0x20000000 0x00abc000 (Z.lnot 0x1fffe000) = 0%Z.
Proof. split; reflexivity. Qed.
(* Bits that the mask keeps are not looked at, so that a share can be sent many times over. *)
Theorem C111_same_work : forall H w n a b,
  (forall x y, sh_bits a = Some x -> sh_bits b = Some y -> forall m, wk_mask w = Some m -> Z.land x (Z.lnot m) = Z.land y (Z.lnot m)) ->
  (sh_bits a = None <-> sh_bits b = None) -> sh_timestamp a = sh_timestamp b -> sh_nonce a = sh_nonce b -> sh_extra2 a = sh_extra2 b ->
  header_of H n (wk_extra w) a (version_used n (wk_mask w) a) = header_of H n (wk_extra w) b (version_used n (wk_mask w) b).
Proof. exact same_work. Qed.
Print Assumptions C111_same_work.
Theorem C111_replay_refuted : exists H p q, sproof_valid H p = true /\ sproof_valid H q = true /\ sp_worker p = sp_worker q /\ sp_notify p = sp_notify q /\ sp_share p <> sp_share q /\
  wproof_string H (work_proof p) = wproof_string H (work_proof q).
Proof. exact replay_refuted. Qed.
Print Assumptions C111_replay_refuted.

(* Puzzles and notifications: a notification carries a puzzle exactly when the generation transaction is first and no mask is set. *)
Theorem C111_puzzle : forall id p now clean, puzzle_of_notify (notify_of_puzzle id p now clean) = p <-> p_index (ca_path (pz_candidate p)) = 0 /\ pz_mask p = (-1)%Z.
Proof. exact puzzle_back. Qed.
Print Assumptions C111_puzzle.
Theorem C111_notify : forall n, notify_of_puzzle (nt_job n) (puzzle_of_notify n) (nt_now n) (nt_clean n) = n.
Proof. exact notify_back. Qed.
Print Assumptions C111_notify.

(* The record of jobs: the new job comes first; jobs are forgotten from the oldest on until one is recent. *)
Theorem C112_push : forall keep l e, exists kept dropped, l = kept ++ dropped /\ history_push keep l e = e :: kept /\
  Forall (fun f => old keep (nt_now (en_notify e)) f = true) dropped /\ (forall k f, kept = k ++ [f] -> old keep (nt_now (en_notify e)) f = false).
Proof. exact push_exact. Qed.
Print Assumptions C112_push.
Theorem C112_expired : forall keep l e, exists kept dropped, l = kept ++ dropped /\ history_push keep l e = e :: kept /\
  Forall (expired keep (nt_now (en_notify e))) dropped /\ (forall k f, kept = k ++ [f] -> ~ expired keep (nt_now (en_notify e)) f).
Proof. exact push_expired. Qed.
Print Assumptions C112_expired.
Theorem C112_recent : forall keep l e, newest_first l -> Forall (fun f => nt_now (en_notify f) <= nt_now (en_notify e)) l ->
  newest_first (history_push keep l e) /\ exists kept, history_push keep l e = e :: kept /\ forall f, In f kept <-> In f l /\ ~ expired keep (nt_now (en_notify e)) f.
Proof. exact push_recent. Qed.
Print Assumptions C112_recent.
(* If jobs come in the order of their times, those kept are exactly the recent ones, and the order is kept. *)
Theorem C112_ordered : forall keep l e, newest_first l -> Forall (fun f => nt_now (en_notify f) <= nt_now (en_notify e)) l ->
  history_push keep l e = e :: filter (fun f => negb (old keep (nt_now (en_notify e)) f)) l /\ newest_first (history_push keep l e).
Proof. exact push_ordered. Qed.
Print Assumptions C112_ordered.
Example C112_push_example : history_push 100 [ex_entry 250; ex_entry 200; ex_entry 120; ex_entry 100] (ex_entry 300) = [ex_entry 300; ex_entry 250; ex_entry 200].
Proof. exact push_example. Qed.
(* Otherwise old jobs may stay. *)
Theorem C112_late_refuted : exists keep l e, exists f, In f (history_push keep l e) /\ old keep (nt_now (en_notify e)) f = true.
Proof. exact late_refuted. Qed.
Print Assumptions C112_late_refuted.
