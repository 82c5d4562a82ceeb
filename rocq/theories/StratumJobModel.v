(* Stratum jobs, solved jobs and proofs, and the record of recent jobs: include/gigamonkey/stratum/job.hpp, mining_notify.hpp 25-56, 84-116,
   mining.hpp 50-97, server_session.hpp 178-211. *)
From Coq Require Import ZArith.
From Verif Require Import Base MerkleModel WorkModel StratumModel.
Local Open Scope N_scope.

(* mining.hpp 50-60, 84-88 *)
Record worker := mkworker { wk_name : bytes; wk_extra : extranonce; wk_mask : option Z }.

(* mining_notify.hpp 51-53 *)
Definition notify_of_puzzle (id : bytes) (p : puzzle) (now : N) (clean : bool) : notify :=
  let c := pz_candidate p in
  mknotify id (ca_digest c) (pz_header p) (pz_body p) (p_digests (ca_path c)) (ca_category c) (ca_target c) now clean.
(* mining_notify.hpp 58-60; proof.hpp 57-64: the mask is -1 unless it is given *)
Definition puzzle_with (n : notify) (mask : option Z) : puzzle :=
  {| pz_candidate := {| ca_category := nt_version n; ca_digest := nt_digest n; ca_target := nt_target n; ca_path := mkpath 0 (nt_path n) |};
     pz_header := nt_tx1 n; pz_body := nt_tx2 n; pz_mask := match mask with Some m => m | None => (-1)%Z end |}.
Definition puzzle_of_notify (n : notify) : puzzle := puzzle_with n None.

(* job.hpp 28-45 *)
Record sjob := mksjob { sj_worker : worker; sj_notify : notify }.
(* job.hpp 74-92; [ok] is what data::valid says of a worker, which has no function valid *)
Definition empty_job : job := {| jb_puzzle := empty_puzzle; jb_extra1 := 0 |}.
Definition sjob_valid (ok : worker -> bool) (j : sjob) : bool := ok (sj_worker j) && notify_params_valid (sj_notify j).
Definition work_job (ok : worker -> bool) (j : sjob) : job :=
  if sjob_valid ok j then {| jb_puzzle := puzzle_with (sj_notify j) (wk_mask (sj_worker j)); jb_extra1 := en_1 (wk_extra (sj_worker j)) |} else empty_job.

(* job.hpp 47-57, 98-106 *)
Record ssolved := mksolved { sv_job : sjob; sv_share : sshare }.
Definition solved_proof (ok : worker -> bool) (s : ssolved) : wproof := proof_of_job (work_job ok (sv_job s)) (ss_share (sv_share s)).
Definition solved_valid (H : bytes -> bytes) (ok : worker -> bool) (s : ssolved) : bool := wproof_valid H (solved_proof ok s).

(* mining_notify.hpp 86-115 *)
Record sproof := mksproof { sp_worker : worker; sp_notify : notify; sp_share : sshare }.
Definition work_proof (p : sproof) : wproof :=
  {| wp_puzzle := puzzle_with (sp_notify p) (wk_mask (sp_worker p));
     wp_solution := {| so_share := ss_share (sp_share p); so_extra1 := en_1 (wk_extra (sp_worker p)) |} |}.
Definition is_some {A} (o : option A) : bool := match o with Some _ => true | None => false end.
Definition sproof_valid_for (H : bytes -> bytes) (p : sproof) (target : N) : bool :=
  bytes_eqb (ss_job (sp_share p)) (nt_job (sp_notify p)) && Bool.eqb (is_some (wk_mask (sp_worker p))) (is_some (sh_bits (ss_share (sp_share p)))) &&
  (string_hash H (wproof_string H (work_proof p)) <? expand target).
Definition sproof_valid (H : bytes -> bytes) (p : sproof) : bool := sproof_valid_for H p (nt_target (sp_notify p)).

(* server_session.hpp 180-211: the newest job is in front. Times are differences of doubles, which are exact; [keep] is
   RememberForThisMuchTime, a whole number of seconds. *)
Record entry := mkentry { en_mask : option Z; en_extra : extranonce; en_notify : notify }.
Definition old (keep : Z) (now : N) (e : entry) : bool := (keep <? Z.of_N now - Z.of_N (nt_now (en_notify e)))%Z.
(* the loop pops from the back; the list is given from the back *)
Fixpoint pop_old (keep : Z) (now : N) (l : list entry) : list entry :=
  match l with e :: r => if old keep now e then pop_old keep now r else l | [] => [] end.
Definition history_push (keep : Z) (l : list entry) (e : entry) : list entry := e :: rev (pop_old keep (nt_now (en_notify e)) (rev l)).
