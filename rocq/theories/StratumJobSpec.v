(* What it means that a share solves a job. *)
From Coq Require Import ZArith.
From Verif Require Import Base WireModel MerkleModel WorkModel StratumModel StratumJobModel.
Local Open Scope N_scope.

(* the generation transaction *)
Definition coinbase_of (n : notify) (x : extranonce) (s : share) : bytes := nt_tx1 n ++ be 4 (en_1 x) ++ sh_extra2 s ++ nt_tx2 n.
(* the root of the block, in which the generation transaction is first *)
Definition block_root (H : bytes -> bytes) (n : notify) (x : extranonce) (s : share) : bytes := l_digest (climb H (mkleaf (H (coinbase_of n x s)) 0) (nt_path n)).
(* the header, with a version *)
Definition header_of (H : bytes -> bytes) (n : notify) (x : extranonce) (s : share) (version : Z) : bytes :=
  sle 4 version ++ nt_digest n ++ block_root H n x s ++ le 4 (sh_timestamp s) ++ le 4 (nt_target n) ++ le 4 (sh_nonce s).
Definition bits_of (s : share) : Z := match sh_bits s with Some b => b | None => 0%Z end.
(* BIP 310: a miner may choose the bits that are set in the mask *)
Definition rolled (version bits mask : Z) : Z := Z.lor (Z.land version (Z.lnot mask)) (Z.land bits mask).
(* the version that is used *)
Definition version_used (n : notify) (mask : option Z) (s : share) : Z :=
  match mask with None => nt_version n | Some m => rolled (nt_version n) (bits_of s) (Z.lnot m) end.
Definition solves (H : bytes -> bytes) (n : notify) (w : worker) (s : share) (target : N) : Prop :=
  le_val (H (header_of H n (wk_extra w) s (version_used n (wk_mask w) s))) < expand target.
(* jobs in the order of their times, the newest first *)
Fixpoint newest_first (l : list entry) : Prop :=
  match l with
  | [] => True
  | e :: r => Forall (fun f => nt_now (en_notify f) <= nt_now (en_notify e)) r /\ newest_first r
  end.
(* a job from more than [keep] seconds before *)
Definition expired (keep : Z) (now : N) (e : entry) : Prop := (Z.of_N (nt_now (en_notify e)) + keep < Z.of_N now)%Z.
