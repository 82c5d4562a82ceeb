(* Which boost outputs a solution redeems. *)
From Coq Require Import Permutation.
From Verif Require Import Base WireModel WireSpec TextModel SecpModel SecpSpec ScriptModel ScriptSpec StackModel StackSpec MachineModel MachineSpec PatternModel.
From Verif Require Import MerkleModel SighashModel SighashSpec ExtModel RedeemModel RedeemSpec WorkModel WorkSpec BoostModel BoostSpec StraightSpec PayRunSpec BoostRunSpec BoostRedeemModel.
Local Open Scope N_scope.

(* candidates and their redemption in a world *)
Definition redeemed_by (w : world) : bcand -> secret -> solution -> list WireModel.output -> outcome sexn bytes :=
  bredeem (w_hash w) (address_of w) (w_parse w) (w_ser w) (w_sign w) (w_neg1 w).
Definition valid_in (w : world) : bcand -> secret -> outcome sexn bool := bpuzzle_valid (address_of w) (w_parse w) (w_ser w) (w_neg1 w).
Definition work_in (w : world) : bcand -> secret -> outcome sexn puzzle := bpuzzle_work (address_of w) (w_parse w) (w_ser w) (w_neg1 w).
(* Hash256 is SHA256 of SHA256 *)
Definition twice (w : world) : Prop := forall b, w_hash w b = w_sha w (w_sha w b).

(* the miner has a key that signs as the rules f ask *)
Record miner (w : world) (f : flag) (key : secret) : Prop := {
  mn_secret : is_secret (s_value key);
  mn_signs : signs w (s_value key);
  mn_fork : has_flag FLAG_FORKID f = true;
  mn_compressed : has_flag FLAG_COMPRESSED f = true -> s_compressed key = true }.
(* the numbers of a solution *)
Definition solution_wf (x : solution) : Prop :=
  u32 (sh_timestamp (so_share x)) /\ u32 (sh_nonce (so_share x)) /\ u32 (so_extra1 x) /\ match sh_bits (so_share x) with Some g => i32 g | None => True end.
(* the candidate is for the output o, whose script the library has written *)
Definition candidate_for (w : world) (c : bcand) (o : output) : Prop :=
  writable_output o /\ output_write o = Some (bn_script c) /\ output_read (w_neg1 w) (bn_script c) = Ret o.
Definition spendable (c : bcand) (outs : list WireModel.output) : Prop :=
  itx_wf (bincomplete c outs) /\ Forall (fun v => i64 (bv_value v)) (bn_prevouts c) /\ N.of_nat (length (bn_prevouts c)) <= 2 ^ 32.

(* a solution that gives an input script at all *)
Definition written_solution (o : output) (x : solution) : Prop := sh_timestamp (so_share x) <> 0 /\ (bo_bits o = false -> sh_bits (so_share x) = None).
(* and one that the output script accepts *)
Definition usable (o : output) (x : solution) : Prop :=
  sh_timestamp (so_share x) <> 0 /\
  if bo_bits o then len (sh_extra2 (so_share x)) <= 32 else len (sh_extra2 (so_share x)) = 8 /\ sh_bits (so_share x) = None.
(* the header of the work, with the miner's address *)
Definition mined_version (o : output) (x : solution) : Z :=
  if bo_bits o then Z.lor (Z.land (bo_category o) boost_mask) (Z.land (match sh_bits (so_share x) with Some g => g | None => 0%Z end) (Z.lnot boost_mask))
  else bo_category o.
Definition mined_header (w : world) (o : output) (hash : bytes) (x : solution) : bytes :=
  sle 4 (mined_version o x) ++ bo_content o ++
  w_hash w (bo_tag o ++ hash ++ be 4 (so_extra1 x) ++ sh_extra2 (so_share x) ++ le 4 (bo_nonce o) ++ bo_data o) ++
  le 4 (sh_timestamp (so_share x)) ++ le 4 (bo_target o) ++ le 4 (sh_nonce (so_share x)).
Definition meets_target (w : world) (o : output) (hash : bytes) (x : solution) : Prop := le_val (w_hash w (mined_header w o hash x)) < expand (bo_target o).
(* everything that it takes to redeem o *)
Record collects (w : world) (cf : config) (o : output) (key : secret) (x : solution) : Prop := {
  co_usable : usable o x;
  co_owner : bo_type o = Contract -> bo_hash o = address_of w (key_of w key);
  co_work : meets_target w o (address_of w (key_of w key)) x;
  co_target : computed_by cf (bo_target o);
  co_pushes : well_pushed cf [push (bo_tag o); push (bo_data o)] }.
(* input number n of t, which redeems the amount v from an output with this script *)
Definition claims (w : world) (X : externals) (cf : config) (t : tx) (n : nat) (v : Z) (script : bytes) : Prop :=
  exists i, nth_error (tx_inputs t) n = Some i /\ spends X (redeeming w (c_flags cf) (itx_of t) (N.of_nat n) v) cf (w_neg1 w) (in_script i) script.

(* a set of prevouts that differ in their outpoints *)
Definition set_insertion (ins : list bprevout -> bprevout -> list bprevout) : Prop := forall l v,
  (~ In (bv_ref v) (map bv_ref l) -> Permutation (ins l v) (v :: l)) /\
  (In (bv_ref v) (map bv_ref l) -> Permutation (map bv_ref (ins l v)) (map bv_ref l) /\ forall u, In u (ins l v) -> u = v \/ In u l).
Fixpoint sum_of_values (l : list Z) : Z := match l with [] => 0%Z | v :: r => (v + sum_of_values r)%Z end.
Definition no_overflow (l : list Z) : Prop := Forall (fun v => (0 <= v)%Z) l /\ (sum_of_values l < 2 ^ 63)%Z.

(* the candidate and the key are what a miner needs to begin *)
Record workable (w : world) (c : bcand) (key : secret) (o : output) : Prop := {
  wk_some : bn_prevouts c <> [];
  wk_refs : Forall (fun v => digest_valid (op_digest (bv_ref v)) = true) (bn_prevouts c);
  wk_read : output_read (w_neg1 w) (bn_script c) = Ret o;
  wk_type : bo_type o <> Invalid;
  wk_key : secret_valid key = true;
  wk_owner : bo_type o = Contract -> bo_hash o = miner_address (address_of w) (w_parse w) (w_ser w) key }.
(* the prevouts of c are those of the utxos, each outpoint once *)
Record gathered (c : bcand) (l : list utxo) : Prop := {
  gt_once : NoDup (map bv_ref (bn_prevouts c));
  gt_refs : forall r, In r (map bv_ref (bn_prevouts c)) <-> In r (map ut_ref l);
  gt_from : forall v, In v (bn_prevouts c) -> In v (map prevout_of l) }.
