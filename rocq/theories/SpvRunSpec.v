(* Payments of which the keys are known, and payments that keys have authorised. *)
From Verif Require Import Base WireModel WireSpec TextModel SecpModel ScriptModel ScriptSpec StackModel MachineModel MachineSpec PatternModel SighashModel SighashSpec ExtModel PayRunSpec RedeemModel RedeemSpec.
From Verif Require Import MerkleModel WorkModel BeefModel SpvModel AncModel AncSpec SpvRunModel.
Local Open Scope N_scope.

(* the design spends outputs of transactions that are known, with the keys for them *)
Definition from_wallet (w : world) (look : bytes -> dbtx) (i : rinput) : Prop :=
  (exists x e, ready w genesis_profile i x e) /\
  let r := ii_ref (di_input (ri_input i)) in
  exists a, x_tx (look (op_digest r)) = Some a /\ at_index (tx_outputs a) (op_index r) = Some (di_prevout (ri_input i)).
Definition design_funded (ovf : Z -> Z) (d : rdesign) : Prop :=
  (fold_left (satoshi_add ovf) (map out_value (rd_outputs d)) 0 <= fold_left (satoshi_add ovf) (map (fun i => out_value (di_prevout (ri_input i))) (rd_inputs d)) 0)%Z.
(* what is spent on the way to mined transactions, other than by t itself, is spent correctly *)
Definition ancestors_ok (w : world) (X : externals) (look : bytes -> dbtx) (ovf : Z -> Z) (upgrade : time_limit) (t : tx) : Prop :=
  forall a, unproved look [t] a -> a <> t -> spends_known look ovf (script_passes w X) upgrade a.
(* whatever keys with the address a have signed is in l; then one of these signatures is for input number n of t, which spends o *)
Definition authorised (w : world) (t : tx) (n : nat) (o : output) : Prop :=
  forall a l, i64 (out_value o) -> (0 <= out_value o)%Z -> len a = 20 -> p2a_script a = Some (out_script o) -> Forall (fun p => sdoc_wf (fst p)) l -> signed_only w a l ->
  let doc := {| sd_tx := itx_of t; sd_index := N.of_nat n; sd_value := out_value o; sd_code := address_program a |} in
  collision_free w doc l -> exists doc' d, In (doc', d) l /\ fork_bit d /\ same_commitment d doc doc'.

(* an unlocking script without any signature *)
Definition no_signature : bytes := [OP_1; OP_0; OP_IF; OP_ENDIF].
(* t spends output number k of a, with this script *)
Definition takes (w : world) (t a : tx) (k : N) : Prop :=
  exists seq, tx_inputs t = [{| in_ref := {| op_digest := tx_id (w_hash w) a; op_index := k |}; in_script := no_signature; in_seq := seq |}].
(* scripts that are checked without complaint before genesis *)
Definition plain_lock (lx : bytes) : Prop :=
  exists l, decompile lx = Ret l /\ valid_program l [] pre_genesis_profile = E_OK /\ is_P2SH lx = false /\ 3 + counted (ops l) <= 500 /\ len lx < 2 ^ 30.
