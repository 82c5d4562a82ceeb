(* What the BEEF theorems talk about. *)
From Verif Require Import Base WireModel WireSpec MerkleModel MerkleSpec BumpModel BumpSpec ScriptModel MachineModel SighashModel BeefModel.
Local Open Scope N_scope.

(* a BEEF that can be written *)
Definition btx_wf (t : btx) : Prop := tx_wf (bt_tx t) /\ match bt_index t with Some i => u64 i | None => True end.
Definition beef_wf (b : beef) : Prop :=
  u32 (bf_version b) /\ seq_wf (fun x => bump_wf x /\ Forall sorted (bp_path x)) (bf_bumps b) /\ seq_wf btx_wf (bf_txs b).

(* which byte strings denote which objects *)
Inductive btx_form (t : btx) : bytes -> Prop :=
| bt_without c : bt_index t = None -> tx_form (bt_tx t) c -> btx_form t (c ++ [x00])
| bt_with c i f x : bt_index t = Some i -> f <> x00 -> tx_form (bt_tx t) c -> count_form i x -> btx_form t (c ++ f :: x).
Inductive node_form (n : BumpModel.node) : bytes -> Prop :=
| nf_dup c : count_form (n_offset n) c -> n_flag n = x01 -> n_digest n = None -> node_form n (c ++ [x01])
| nf_given c d : count_form (n_offset n) c -> n_flag n <> x01 -> n_digest n = Some d -> length d = 32%nat -> node_form n (c ++ n_flag n :: d).
(* the levels of a BUMP may come in any order; reading sorts them *)
Inductive bump_form (ins : forall A, (A -> N) -> A -> list A -> list A) (b : bump) : bytes -> Prop :=
| bu_form c k raw parts : count_form (bp_height b) c -> b2n k = N.of_nat (length (bp_path b)) ->
    bp_path b = map (insert_all ins) raw -> Forall2 (seq_form node_form) raw parts ->
    bump_form ins b (c ++ k :: concat parts).
Inductive beef_form (ins : forall A, (A -> N) -> A -> list A -> list A) (b : beef) : bytes -> Prop :=
| be_form v x t : le_form 4 (bf_version b) v -> seq_form (bump_form ins) (bf_bumps b) x -> seq_form btx_form (bf_txs b) t ->
    beef_form ins b (v ++ x ++ t).

(* an unproven transaction spends only what comes before it *)
Definition supported_by_earlier (H : bytes -> bytes) (l : list btx) : Prop :=
  forall before t after, l = before ++ t :: after -> bt_index t = None ->
    forall i, In i (tx_inputs (bt_tx t)) -> exists u, In u before /\ tx_id H (bt_tx u) = op_digest (in_ref i).
Definition ids (H : bytes -> bytes) (l : list btx) : list bytes := map (fun t => tx_id H (bt_tx t)) l.

(* a transaction together with a Merkle path to a known root *)
Definition proven (H : bytes -> bytes) (known : bytes -> bool) (t : tx) : Prop :=
  exists p, known (derive_root H p (tx_id H t)) = true.
(* proven, or spending only outputs of transactions of the list that are *)
Inductive anchored (H : bytes -> bytes) (known : bytes -> bool) (l : list tx) : tx -> Prop :=
| an_proven t : In t l -> proven H known t -> anchored H known l t
| an_spends t : In t l -> (forall i, In i (tx_inputs t) -> exists u, tx_id H u = op_digest (in_ref i) /\ anchored H known l u) ->
    anchored H known l t.

(* what validate leaves to the caller: every BUMP has a root, and the paths of the BUMP a transaction
   names include one for it *)
Definition placed (H : bytes -> bytes) (ins : forall A, (A -> N) -> A -> list A -> list A) (dup : option (path -> path -> path))
    (b : beef) : Prop :=
  (forall x, In x (bf_bumps b) -> tidy x /\ exists r, bump_root H ins x = Ret r /\ r <> zero_digest) /\
  (forall t i, In t (bf_txs b) -> bt_index t = Some i ->
    exists x m p, nth_error (bf_bumps b) (N.to_nat i) = Some x /\ bump_paths H ins dup x = Some m /\ In (tx_id H (bt_tx t), p) m).

(* the same transaction under another BUMP index *)
Definition reindex (f : btx -> N) (t : btx) : btx := mkbtx (bt_tx t) (option_map (fun _ => f t) (bt_index t)).
