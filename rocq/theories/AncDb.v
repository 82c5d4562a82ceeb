(* SPV proofs and the in-memory database; extended transactions; comparison of proofs. *)
From Coq Require Import Lia ZifyBool ZifyNat ZifyN Sorting.Permutation.
From Verif Require Import Base BaseProofs WireModel MerkleModel MerkleSpec WorkModel SighashModel BeefModel ExtModel ExtSpec SpvModel SpvSpec SpvProofs SpvChain SpvPaths SpvFacts
  AncModel AncSpec AncProofs AncGenerate.
Local Open Scope N_scope.

(* ---------------------------------------------------------------- the database *)
Section Db.
Variable H : bytes -> bytes.
Variable ins : branch -> list branch -> list branch.
Variable ord : list branch -> list branch.
Variable dup : option (path -> path -> path).
Variable fuel : nat.
Notation apply := (apply H ins ord dup fuel).
Notation history := (history H ins ord dup fuel).
Notation throughout := (throughout H ins ord dup fuel).

Definition txs_keyed (m : db) : Prop := forall x t, get bytes_eqb (m_txs m) x = Some t -> tx_id H t = x.
Lemma keyed_put l t : (forall x u, get bytes_eqb l x = Some u -> tx_id H u = x) -> forall x u, get bytes_eqb (put bytes_eqb l (tx_id H t) t) x = Some u -> tx_id H u = x.
Proof.
  intros K x u. rewrite get_put by (intros a b; apply bytes_eqb_eq). destruct (bytes_eqb x (tx_id H t)) eqn:E; [|apply K].
  apply bytes_eqb_eq in E. congruence.
Qed.
Lemma keyed_del l d : (forall x u, get bytes_eqb l x = Some u -> tx_id H u = x) -> forall x u, get bytes_eqb (del bytes_eqb l d) x = Some u -> tx_id H u = x.
Proof.
  intros K x u. rewrite get_del by (intros a b; apply bytes_eqb_eq). intros E. apply K. destruct (bytes_eqb d x); [discriminate|exact E].
Qed.
Lemma confirmed_txs i m l : m_txs (fold_left (confirm i) l m) = m_txs m.
Proof. revert m; induction l as [|k l IH]; intros m; [reflexivity|]. cbn [fold_left]. rewrite IH. reflexivity. Qed.
Lemma drop_txs l : forall m, m_txs (fold_left (drop_entry H) l m) = m_txs m.
Proof. induction l as [|k l IH]; intros m; [reflexivity|]. cbn [fold_left]. rewrite IH. reflexivity. Qed.
Lemma header_txs m n h : m_txs (fst (insert_header H m n h)) = m_txs m.
Proof.
  unfold insert_header. destruct (negb (header_valid H h)); [reflexivity|]. destruct (get N.eqb (m_by_height m) n) as [i|]; [|reflexivity].
  destruct (header_eqb _ _); [reflexivity|]. cbn [fst add_header m_txs reorg]. apply drop_txs.
Qed.
Lemma keyed_apply m o x : txs_keyed m -> apply m o = Done x -> txs_keyed x.
Proof.
  intros K E. unfold txs_keyed. destruct o as [n h|t|d|t p|d|n|d]; cbn [SpvModel.apply] in E.
  - assert (x = fst (insert_header H m n h)) as -> by congruence. rewrite header_txs. exact K.
  - assert (x = insert_tx H m t) as -> by congruence. unfold insert_tx. destruct (get bytes_eqb (m_txs m) (tx_id H t)); [exact K|]. apply keyed_put. exact K.
  - destruct (insert_dual H ins ord dup fuel m d) as [r| |] eqn:ID; try discriminate. apply insert_dual_inv in ID. destruct ID as [->|(i & q & _ & _ & _ & ->)].
    + assert (x = m) as -> by congruence. exact K.
    + match type of E with Done ?y = _ => assert (x = y) as -> by congruence end. unfold confirmed_all. rewrite confirmed_txs. exact K.
  - destruct (insert_tx_path H ins ord dup fuel m t p) as [r| |] eqn:ID; try discriminate. apply insert_tx_path_inv in ID. destruct ID as [->|(i & q & _ & _ & _ & ->)].
    + assert (x = m) as -> by congruence. exact K.
    + match type of E with Done ?y = _ => assert (x = y) as -> by congruence end. cbn [with_txs m_txs]. apply keyed_put. exact K.
  - assert (x = remove_tx m d) as -> by congruence. unfold remove_tx. destruct (digest_in d (m_pending m)); [|exact K]. cbn [with_txs m_txs]. apply keyed_del. exact K.
  - destruct (remove_height H m n) as [y|] eqn:R; [|discriminate]. assert (x = y) as -> by congruence. apply remove_height_inv in R.
    destruct R as (l & _ & [->|[_ ->]]); exact K.
  - destruct (remove_hash H m d) as [y|] eqn:R; [|discriminate]. assert (x = y) as -> by congruence. apply remove_hash_inv in R.
    destruct R as (l & _ & [->|[_ ->]]); exact K.
Qed.
Lemma db_keyed h0 l m : history (new_db H h0) l = Done m -> look_keyed (transaction m) H.
Proof.
  intros E. assert (K : txs_keyed m).
  { refine (preserved H ins ord dup fuel txs_keyed (fun _ _ => True) _ l _ _ _ (throughout_true H ins ord dup fuel _ l) E).
    - intros a o x A _. apply keyed_apply. exact A.
    - unfold txs_keyed, new_db. rewrite header_txs. discriminate. }
  intros x t. rewrite x_tx_transaction. apply K.
Qed.

Section Paths.
Variable U : bytes -> list (bytes * path).
Variable L : bytes -> nat.
Hypothesis H32 : forall m, length (H m) = 32%nat.
Hypothesis Ins : inserts ins.
Hypothesis Ord : forall l, Permutation (ord l) l.
Hypothesis Uni : universe H U L.
Hypothesis Fuel : (32 <= fuel)%nat.
Lemma through_weaken (P Q : db -> op -> Prop) : (forall m o, P m o -> Q m o) -> forall l m, throughout P m l -> throughout Q m l.
Proof.
  intros W. induction l as [|o l IH]; intros m T; cbn [SpvSpec.throughout] in *; [exact Logic.I|]. destruct T as [T1 T2].
  split; [apply W; exact T1|]. destruct (apply m o); auto.
Qed.
Lemma db_mined h0 l m : header_valid H h0 = true ->
  throughout (fun m o => from_universe H U o /\ no_removal o /\ no_clash H m o) (new_db H h0) l ->
  history (new_db H h0) l = Done m -> look_mined (transaction m) H (db_knows m).
Proof.
  intros V T E x t X C.
  destruct (confirmed_known H ins ord dup fuel U L H32 Ins Ord Uni Fuel h0 l m x V) as [VA AT]; [|exact E|exact C|].
  { revert T. apply through_weaken. intros y o (A & B & _). split; assumption. }
  assert (T' : throughout (fun m o => keeps_chain H m o /\ no_clash H m o) (new_db H h0) l).
  { revert T. apply through_weaken. intros y o (_ & A & B). split; [|exact B]. intros (n & h & _ & F). destruct o; contradiction. }
  destruct (header_by_complete H ins ord dup fuel h0 l m _ _ V T' E AT) as [B1 B2].
  unfold dbtx_validate in VA. rewrite X in VA. apply Bool.andb_true_iff in VA. destruct VA as [_ VA]. unfold path_valid in VA.
  apply Bool.andb_true_iff in VA. destruct VA as [HV DR]. apply bytes_eqb_eq in DR. split; [|split; [exact HV|exact DR]].
  unfold db_knows. destruct B2 as [->|(k & h' & AT' & R)]; [reflexivity|].
  destruct (header_by_complete H ins ord dup fuel h0 l m _ _ V T' E AT') as [B3 _]. rewrite <- R, B3. reflexivity.
Qed.
Theorem db_generated h0 l m keep ovf eval unset upgrade f payment p : header_valid H h0 = true ->
  throughout (fun m o => from_universe H U o /\ no_removal o /\ no_clash H m o) (new_db H h0) l ->
  history (new_db H h0) l = Done m -> limit_gt upgrade unset = false ->
  generate_proof keep (transaction m) H f payment = Done (Some p) ->
  (validate H ovf eval (db_knows m) unset upgrade p = Done true <->
   NoDup payment /\ forall t, unproved (transaction m) payment t -> spends_known (transaction m) ovf eval upgrade t).
Proof. intros V T E UN G. apply (generated_validates keep (transaction m) H ovf eval (db_knows m) upgrade (db_mined h0 l m V T E) unset f payment p UN G). Qed.
End Paths.
(* what the database knows is the root or the hash of one of its headers *)
Lemma db_knows_sound h0 l m d : header_valid H h0 = true -> throughout (keeps_chain H) (new_db H h0) l -> history (new_db H h0) l = Done m ->
  db_knows m d = true -> exists n h, header_at m n = Some (n, h) /\ header_valid H h = true /\ (header_hash H h = d \/ h_merkle_root h = d).
Proof.
  intros V T E K. unfold db_knows in K. destruct (header_by m d) as [[n h]|] eqn:B; [|discriminate].
  destruct (header_by_sound H ins ord dup fuel h0 l m d n h V T E B) as (A & B1 & C). exists n, h. auto.
Qed.
End Db.

(* ---------------------------------------------------------------- extended transactions *)
Section Extended.
Variable look : bytes -> dbtx.
Notation db_tx := (fun d => x_tx (look d)).
Lemma extend_inputs_exact l : forall acc r, extend_inputs look acc l = Done (Some r) <-> exists os, prevouts db_tx l os /\ r = rev (with_prevouts l os) ++ acc.
Proof.
  induction l as [|i l IH]; intros acc r; cbn [extend_inputs].
  - split.
    + intros E. exists []. split; [constructor|]. cbn. congruence.
    + intros (os & P & ->). inversion P; subst. reflexivity.
  - destruct (x_tx (look (op_digest (in_ref i)))) as [a|] eqn:X.
    + destruct (at_index (tx_outputs a) (op_index (in_ref i))) as [o|] eqn:A.
      * rewrite IH. split.
        -- intros (os & P & ->). exists (o :: os). split; [constructor; [exists a; split; assumption|exact P]|]. cbn [with_prevouts map2 rev]. rewrite <- app_assoc. reflexivity.
        -- intros (os & P & ->). inversion P as [|? o' ? os' (a' & X' & A') P']; subst. exists os'. split; [exact P'|]. assert (a' = a) by congruence. subst a'.
           assert (o' = o) by congruence. subst o'. cbn [with_prevouts map2 rev]. rewrite <- app_assoc. reflexivity.
      * split; [discriminate|]. intros (os & P & _). inversion P as [|? o' ? os' (a' & X' & A') P']; subst. congruence.
    + split; [discriminate|]. intros (os & P & _). inversion P as [|? o' ? os' (a' & X' & A') P']; subst. congruence.
Qed.
Theorem extend_exact t x : extend look t = Done (Some x) <-> exists os, prevouts db_tx (tx_inputs t) os /\ x = xtx_of t (rev (with_prevouts (tx_inputs t) os)).
Proof.
  unfold extend. destruct (extend_inputs look [] (tx_inputs t)) as [[l|]| |] eqn:E.
  - apply extend_inputs_exact in E. destruct E as (os & P & ->). rewrite app_nil_r. split.
    + intros E. exists os. split; [exact P|]. unfold xtx_of. congruence.
    + intros (os' & P' & ->). assert (os' = os) as ->; [|reflexivity]. clear -P P'. revert os' P'. induction P as [|i o l os (a & X & A) P IH]; intros os' P'; inversion P' as [|? o' ? os'' (a' & X' & A') P'']; subst; [reflexivity|].
      f_equal; [congruence|]. apply IH. exact P''.
  - split; [discriminate|]. intros (os & P & _). assert (Y : extend_inputs look [] (tx_inputs t) = Done (Some (rev (with_prevouts (tx_inputs t) os) ++ []))) by (apply extend_inputs_exact; eauto). congruence.
  - split; [discriminate|]. intros (os & P & _). assert (Y : extend_inputs look [] (tx_inputs t) = Done (Some (rev (with_prevouts (tx_inputs t) os) ++ []))) by (apply extend_inputs_exact; eauto). congruence.
  - split; [discriminate|]. intros (os & P & _). assert (Y : extend_inputs look [] (tx_inputs t) = Done (Some (rev (with_prevouts (tx_inputs t) os) ++ []))) by (apply extend_inputs_exact; eauto). congruence.
Qed.
(* no result: the first input without an output in the database has no transaction there; undefined: it has one *)
Lemma extend_none_inputs l : forall acc, (extend_inputs look acc l = Done None <-> exists l1 i l2 os, l = l1 ++ i :: l2 /\ prevouts db_tx l1 os /\ x_tx (look (op_digest (in_ref i))) = None) /\
  (extend_inputs look acc l = Bad <-> exists l1 i l2 os a, l = l1 ++ i :: l2 /\ prevouts db_tx l1 os /\ x_tx (look (op_digest (in_ref i))) = Some a /\ at_index (tx_outputs a) (op_index (in_ref i)) = None) /\
  extend_inputs look acc l <> More.
Proof.
  induction l as [|i l IH]; intros acc; cbn [extend_inputs].
  - split; [|split; [|discriminate]]; (split; [discriminate|]).
    + intros (l1 & i & l2 & os & E & _). destruct l1; discriminate.
    + intros (l1 & i & l2 & os & a & E & _). destruct l1; discriminate.
  - destruct (x_tx (look (op_digest (in_ref i)))) as [a|] eqn:X.
    + destruct (at_index (tx_outputs a) (op_index (in_ref i))) as [o|] eqn:A.
      * destruct (IH ({| xi_input := i; xi_prevout := o |} :: acc)) as (I1 & I2 & I3). split; [|split; [|exact I3]].
        -- rewrite I1. split.
           ++ intros (l1 & j & l2 & os & -> & P & XN). exists (i :: l1), j, l2, (o :: os). split; [reflexivity|]. split; [constructor; [exists a; split; assumption|exact P]|exact XN].
           ++ intros (l1 & j & l2 & os & E & P & XN). destruct l1 as [|i' l1].
              { cbn in E. assert (j = i) by congruence. subst j. congruence. }
              cbn in E. inversion P as [|? o' ? os' (a' & X' & A') P']; subst. exists l1, j, l2, os'. split; [congruence|]. split; [exact P'|exact XN].
        -- rewrite I2. split.
           ++ intros (l1 & j & l2 & os & b & -> & P & XN & AN). exists (i :: l1), j, l2, (o :: os), b. split; [reflexivity|]. split; [constructor; [exists a; split; assumption|exact P]|]. split; assumption.
           ++ intros (l1 & j & l2 & os & b & E & P & XN & AN). destruct l1 as [|i' l1].
              { cbn in E. assert (j = i) by congruence. subst j. congruence. }
              cbn in E. inversion P as [|? o' ? os' (a' & X' & A') P']; subst. exists l1, j, l2, os', b. split; [congruence|]. split; [exact P'|]. split; assumption.
      * split; [|split; [|discriminate]].
        -- split; [discriminate|]. intros (l1 & j & l2 & os & E & P & XN). destruct l1 as [|i' l1]; [cbn in E; assert (j = i) by congruence; subst j; congruence|].
           cbn in E. assert (i' = i) by congruence. subst i'. inversion P as [|? o' ? os' (a' & X' & A') P']; subst. congruence.
        -- split; [|reflexivity]. intros _. exists [], i, l, [], a. split; [reflexivity|]. split; [constructor|]. split; assumption.
    + split; [|split; [|discriminate]].
      * split; [|reflexivity]. intros _. exists [], i, l, []. split; [reflexivity|]. split; [constructor|exact X].
      * split; [discriminate|]. intros (l1 & j & l2 & os & b & E & P & XN & AN). destruct l1 as [|i' l1]; [cbn in E; assert (j = i) by congruence; subst j; congruence|].
        cbn in E. assert (i' = i) by congruence. subst i'. inversion P as [|? o' ? os' (a' & X' & A') P']; subst. congruence.
Qed.
Theorem extend_fails t :
  (extend look t = Done None <-> exists l1 i l2 os, tx_inputs t = l1 ++ i :: l2 /\ prevouts db_tx l1 os /\ x_tx (look (op_digest (in_ref i))) = None) /\
  (extend look t = Bad <-> exists l1 i l2 os a, tx_inputs t = l1 ++ i :: l2 /\ prevouts db_tx l1 os /\ x_tx (look (op_digest (in_ref i))) = Some a /\ at_index (tx_outputs a) (op_index (in_ref i)) = None) /\
  extend look t <> More.
Proof.
  destruct (extend_none_inputs (tx_inputs t) []) as (A & B & C). unfold extend. rewrite <- A, <- B.
  destruct (extend_inputs look [] (tx_inputs t)) as [[l|]| |]; (split; [|split]); try tauto; try discriminate; split; try discriminate; auto.
Qed.
Lemma prevouts_length (f : bytes -> option tx) l os : prevouts f l os -> length os = length l.
Proof. intros P. induction P; cbn [length]; congruence. Qed.
Lemma with_prevouts_inputs l : forall os, length os = length l -> map xi_input (with_prevouts l os) = l.
Proof. induction l as [|i l IH]; intros [|o os] E; try discriminate; [reflexivity|]. cbn. f_equal. apply IH. cbn in E. congruence. Qed.
Theorem extend_plain t x : extend look t = Done (Some x) -> xtx_plain x = {| tx_version := tx_version t; tx_inputs := rev (tx_inputs t); tx_outputs := tx_outputs t; tx_locktime := tx_locktime t |}.
Proof.
  intros E. apply extend_exact in E. destruct E as (os & P & ->). unfold xtx_plain, xtx_of. cbn [xt_version xt_inputs xt_outputs xt_locktime].
  rewrite map_rev, with_prevouts_inputs by (apply prevouts_length in P; exact P). reflexivity.
Qed.
End Extended.

Lemma extended_inputs_exact m l : forall r, extended_inputs m l = Some r <-> exists os, prevouts (tx_under m) l os /\ r = with_prevouts l os.
Proof.
  induction l as [|i l IH]; intros r; cbn [extended_inputs].
  - split; [intros E; exists []; split; [constructor|cbn; congruence]|]. intros (os & P & ->). inversion P; subst. reflexivity.
  - assert (Q : forall a o, tx_under m (op_digest (in_ref i)) = Some a -> at_index (tx_outputs a) (op_index (in_ref i)) = Some o ->
      exists n, get bytes_eqb m (op_digest (in_ref i)) = Some (Some n) /\ n_tx n = a).
    { intros a o E _. unfold tx_under in E. destruct (get bytes_eqb m (op_digest (in_ref i))) as [[n|]|]; try discriminate. exists n. split; [reflexivity|congruence]. }
    split.
    + intros E. destruct (get bytes_eqb m (op_digest (in_ref i))) as [[n|]|] eqn:G; try discriminate.
      destruct (at_index (tx_outputs (n_tx n)) (op_index (in_ref i))) as [o|] eqn:A; [|discriminate].
      destruct (extended_inputs m l) as [s|] eqn:E0; [|discriminate]. destruct (proj1 (IH s) eq_refl) as (os & P & ->).
      exists (o :: os). split; [constructor; [exists (n_tx n); split; [unfold tx_under; rewrite G; reflexivity|exact A]|exact P]|]. change (r = {| xi_input := i; xi_prevout := o |} :: with_prevouts l os). congruence.
    + intros (os & P & ->). inversion P as [|? o ? os' (a & X & A) P']; subst. destruct (Q a o X A) as (n & -> & <-). rewrite A.
      rewrite (proj2 (IH (with_prevouts l os'))) by eauto. reflexivity.
Qed.
Theorem extended_exact m t x : extended_transaction m t = Some x <-> exists os, prevouts (tx_under m) (tx_inputs t) os /\ x = xtx_of t (with_prevouts (tx_inputs t) os).
Proof.
  unfold extended_transaction. destruct (extended_inputs m (tx_inputs t)) as [l|] eqn:E.
  - apply extended_inputs_exact in E. destruct E as (os & P & ->). split; [intros E; exists os; split; [exact P|unfold xtx_of; congruence]|].
    intros (os' & P' & ->). assert (os' = os) as ->; [|reflexivity]. clear -P P'. revert os' P'. induction P as [|i o l os (a & X & A) P IH]; intros os' P'; inversion P' as [|? o' ? os'' (a' & X' & A') P'']; subst; [reflexivity|].
    f_equal; [congruence|]. apply IH. exact P''.
  - split; [discriminate|]. intros (os & P & _). assert (Y : extended_inputs m (tx_inputs t) = Some (with_prevouts (tx_inputs t) os)) by (apply extended_inputs_exact; eauto). congruence.
Qed.
Theorem extended_plain m t x : extended_transaction m t = Some x -> xtx_plain x = t.
Proof.
  intros E. apply extended_exact in E. destruct E as (os & P & ->). unfold xtx_plain, xtx_of. cbn [xt_version xt_inputs xt_outputs xt_locktime].
  rewrite with_prevouts_inputs by (apply prevouts_length in P; exact P). destruct t; reflexivity.
Qed.
Lemma satoshi_comm ovf a b : satoshi_add ovf a b = satoshi_add ovf b a.
Proof. unfold satoshi_add. rewrite Z.add_comm. reflexivity. Qed.
Lemma spent_sum ovf t l os : length os = length l -> xtx_spent ovf (xtx_of t (with_prevouts l os)) = sum_from ovf 0 os.
Proof.
  unfold xtx_spent, sum_from, xtx_of. cbn [xt_inputs]. generalize 0%Z. revert os. induction l as [|i l IH]; intros [|o os] z E; try discriminate; [reflexivity|].
  cbn [with_prevouts map2 fold_left map xi_prevout]. rewrite satoshi_comm. apply IH. cbn in E. congruence.
Qed.
Lemma sent_sum ovf t l : xtx_sent ovf (xtx_of t l) = sum_from ovf 0 (tx_outputs t).
Proof.
  unfold xtx_sent, sum_from, xtx_of. cbn [xt_outputs]. generalize 0%Z. induction (tx_outputs t) as [|o os IH]; intros z; [reflexivity|].
  cbn [fold_left map]. rewrite satoshi_comm. apply IH.
Qed.
Section ValExt.
Variable H : bytes -> bytes.
Variable ovf : Z -> Z.
Variable eval : bool -> bytes -> bytes -> itx -> N -> Z -> bool.
Variable known : bytes -> bool.
Variable unset upgrade : time_limit.
Lemma checked_extends c t m s : check_sub_proof H ovf eval known unset upgrade c t m = Done (Some s) ->
  exists x, extended_transaction m t = Some x /\ xtx_plain x = t /\ (xtx_sent ovf x <= xtx_spent ovf x)%Z.
Proof.
  unfold check_sub_proof. cbn [check_node]. intros E. apply (loop_sound H ovf eval known unset upgrade t _ (fun _ => True) (fun _ _ _ => True)) in E; [|auto|reflexivity|exact Logic.I].
  destruct E as [_ (os & L & S0 & F)].
  assert (F' : forall n i, nth_error (tx_inputs t) n = Some i -> exists a o, nth_error os n = Some o /\ tx_under m (op_digest (in_ref i)) = Some a /\ at_index (tx_outputs a) (op_index (in_ref i)) = Some o).
  { intros n i J. destruct (F n i J) as (a & chk & b & o & O1 & G & _ & A & _). rewrite get_checks in G. exists (n_tx a), o. split; [exact O1|]. split; [|exact A].
    unfold tx_under. destruct (get bytes_eqb m (op_digest (in_ref i))) as [[n'|]|]; try discriminate. congruence. }
  assert (P : prevouts (tx_under m) (tx_inputs t) os).
  { clear -F' L. revert os L F'. induction (tx_inputs t) as [|i l IH]; intros [|o os] L F; try discriminate; [constructor|]. constructor.
    - destruct (F 0%nat i eq_refl) as (a & o' & O1 & G & A). cbn in O1. assert (o' = o) by congruence. subst o'. exists a. split; assumption.
    - apply IH; [cbn in L; congruence|]. intros n j J. exact (F (Datatypes.S n) j J). }
  exists (xtx_of t (with_prevouts (tx_inputs t) os)). assert (X : extended_transaction m t = Some (xtx_of t (with_prevouts (tx_inputs t) os))) by (apply extended_exact; eauto).
  split; [exact X|]. split; [exact (extended_plain _ _ _ X)|]. rewrite sent_sum, spent_sum by exact L. rewrite tx_sent_sum in S0. exact S0.
Qed.
Theorem validated_extends p : validate H ovf eval known unset upgrade p = Done true ->
  exists xs, extended_transactions (ap_map p) (ap_payment p) = Some xs /\ map xtx_plain xs = ap_payment p /\
    forall x, In x xs -> (xtx_sent ovf x <= xtx_spent ovf x)%Z.
Proof.
  unfold validate. destruct (all_unique (ap_payment p)); [|discriminate]. generalize (@nil bytes). induction (ap_payment p) as [|t l IH]; intros c E; cbn [check_payment extended_transactions] in *.
  - exists []. split; [reflexivity|]. split; [reflexivity|intros x []].
  - destruct (check_sub_proof H ovf eval known unset upgrade c t (ap_map p)) as [[s|]| |] eqn:CS; try discriminate.
    destruct (checked_extends _ _ _ _ CS) as (x & X & PL & LE). destruct (IH s E) as (xs & XS & MP & A). rewrite X, XS. exists (x :: xs).
    split; [reflexivity|]. split; [cbn [map]; congruence|]. intros y [<-|I0]; [exact LE|exact (A y I0)].
Qed.
End ValExt.

(* ---------------------------------------------------------------- comparison *)
Lemma header_eqb_eq a b : header_eqb a b = true <-> a = b.
Proof.
  destruct a as [v p r t g n], b as [v' p' r' t' g' n']. unfold header_eqb. cbn [h_version h_previous h_merkle_root h_timestamp h_target h_nonce].
  rewrite !Bool.andb_true_iff, !bytes_eqb_eq, !N.eqb_eq, Z.eqb_eq. split; [intros [[[[[-> ->] ->] ->] ->] ->]; reflexivity|intros Q; injection Q; intros; subst; tauto].
Qed.
Theorem conf_eqb_exact a b : conf_eqb a b = true <-> c_header a = c_header b /\ c_height a = c_height b /\ p_index (c_path a) = p_index (c_path b).
Proof. unfold conf_eqb. rewrite !Bool.andb_true_iff, header_eqb_eq, !N.eqb_eq. split; [intros [[A B] C]|intros [A [B C]]]; auto. Qed.
Theorem conf_compare_always a b : conf_compare a b = Eq.
Proof. unfold conf_compare. rewrite N.compare_refl. reflexivity. Qed.
Section TreeInd.
Variable P : atree -> Prop.
Hypothesis C : forall c, P (Confirmed c).
Hypothesis A : forall m, (forall k t p, In (k, Some (mkanode t p)) m -> P p) -> P (Antecedents m).
Lemma atree_rec' p : P p.
Proof.
  assert (Q : forall a, P (n_proof a)).
  { intros a. induction a as [t c|t m IH] using anode_rec'; cbn [n_proof]; [apply C|]. apply A. intros k t' p' I0. exact (IH k _ I0). }
  exact (Q (mkanode {| tx_version := 0; tx_inputs := []; tx_outputs := []; tx_locktime := 0 |} p)).
Qed.
End TreeInd.
Theorem contains_exact d p : (contains_branch d p = Some true -> mentions d p) /\ (contains_branch d p = Some false -> ~ mentions d p) /\ (contains_branch d p = None -> has_null p).
Proof.
  induction p as [c|m IH] using atree_rec'; cbn [contains_branch].
  - split; [discriminate|]. split; [intros _ M; inversion M|discriminate].
  - induction m as [|[k o] m IHm].
    + split; [discriminate|]. split; [|discriminate]. intros _ M. inversion M as [? ? I0|? ? ? ? I0]; destruct I0.
    + destruct IHm as (A & B & C); [intros k' t p I0; apply (IH k' t p); right; exact I0|]. destruct (bytes_eqb k d) eqn:K.
      { apply bytes_eqb_eq in K. subst k. split; [|split; discriminate]. intros _. apply mentions_here with (o := o). left. reflexivity. }
      destruct o as [[t p]|]; [|split; [discriminate|split; [discriminate|]]; intros _; apply null_here with (k := k); left; reflexivity].
      destruct (IH k t p (or_introl eq_refl)) as (A1 & B1 & C1). destruct (contains_branch d p) as [[|]|].
      * split; [|split; discriminate]. intros _. apply mentions_deep with (k := k) (t := t) (p := p); [left; reflexivity|exact (A1 eq_refl)].
      * split; [|split].
        -- intros E. specialize (A E). inversion A as [? o I0|? k' t' p' I0 M]; subst; [apply mentions_here with (o := o); right; exact I0|apply mentions_deep with (k := k') (t := t') (p := p'); [right; exact I0|exact M]].
        -- intros E M. inversion M as [? o I0|? k' t' p' I0 M']; subst.
           ++ destruct I0 as [I0|I0]; [|apply (B E); apply mentions_here with (o := o); exact I0]. assert (k = d) by congruence. subst k. rewrite (proj2 (bytes_eqb_eq d d) eq_refl) in K. discriminate.
           ++ destruct I0 as [I0|I0]; [|apply (B E); apply mentions_deep with (k := k') (t := t') (p := p'); assumption]. apply (B1 eq_refl). assert (p' = p) by congruence. subst. exact M'.
        -- intros E. specialize (C E). inversion C as [? k' I0|? k' t' p' I0 M]; subst; [apply null_here with (k := k'); right; exact I0|apply null_deep with (k := k') (t := t') (p := p'); [right; exact I0|exact M]].
      * split; [discriminate|]. split; [discriminate|]. intros _. apply null_deep with (k := k) (t := t) (p := p); [left; reflexivity|exact (C1 eq_refl)].
Qed.
(* between unconfirmed transactions the order is that of ancestors *)
Theorem ordering_exact a b m m' : snd a = Antecedents m -> snd b = Antecedents m' -> fst a <> fst b -> ~ has_null (snd a) -> ~ has_null (snd b) ->
  ~ (mentions (fst a) (snd b) /\ mentions (fst b) (snd a)) ->
  (ordering a b = Some (Some Lt) <-> mentions (fst a) (snd b)) /\ (ordering a b = Some (Some Gt) <-> mentions (fst b) (snd a)) /\
  (ordering a b = Some None <-> ~ mentions (fst a) (snd b) /\ ~ mentions (fst b) (snd a)).
Proof.
  intros A B NE NA NB NC. unfold ordering. destruct (bytes_eqb (fst a) (fst b)) eqn:E; [apply bytes_eqb_eq in E; contradiction|].
  destruct (contains_exact (fst a) (snd b)) as (A1 & A2 & A3). destruct (contains_exact (fst b) (snd a)) as (B1 & B2 & B3). rewrite A, B in *.
  destruct (contains_branch (fst a) (Antecedents m')) as [[|]|]; [| |exfalso; apply NB, A3; reflexivity].
  - specialize (A1 eq_refl). split; [tauto|]. split; (split; [discriminate|tauto]).
  - specialize (A2 eq_refl). destruct (contains_branch (fst b) (Antecedents m)) as [[|]|]; [| |exfalso; apply NA, B3; reflexivity].
    + specialize (B1 eq_refl). split; [split; [discriminate|tauto]|]. split; [tauto|split; [discriminate|tauto]].
    + specialize (B2 eq_refl). split; [split; [discriminate|tauto]|]. split; [split; [discriminate|tauto]|tauto].
Qed.
