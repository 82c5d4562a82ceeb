(* Validation of SPV proofs. *)
From Coq Require Import Lia ZifyBool ZifyNat ZifyN.
From Verif Require Import Base BaseProofs WireModel MerkleModel WorkModel SighashModel BeefModel ExtModel SpvModel SpvProofs AncModel AncSpec.
Local Open Scope N_scope.

(* ---------------------------------------------------------------- equality *)
Lemma list_eqb_eq {A} (eqb : A -> A -> bool) (E : forall x y, eqb x y = true <-> x = y) a b : list_eqb eqb a b = true <-> a = b.
Proof.
  revert b; induction a as [|x a IH]; intros [|y b]; cbn [list_eqb]; try (split; [discriminate|discriminate]).
  - split; reflexivity.
  - rewrite Bool.andb_true_iff, E, IH. split; [intros [-> ->]; reflexivity|intros Q; injection Q; auto].
Qed.
Lemma outpoint_eqb_eq a b : outpoint_eqb a b = true <-> a = b.
Proof.
  destruct a as [d i], b as [e j]. unfold outpoint_eqb. cbn [op_digest op_index]. rewrite Bool.andb_true_iff, bytes_eqb_eq, N.eqb_eq.
  split; [intros [-> ->]; reflexivity|intros Q; injection Q; auto].
Qed.
Lemma input_eqb_eq a b : input_eqb a b = true <-> a = b.
Proof.
  destruct a as [r s q], b as [r' s' q']. unfold input_eqb. cbn [in_ref in_script in_seq].
  rewrite !Bool.andb_true_iff, outpoint_eqb_eq, bytes_eqb_eq, N.eqb_eq.
  split; [intros [[-> ->] ->]; reflexivity|intros Q; injection Q; auto].
Qed.
Lemma output_eqb_eq a b : output_eqb a b = true <-> a = b.
Proof.
  destruct a as [v s], b as [v' s']. unfold output_eqb. cbn [out_value out_script].
  rewrite !Bool.andb_true_iff, bytes_eqb_eq, Z.eqb_eq.
  split; [intros [-> ->]; reflexivity|intros Q; injection Q; auto].
Qed.
Lemma tx_eqb_eq a b : tx_eqb a b = true <-> a = b.
Proof.
  destruct a as [v i o l], b as [v' i' o' l']. unfold tx_eqb. cbn [tx_version tx_inputs tx_outputs tx_locktime].
  rewrite !Bool.andb_true_iff, (list_eqb_eq _ input_eqb_eq), (list_eqb_eq _ output_eqb_eq), Z.eqb_eq, N.eqb_eq.
  split; [intros [[[-> ->] ->] ->]; reflexivity|intros Q; injection Q; auto].
Qed.
Lemma all_unique_iff l : all_unique l = true <-> NoDup l.
Proof.
  induction l as [|t l IH]; cbn [all_unique]; [split; [constructor|reflexivity]|].
  rewrite Bool.andb_true_iff, Bool.negb_true_iff, IH. split.
  - intros [E N0]. constructor; [|exact N0]. intros I0. assert (X : existsb (tx_eqb t) l = true) by (apply existsb_exists; exists t; split; [exact I0|apply tx_eqb_eq; reflexivity]).
    congruence.
  - intros N0. inversion N0; subst. split; [|assumption]. destruct (existsb (tx_eqb t) l) eqn:E; [|reflexivity].
    apply existsb_exists in E. destruct E as (x & I0 & Q). apply tx_eqb_eq in Q. subst x. contradiction.
Qed.

(* ---------------------------------------------------------------- trees *)
Fixpoint anode_rec' (P : anode -> Prop) (C : forall t c, P (mkanode t (Confirmed c)))
    (A : forall t m, (forall k n, In (k, Some n) m -> P n) -> P (mkanode t (Antecedents m))) (a : anode) : P a :=
  match a with
  | mkanode t p =>
    match p with
    | Confirmed c => C t c
    | Antecedents m =>
      A t m ((fix go (l : list (bytes * option anode)) : forall k n, In (k, Some n) l -> P n :=
                match l with
                | [] => fun k n I0 => match I0 with end
                | (k', o) :: r => fun k n I0 =>
                    match I0 with
                    | or_introl E =>
                      match o as o' return (k', o') = (k, Some n) -> P n with
                      | Some n' => fun E' => eq_ind n' P (anode_rec' P C A n') n (f_equal (fun x => match snd x with Some y => y | None => n end) E')
                      | None => fun E' => match (f_equal (fun x => match snd x with Some _ => True | None => False end) E') in _ = X return (X -> P n) with eq_refl => fun F => match F with end end Logic.I
                      end E
                    | or_intror I1 => go r k n I1
                    end
                end) m)
    end
  end.
Lemma get_In (m : amap) k v : get bytes_eqb m k = Some v -> In (k, v) m.
Proof.
  induction m as [|[k' v'] m IH]; cbn [get]; [discriminate|]. destruct (bytes_eqb k k') eqn:E.
  - intros Q. assert (v' = v) as -> by congruence. apply bytes_eqb_eq in E. subst k'. left. reflexivity.
  - intros Q. right. exact (IH Q).
Qed.
Lemma In_get (m : amap) k v : In (k, v) m -> exists v', get bytes_eqb m k = Some v'.
Proof.
  induction m as [|[k' v'] m IH]; [intros []|]. intros I0. cbn [get]. destruct (bytes_eqb k k') eqn:E; [eexists; reflexivity|].
  destruct I0 as [I0|I0]; [|exact (IH I0)]. assert (k' = k) by congruence. subst. rewrite (proj2 (bytes_eqb_eq k k) eq_refl) in E. discriminate.
Qed.

Section Val.
Variable H : bytes -> bytes.
Variable ovf : Z -> Z.
Variable eval : bool -> bytes -> bytes -> itx -> N -> Z -> bool.
Variable known : bytes -> bool.
Variable unset upgrade : time_limit.

Notation check_node := (check_node H ovf eval known unset upgrade).
Notation check_inputs := (check_inputs H ovf eval known unset upgrade).
Notation check_antecedent := (check_antecedent H known unset).
Notation checks m := (map (fun e : bytes * option anode => match e with
                                    | (k, o) => (k, match o with Some n => Some (n, check_node n) | None => None end)
                                    end) m).

Lemma get_checks (m : amap) d : get bytes_eqb (checks m) d =
  match get bytes_eqb m d with
  | Some (Some n) => Some (Some (n, check_node n))
  | Some None => Some None
  | None => None
  end.
Proof.
  induction m as [|[k o] m IH]; [reflexivity|]. cbn [map get]. destruct (bytes_eqb d k); [destruct o; reflexivity|exact IH].
Qed.

Definition sum_from (z : Z) (os : list output) : Z := fold_left (satoshi_add ovf) (map out_value os) z.
Lemma tx_sent_sum t : tx_sent ovf t = sum_from 0 (tx_outputs t).
Proof.
  unfold tx_sent, sum_from. generalize 0%Z. induction (tx_outputs t) as [|o l IH]; intros z; [reflexivity|]. cbn [map fold_left]. apply IH.
Qed.
Definition step_index (k : N) (n : nat) : N := (k + N.of_nat n) mod 4294967296.
Lemma step_index_S k n : step_index ((k + 1) mod 4294967296) n = step_index k (Datatypes.S n).
Proof. unfold step_index. rewrite N.add_mod_idemp_l by discriminate. f_equal. lia. Qed.

(* the loop over the inputs, from what is known about a single check *)
Lemma loop_sound t cm (Good : list bytes -> Prop) (Q : bytes -> anode -> bool -> Prop) :
  (forall d a chk c s time, get bytes_eqb cm d = Some (Some (a, chk)) -> Good c -> check_antecedent d a chk c = Done (Some (s, time)) ->
     Good s /\ Q d a (limit_gt upgrade time)) ->
  forall l k z c s, k < 4294967296 -> Good c -> check_inputs t cm l k z c = Done (Some s) ->
  Good s /\ exists os, length os = length l /\ (tx_sent ovf t <= sum_from z os)%Z /\
    forall n i, nth_error l n = Some i -> exists a chk b o, nth_error os n = Some o /\ get bytes_eqb cm (op_digest (in_ref i)) = Some (Some (a, chk)) /\
      Q (op_digest (in_ref i)) a b /\ at_index (tx_outputs (n_tx a)) (op_index (in_ref i)) = Some o /\
      eval b (in_script i) (out_script o) (itx_of t) (step_index k n) (out_value o) = true.
Proof.
  intros C. induction l as [|i l IH]; intros k z c s K G E; cbn [AncModel.check_inputs] in E.
  - destruct (tx_sent ovf t <=? z)%Z eqn:L; [|discriminate]. assert (c = s) by congruence. subst c. split; [exact G|].
    exists []. split; [reflexivity|]. split; [cbn; lia|]. intros [|n] i Q0; discriminate Q0.
  - destruct (get bytes_eqb cm (op_digest (in_ref i))) as [[[a chk]|]|] eqn:G0; try discriminate.
    destruct (check_antecedent (op_digest (in_ref i)) a chk c) as [[[c' time]|]| |] eqn:CA; try discriminate.
    destruct (C _ _ _ _ _ _ G0 G CA) as [G' Q0].
    destruct (at_index (tx_outputs (n_tx a)) (op_index (in_ref i))) as [o|] eqn:AO; [|discriminate].
    destruct (eval (limit_gt upgrade time) (in_script i) (out_script o) (itx_of t) k (out_value o)) eqn:EV; [|discriminate].
    apply IH in E; [|apply N.mod_lt; discriminate|exact G']. destruct E as [GS (os & L & S0 & F)]. split; [exact GS|].
    exists (o :: os). split; [cbn [length]; congruence|]. split; [exact S0|].
    intros [|n] j J.
    + assert (j = i) by (cbn in J; congruence). subst j. exists a, chk, (limit_gt upgrade time), o. split; [reflexivity|]. split; [exact G0|]. split; [exact Q0|].
      split; [exact AO|]. unfold step_index. rewrite N.add_0_r, N.mod_small by exact K. exact EV.
    + destruct (F n j J) as (a' & chk' & b & o' & O' & G1 & Q1 & A1 & E1). exists a', chk', b, o'. rewrite step_index_S in E1. cbn [nth_error]. auto.
Qed.
Lemma loop_complete t cm (Good : list bytes -> Prop) (Q : bytes -> anode -> bool -> Prop) :
  (forall d a chk c b, get bytes_eqb cm d = Some (Some (a, chk)) -> Good c -> Q d a b ->
     exists s time, check_antecedent d a chk c = Done (Some (s, time)) /\ Good s /\ limit_gt upgrade time = b) ->
  forall l k z c os, k < 4294967296 -> Good c -> length os = length l -> (tx_sent ovf t <= sum_from z os)%Z ->
    (forall n i, nth_error l n = Some i -> exists a chk b o, nth_error os n = Some o /\ get bytes_eqb cm (op_digest (in_ref i)) = Some (Some (a, chk)) /\
      Q (op_digest (in_ref i)) a b /\ at_index (tx_outputs (n_tx a)) (op_index (in_ref i)) = Some o /\
      eval b (in_script i) (out_script o) (itx_of t) (step_index k n) (out_value o) = true) ->
  exists s, check_inputs t cm l k z c = Done (Some s) /\ Good s.
Proof.
  intros C. induction l as [|i l IH]; intros k z c os K G L S0 F; cbn [AncModel.check_inputs].
  - destruct os; [|discriminate]. exists c. cbn in S0. replace (tx_sent ovf t <=? z)%Z with true by lia. split; [reflexivity|exact G].
  - destruct os as [|o os]; [discriminate|]. destruct (F 0%nat i eq_refl) as (a & chk & b & o' & O' & G0 & Q0 & A0 & E0).
    assert (o' = o) by (cbn in O'; congruence). subst o'. rewrite G0.
    destruct (C _ _ _ _ _ G0 G Q0) as (s & time & CA & GS & LB). rewrite CA, A0, LB.
    unfold step_index in E0. rewrite N.add_0_r, N.mod_small in E0 by exact K. rewrite E0.
    apply IH with (os := os); [apply N.mod_lt; discriminate|exact GS|cbn [length] in L; congruence|exact S0|].
    intros n j J. destruct (F (Datatypes.S n) j J) as (a' & chk' & b' & o'' & O1 & G1 & Q1 & A1 & E1). exists a', chk', b', o''. rewrite step_index_S.
    cbn [nth_error] in O1. auto.
Qed.
Lemma step_index_0 n : step_index 0 n = N.of_nat n mod 2 ^ 32.
Proof. reflexivity. Qed.

(* ---------------------------------------------------------------- exactness for coherent proofs *)
Notation stands := (stands H ovf eval known upgrade).
Notation spends := (spends H ovf eval known upgrade).
Lemma path_valid_iff t c : known (h_merkle_root (c_header c)) && path_valid H t (c_path c) (c_header c) = true <-> mined H known t c.
Proof. unfold path_valid, mined. rewrite !Bool.andb_true_iff, bytes_eqb_eq. tauto. Qed.
Lemma digest_in_iff d l : digest_in d l = true <-> In d l.
Proof.
  unfold digest_in. rewrite existsb_exists. split; [intros (x & I0 & E); apply bytes_eqb_eq in E; subst; exact I0|].
  intros I0. exists d. split; [exact I0|apply bytes_eqb_eq; reflexivity].
Qed.
Lemma set_add_In k d s : In k (set_add d s) <-> k = d \/ In k s.
Proof.
  unfold set_add. destruct (digest_in d s) eqn:E; cbn [In].
  - apply digest_in_iff in E. split; [tauto|intros [->|?]; assumption].
  - split; [intros [->|?]; tauto|intros [->|?]; tauto].
Qed.
Lemma spends_inv t m : spends t m -> exists os, length os = length (tx_inputs t) /\ funded ovf t os /\
    (forall n i, nth_error (tx_inputs t) n = Some i ->
       exists a o, nth_error os n = Some o /\ get bytes_eqb m (op_digest (in_ref i)) = Some (Some a) /\ stands a /\
                   unlocks eval upgrade t n i (n_tx a) (time_of a) o).
Proof. intros S0. inversion S0; subst. eauto. Qed.

Lemma limit_inf : limit_gt upgrade PosInf = false.
Proof. destruct upgrade; reflexivity. Qed.
Section Coherent.
Variable M : amap.
Hypothesis Coh : coherent M.
Hypothesis Unset : limit_gt upgrade unset = false.
(* what is checked stands *)
Definition settled (c : list bytes) : Prop := forall d, In d c -> exists t m, node_in M d (mkanode t (Antecedents m)) /\ stands (mkanode t (Antecedents m)).

Lemma check_node_exact a : match a with
  | mkanode t (Antecedents m) => submap M m -> forall c, settled c ->
    (forall s, check_node a c = Done (Some s) -> settled s /\ spends t m) /\ (spends t m -> exists s, check_node a c = Done (Some s) /\ settled s)
  | _ => True
  end.
Proof.
  induction a as [t c|t m IH] using anode_rec'; [exact Logic.I|]. intros SM c SC.
  set (Q := fun (d : bytes) (a : anode) (b : bool) => stands a /\ b = limit_gt upgrade (time_of a)).
  assert (In1 : forall d a chk, get bytes_eqb (checks m) d = Some (Some (a, chk)) -> get bytes_eqb m d = Some (Some a) /\ chk = check_node a /\ node_in M d a /\ In (d, Some a) m).
  { intros d a chk G. rewrite get_checks in G. destruct (get bytes_eqb m d) as [[n|]|] eqn:E; try discriminate.
    assert (n = a /\ check_node n = chk) as [-> <-] by (split; congruence). pose proof (get_In _ _ _ E) as I0.
    split; [reflexivity|]. split; [reflexivity|]. split; [exists m; split; assumption|exact I0]. }
  split.
  - intros s E. cbn [AncModel.check_node] in E.
    apply (loop_sound t _ settled Q) in E; [| |reflexivity|exact SC].
    + destruct E as [SS (os & L & S0 & F)]. split; [exact SS|]. apply spends_intro with (os := os); [exact L|unfold funded; rewrite tx_sent_sum in S0; exact S0|].
      intros n i J. destruct (F n i J) as (a & chk & b & o & O1 & G1 & [Q1 Q2] & A1 & E1). destruct (In1 _ _ _ G1) as [G2 _]. exists a, o.
      split; [exact O1|]. split; [exact G2|]. split; [exact Q1|]. split; [exact A1|]. rewrite <- step_index_0, <- Q2. exact E1.
    + clear E. intros d a chk c0 s0 time G SC0 CA. destruct (In1 _ _ _ G) as (G2 & -> & NI & I0). unfold AncModel.check_antecedent in CA.
      destruct (digest_in d c0) eqn:DI.
      * assert (s0 = c0 /\ time = unset) as [-> ->] by (split; congruence). split; [exact SC0|].
        apply digest_in_iff in DI. destruct (SC0 d DI) as (t' & m' & NI' & ST). rewrite (Coh d _ _ NI NI'). split; [exact ST|].
        rewrite Unset. unfold time_of. cbn [n_proof]. rewrite limit_inf. reflexivity.
      * destruct a as [t' p']. cbn [n_proof n_tx] in CA. destruct p' as [cf|m'].
        -- destruct (known (h_merkle_root (c_header cf)) && path_valid H t' (c_path cf) (c_header cf)) eqn:PV; [|discriminate].
           assert (s0 = c0 /\ time = At (h_timestamp (c_header cf))) as [-> ->] by (split; congruence). split; [exact SC0|]. split; [|reflexivity].
           apply stands_mined. apply path_valid_iff. exact PV.
        -- destruct (check_node (mkanode t' (Antecedents m')) c0) as [[s1|]| |] eqn:CN; try discriminate.
           assert (s0 = set_add d s1 /\ time = PosInf) as [-> ->] by (split; congruence).
           assert (SM' : submap M m') by (exact (sub_step _ _ _ _ _ SM I0)).
           destruct (IH d _ I0 SM' c0 SC0) as [IH1 _]. destruct (IH1 _ CN) as [SS1 SP].
           assert (ST : stands (mkanode t' (Antecedents m'))) by (apply stands_spends; exact SP).
           split; [|split; [exact ST|reflexivity]]. intros e I1. apply set_add_In in I1. destruct I1 as [->|I1]; [|exact (SS1 e I1)].
           exists t', m'. split; assumption.
  - intros SP. apply spends_inv in SP. destruct SP as (os & L & FU & F). cbn [AncModel.check_node].
    apply (loop_complete t _ settled Q) with (os := os); [|reflexivity|exact SC|exact L|unfold funded in FU; rewrite tx_sent_sum; exact FU|].
    + intros d a chk c0 b G SC0 [ST ->]. destruct (In1 _ _ _ G) as (G2 & -> & NI & I0). unfold AncModel.check_antecedent.
      destruct (digest_in d c0) eqn:DI.
      * exists c0, unset. split; [reflexivity|]. split; [exact SC0|]. apply digest_in_iff in DI. destruct (SC0 d DI) as (t' & m' & NI' & _).
        rewrite (Coh d _ _ NI NI'). rewrite Unset. unfold time_of. cbn [n_proof]. rewrite limit_inf. reflexivity.
      * destruct a as [t' p']. cbn [n_proof n_tx]. destruct p' as [cf|m'].
        -- inversion ST; subst. rewrite (proj2 (path_valid_iff _ _)) by assumption. eexists c0, _. split; [reflexivity|]. split; [exact SC0|reflexivity].
        -- assert (SM' : submap M m') by (exact (sub_step _ _ _ _ _ SM I0)). inversion ST; subst.
           destruct (IH d _ I0 SM' c0 SC0) as [_ IH2]. destruct IH2 as (s1 & CN & SS1); [assumption|]. rewrite CN.
           exists (set_add d s1), PosInf. split; [reflexivity|]. split; [|reflexivity]. intros e I1. apply set_add_In in I1. destruct I1 as [->|I1]; [|exact (SS1 e I1)].
           exists t', m'. split; [exact NI|exact ST].
    + intros n i J. destruct (F n i J) as (a & o & O1 & G1 & ST & A1 & E1). exists a, (check_node a), (limit_gt upgrade (time_of a)), o.
      split; [exact O1|]. split; [rewrite get_checks, G1; reflexivity|]. split; [split; [exact ST|reflexivity]|]. split; [exact A1|]. rewrite step_index_0. exact E1.
Qed.

Lemma check_payment_exact l : forall c, settled c ->
  (check_payment H ovf eval known unset upgrade M c l = Done true <-> (forall t, In t l -> spends t M)).
Proof.
  induction l as [|t l IH]; intros c SC; cbn [check_payment]; [split; [intros _ t []|reflexivity]|].
  unfold check_sub_proof. destruct (check_node_exact (mkanode t (Antecedents M)) (sub_refl M) c SC) as [A B].
  split.
  - intros E. destruct (check_node (mkanode t (Antecedents M)) c) as [[s|]| |] eqn:CN; try discriminate.
    destruct (A s eq_refl) as [SS SP]. intros t' [->|I0]; [exact SP|]. apply (proj1 (IH s SS) E). exact I0.
  - intros F. destruct (B (F t (or_introl eq_refl))) as (s & CN & SS). rewrite CN. apply (IH s SS). intros t' I0. apply F. right. exact I0.
Qed.
End Coherent.

Theorem validate_exact p : coherent (ap_map p) -> limit_gt upgrade unset = false ->
  (validate H ovf eval known unset upgrade p = Done true <-> NoDup (ap_payment p) /\ forall t, In t (ap_payment p) -> spends t (ap_map p)).
Proof.
  intros Coh Unset. unfold validate. rewrite <- all_unique_iff. destruct (all_unique (ap_payment p)); [|split; [discriminate|intros [? _]; discriminate]].
  rewrite (check_payment_exact (ap_map p) Coh Unset) by (intros d []). split; [intros F; split; [reflexivity|exact F]|intros [_ F]; exact F].
Qed.

(* ---------------------------------------------------------------- soundness *)
Notation genuine := (genuine H ovf eval known upgrade).
Section Sound.
Variable M : amap.
Hypothesis Keyed : well_keyed H M.
Hypothesis Clear : ~ confused H M.
Hypothesis Unset : limit_gt upgrade unset = false.
Definition honest (c : list bytes) : Prop := forall d, In d c -> exists k a, node_in M k a /\ tx_id H (n_tx a) = d /\ genuine (n_tx a) PosInf.
Lemma tx_unique k a l b : node_in M k a -> node_in M l b -> tx_id H (n_tx a) = tx_id H (n_tx b) -> n_tx a = n_tx b.
Proof.
  intros A B E. destruct (tx_eqb (n_tx a) (n_tx b)) eqn:T; [apply tx_eqb_eq; exact T|]. exfalso. apply Clear. exists k, a, l, b.
  split; [exact A|]. split; [exact B|]. split; [|exact E]. intros Q. apply tx_eqb_eq in Q. congruence.
Qed.
Lemma check_node_sound a : match a with
  | mkanode t (Antecedents m) => submap M m -> forall c s, honest c -> check_node a c = Done (Some s) -> honest s /\ genuine t PosInf
  | _ => True
  end.
Proof.
  induction a as [t c|t m IH] using anode_rec'; [exact Logic.I|]. intros SM c s SC E.
  set (Q := fun (d : bytes) (a : anode) (b : bool) => tx_id H (n_tx a) = d /\ exists time, genuine (n_tx a) time /\ b = limit_gt upgrade time).
  cbn [AncModel.check_node] in E. apply (loop_sound t _ honest Q) in E; [| |reflexivity|exact SC].
  - destruct E as [SS (os & L & S0 & F)]. split; [exact SS|]. apply genuine_spends with (os := os); [exact L|unfold funded; rewrite tx_sent_sum in S0; exact S0|].
    intros n i J. destruct (F n i J) as (a & chk & b & o & O1 & G1 & (Q1 & time & Q2 & Q3) & A1 & E1). exists (n_tx a), time, o.
    split; [exact O1|]. split; [exact Q1|]. split; [exact Q2|]. split; [exact A1|]. rewrite <- step_index_0, <- Q3. exact E1.
  - clear E. intros d a chk c0 s0 time G SC0 CA. rewrite get_checks in G. destruct (get bytes_eqb m d) as [[n|]|] eqn:E; try discriminate.
    assert (n = a /\ check_node n = chk) as [-> <-] by (split; congruence). apply get_In in E. rename E into I0.
    assert (NI : node_in M d a) by (exists m; split; assumption). pose proof (Keyed d a NI) as K. unfold AncModel.check_antecedent in CA.
    destruct (digest_in d c0) eqn:DI.
    + assert (s0 = c0 /\ time = unset) as [-> ->] by (split; congruence). split; [exact SC0|]. split; [exact K|].
      apply digest_in_iff in DI. destruct (SC0 d DI) as (k & b & NI' & ID & GE). exists PosInf.
      rewrite (tx_unique _ _ _ _ NI NI') by congruence. split; [exact GE|]. rewrite Unset. symmetry. apply limit_inf.
    + destruct a as [t' p']. cbn [n_proof n_tx] in CA. destruct p' as [cf|m'].
      * destruct (known (h_merkle_root (c_header cf)) && path_valid H t' (c_path cf) (c_header cf)) eqn:PV; [|discriminate].
        assert (s0 = c0 /\ time = At (h_timestamp (c_header cf))) as [-> ->] by (split; congruence). split; [exact SC0|]. split; [exact K|].
        eexists. split; [|reflexivity]. apply genuine_mined. apply path_valid_iff. exact PV.
      * destruct (check_node (mkanode t' (Antecedents m')) c0) as [[s1|]| |] eqn:CN; try discriminate.
        assert (s0 = set_add d s1 /\ time = PosInf) as [-> ->] by (split; congruence).
        assert (SM' : submap M m') by (exact (sub_step _ _ _ _ _ SM I0)). destruct (IH d _ I0 SM' c0 s1 SC0 CN) as [SS1 GE].
        split; [|split; [exact K|exists PosInf; split; [exact GE|reflexivity]]].
        intros e I1. apply set_add_In in I1. destruct I1 as [->|I1]; [|exact (SS1 e I1)]. exists d, (mkanode t' (Antecedents m')). auto.
Qed.
Lemma check_payment_sound l : forall c, honest c -> check_payment H ovf eval known unset upgrade M c l = Done true -> forall t, In t l -> genuine t PosInf.
Proof.
  induction l as [|t l IH]; intros c SC E t' I0; [destruct I0|]. cbn [check_payment] in E. unfold check_sub_proof in E.
  destruct (check_node (mkanode t (Antecedents M)) c) as [[s|]| |] eqn:CN; try discriminate.
  destruct (check_node_sound (mkanode t (Antecedents M)) (sub_refl M) c s SC CN) as [SS GE]. destruct I0 as [->|I0]; [exact GE|]. exact (IH s SS E t' I0).
Qed.
End Sound.
Theorem validate_sound p : well_keyed H (ap_map p) -> ~ confused H (ap_map p) -> limit_gt upgrade unset = false ->
  validate H ovf eval known unset upgrade p = Done true -> NoDup (ap_payment p) /\ forall t, In t (ap_payment p) -> genuine t PosInf.
Proof.
  intros K C U E. unfold validate in E. destruct (all_unique (ap_payment p)) eqn:AU; [|discriminate]. split; [apply all_unique_iff; exact AU|].
  apply (check_payment_sound (ap_map p) K C U (ap_payment p) []); [intros d []|exact E].
Qed.
End Val.
