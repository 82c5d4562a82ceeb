(* Which error a wrong signature gives. *)
From Verif Require Import Base BaseProofs ScriptModel StackModel MachineModel ErrorSpec.
From Coq Require Import Lia ZifyBool ZifyNat ZifyN.
Local Open Scope N_scope.

Fixpoint chain (l : list (serror * bool)) (d : result) : result :=
  match l with [] => d | (e, b) :: r => if b then result_of_error e else chain r d end.

Lemma chain_exact v e : e <> E_OK -> forall l m, Forall2 (fun x y => fst x = fst y /\ fst x <> E_OK /\ (snd x = true <-> snd y)) l m ->
  (chain l (result_of_bool v) = result_of_error e <-> first_fault m e) /\
  (chain l (result_of_bool v) = result_of_bool v <-> Forall (fun y => ~ snd y) m).
Proof.
  intros NE l m F. induction F as [|[e1 b] [e2 P] l m (E & N1 & Q) F (IH1 & IH2)]; cbn [chain fst snd] in *.
  - split; split.
    + intros H. apply (f_equal r_error) in H. cbn in H. congruence.
    + intros (a & P & b & A & _). destruct a; discriminate A.
    + constructor.
    + reflexivity.
  - subst e2. destruct b.
    + assert (HP : P) by (apply Q; reflexivity). split; split.
      * intros H. apply (f_equal r_error) in H. cbn [result_of_error r_error] in H. subst e1. exists [], P, m. split; [reflexivity|]. split; [exact HP|constructor].
      * intros (a & P' & b & A & HP' & NA). destruct a as [|y a]; cbn [app] in A.
        { assert (e1 = e) by congruence. subst. reflexivity. }
        { assert (y = (e1, P)) by congruence. subst y. apply Forall_inv in NA. destruct (NA HP). }
      * intros H. apply (f_equal r_error) in H. cbn [result_of_error result_of_bool r_error] in H. congruence.
      * intros NA. apply Forall_inv in NA. destruct (NA HP).
    + assert (NP : ~ P) by (intros HP; apply Q in HP; discriminate HP). split.
      * rewrite IH1. split.
        { intros (a & P' & b & A & HP' & NA). exists ((e1, P) :: a), P', b. split; [rewrite A; reflexivity|]. split; [exact HP'|]. constructor; [exact NP|exact NA]. }
        { intros (a & P' & b & A & HP' & NA). destruct a as [|y a]; cbn [app] in A.
          - assert (P' = P) by congruence. subst. destruct (NP HP').
          - exists a, P', b. split; [congruence|]. split; [exact HP'|]. exact (Forall_inv_tail NA). }
      * rewrite IH2. split; [intros X; constructor; [exact NP|exact X]|intros X; exact (Forall_inv_tail X)].
Qed.

Definition sig_tests (K : sig_checks) (f : flag) (code : program) (sig pub : bytes) : list (serror * bool) :=
  [(E_NONCOMPRESSED_PUBKEY, has_flag FLAG_COMPRESSED f && negb (k_compressed K pub));
   (E_PUBKEYTYPE, has_flag FLAG_STRICTENC f && negb (k_valid K pub));
   (E_SIG_HASHTYPE, negb (directive_valid (sig_directive sig)));
   (E_ILLEGAL_FORKID, negb (has_flag FLAG_FORKID f) && has_fork_id (sig_directive sig));
   (E_MUST_USE_FORKID, has_flag FLAG_REQUIRE_FORKID f && negb (has_fork_id (sig_directive sig)));
   (E_SIG_DER, (has_flag FLAG_DERSIG f || has_flag FLAG_LOW_S f || has_flag FLAG_STRICTENC f) && negb (k_der K sig));
   (E_SIG_HIGH_S, has_flag FLAG_LOW_S f && negb (k_normalized K (sig_raw sig)));
   (E_SIG_NULLFAIL, negb (k_verify K code sig pub) && (has_flag FLAG_NULLFAIL f && negb (len sig =? 0)))].

Lemma sig_chain K f code sig pub : verify_signature K f code sig pub = chain (sig_tests K f code sig pub) (result_of_bool (k_verify K code sig pub)).
Proof. unfold verify_signature, sig_tests. cbn [chain]. destruct (k_verify K code sig pub); reflexivity. Qed.

Lemma sig_agree K f code sig pub :
  Forall2 (fun x y => fst x = fst y /\ fst x <> E_OK /\ (snd x = true <-> snd y)) (sig_tests K f code sig pub) (sig_faults K f code sig pub).
Proof.
  unfold sig_tests, sig_faults, directive_valid, has_fork_id, sig_directive, sig_raw. cbv zeta.
  repeat (apply Forall2_cons || apply Forall2_nil); cbn [fst snd]; (split; [reflexivity|]); (split; [discriminate|]).
  - rewrite andb_true_iff, negb_true_iff. reflexivity.
  - rewrite andb_true_iff, negb_true_iff. reflexivity.
  - rewrite negb_true_iff, N.eqb_neq. reflexivity.
  - rewrite andb_true_iff, negb_true_iff. reflexivity.
  - rewrite andb_true_iff, negb_true_iff, not_true_iff_false. reflexivity.
  - rewrite andb_true_iff, !orb_true_iff, negb_true_iff. tauto.
  - rewrite andb_true_iff, negb_true_iff. reflexivity.
  - rewrite !andb_true_iff, !negb_true_iff, N.eqb_neq. unfold len. destruct sig; cbn [length]; intuition (try congruence; try lia).
Qed.

Theorem sig_error_exact K f code sig pub e : e <> E_OK ->
  (verify_signature K f code sig pub = result_of_error e <-> first_fault (sig_faults K f code sig pub) e).
Proof. intros NE. rewrite sig_chain. exact (proj1 (chain_exact _ e NE _ _ (sig_agree K f code sig pub))). Qed.

Theorem sig_result_exact K f code sig pub v :
  verify_signature K f code sig pub = result_of_bool v <->
  k_verify K code sig pub = v /\ Forall (fun x => ~ snd x) (sig_faults K f code sig pub).
Proof.
  assert (NE : E_SIG_DER <> E_OK) by discriminate.
  pose proof (chain_exact (k_verify K code sig pub) E_SIG_DER NE _ _ (sig_agree K f code sig pub)) as (_ & C). rewrite <- sig_chain in C. split.
  - intros H. enough (V : k_verify K code sig pub = v) by (split; [exact V|]; apply C; rewrite V; exact H).
    destruct (Forall_Exists_dec (fun x : serror * bool => snd x = false) (fun x => Bool.bool_dec (snd x) false) (sig_tests K f code sig pub)) as [A|A].
    + assert (chain (sig_tests K f code sig pub) (result_of_bool (k_verify K code sig pub)) = result_of_bool (k_verify K code sig pub)) as R.
      { generalize (result_of_bool (k_verify K code sig pub)). induction A as [|[x b] l B A IH]; intros d; [reflexivity|]. cbn [snd] in B. subst b. cbn [chain]. apply IH. }
      rewrite sig_chain, R in H. apply (f_equal r_success) in H. exact H.
    + exfalso. rewrite sig_chain in H. pose proof (sig_agree K f code sig pub) as G. clear C. revert G H.
      generalize (sig_faults K f code sig pub). generalize (result_of_bool (k_verify K code sig pub)).
      induction A as [[x b] l B|[x b] l A IH]; intros d m G H; inversion G as [|x1 y1 l1 m1 (_ & NO & _) G1]; subst; cbn [snd fst chain] in *.
      * destruct b; [|congruence]. apply (f_equal r_error) in H. cbn [result_of_error result_of_bool r_error] in H. congruence.
      * destruct b; [apply (f_equal r_error) in H; cbn [result_of_error result_of_bool r_error] in H; congruence|]. exact (IH d _ G1 H).
  - intros (<- & F). apply C, F.
Qed.
