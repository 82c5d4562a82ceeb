(* Proofs about ARC's policy. *)
From Coq Require Import String Lia ZifyBool ZifyNat ZifyN.
From Verif Require Import Base BaseProofs WireModel MerkleModel TextModel TextSpec JsonModel ScriptModel MachineModel SighashModel ExtModel ExtSpec FeeProofs TscModel ArcModel ArcSpec ArcProofs.
Local Open Scope list_scope.
Local Open Scope N_scope.

(* the rate as a double, compared with integers *)
Lemma rate_close s b : s < 2 ^ 53 -> 0 < b <= 2 ^ 53 ->
  exists x u, double_div (double s 1) (double b 1) = (x, u) /\ 0 < u /\
    (forall k, s <= k * b -> x <= k * u) /\ (forall k, k * b < s -> k * u < x) /\ (forall k, k * b <= s -> k * u <= x) /\ (forall k, s < k * b -> x < k * u).
Proof.
  intros S B. destruct (N.eq_dec s 0) as [->|Z].
  - exists 0, 1. split; [reflexivity|]. split; [lia|]. split; [intros; lia|]. split; [intros; lia|]. split; intros k K.
    + assert (k = 0) by nia. subst. lia.
    + assert (k <> 0) by (intros ->; lia). lia.
  - destruct (double_small s) as (ca & Ca & ->); [lia|]. destruct (double_small b) as (cb & Cb & ->); [lia|]. unfold double_div. cbn [fst snd].
    destruct (double_close (s * ca * cb) (ca * (b * cb)) s b) as (x & u & E & U & L); [nia|lia|lia|lia|]. exists x, u. split; [exact E|]. split; [exact U|exact L].
Qed.
Lemma amount_double z : Z.abs_N z <= 2 ^ 53 -> exists c, 0 < c /\ sdouble z (double (Z.abs_N z) 1) = (z * Z.of_N c, c)%Z.
Proof.
  intros H. destruct (Z.eq_dec z 0) as [->|N].
  - exists 1. split; [lia|reflexivity].
  - destruct (double_small (Z.abs_N z)) as (c & C & ->); [lia|]. exists c. split; [exact C|]. unfold sdouble. cbn [fst snd]. f_equal. destruct (z <? 0)%Z eqn:S; lia.
Qed.
Lemma below_exact cut fee s b : s < 2 ^ 53 -> 0 < b <= 2 ^ 53 -> Z.abs_N fee <= 2 ^ 53 ->
  fee_below cut fee {| rt_satoshis := Z.of_N s; rt_bytes := b |} = Ret (if cut then (fee <? Z.of_N (s / b))%Z else (fee * Z.of_N b <? Z.of_N s)%Z).
Proof.
  intros S B F. unfold fee_below, rate_double. cbn [rt_satoshis rt_bytes]. replace (b =? 0) with false by lia. replace (Z.abs_N (Z.of_N s)) with s by lia.
  destruct (rate_close s b S B) as (x & u & E & U & L1 & L2 & L3 & L4). rewrite E.
  assert (SD : sdouble (Z.of_N s) (x, u) = (Z.of_N x, u)) by (unfold sdouble; replace (Z.of_N s <? 0)%Z with false by lia; reflexivity). rewrite SD. cbn [fst snd].
  destruct cut.
  - assert (Q : Z.quot (Z.of_N x) (Z.of_N u) = Z.of_N (s / b)).
    { rewrite <- N2Z.inj_quot. f_equal. symmetry. pose proof (N.div_mod s b ltac:(lia)) as D. pose proof (N.mod_lt s b ltac:(lia)) as R.
      assert (A1 : s / b * u <= x) by (apply L3; nia). assert (A2 : x < (s / b + 1) * u) by (apply L4; nia).
      apply (N.div_unique x u (s / b) (x - u * (s / b))); nia. }
    rewrite Q. assert (Fi : fits64 (Z.of_N (s / b)) = true).
    { assert (s / b <= s) by (apply N.div_le_upper_bound; nia). change (2 ^ 53) with 9007199254740992 in S. unfold fits64. lia. }
    rewrite Fi. reflexivity.
  - destruct (amount_double fee F) as (c & C & ->). cbn [fst snd]. f_equal.
    assert (G : (fee * Z.of_N c * Z.of_N u < Z.of_N x * Z.of_N c <-> fee * Z.of_N b < Z.of_N s)%Z).
    { destruct (Z.lt_ge_cases fee 0) as [N|N].
      - split; intros _; [nia|]. assert (fee * Z.of_N c * Z.of_N u < 0)%Z by nia. assert (0 <= Z.of_N x * Z.of_N c)%Z by nia. lia.
      - set (k := Z.to_N fee). assert (K : fee = Z.of_N k) by (unfold k; lia). rewrite K. clearbody k. split; intros H.
        + assert (Y : k * u < x) by nia. assert (~ s <= k * b) by (intros W; apply L1 in W; lia). lia.
        + assert (Y : k * u < x) by (apply L2; lia). nia. }
    apply Bool.eq_true_iff_eq. rewrite !Z.ltb_lt. exact G.
Qed.

Section Policy.
Variable float_u : N -> option N.
Variable float_i : N -> option Z.

Lemma plain_read p ss so ts sat by' : policy_plain p ss so ts sat by' -> sat < 2 ^ 63 ->
  policy_script_size float_u p = Ret ss /\ policy_sigops float_u p = Ret so /\ policy_tx_size float_u p = Ret ts /\
  policy_fee float_u float_i p = Ret {| rt_satoshis := Z.of_N sat; rt_bytes := by' |}.
Proof.
  intros (A & B & C & m & D & E & F) L. unfold policy_script_size, policy_sigops, policy_tx_size, policy_fee.
  change k_script_size with (text "maxscriptsizepolicy"). change k_sigops with (text "maxtxsigopscountspolicy"). change k_tx_size with (text "maxtxsizepolicy"). change k_mining_fee with (text "miningFee").
  change k_satoshis with (text "satoshis"). change k_bytes with (text "bytes").
  apply at_holds in A. apply at_holds in B. apply at_holds in C. apply at_holds in D. apply at_holds in E. apply at_holds in F. rewrite A, B, C, D. cbn [and_then as_u64]. rewrite E. cbn [and_then as_i64]. rewrite F. cbn [and_then as_u64].
  change (2 ^ 63) with 9223372036854775808 in L. unfold as_int64. replace (sat <? 9223372036854775808) with true by lia. split; [reflexivity|]. split; [reflexivity|]. split; reflexivity.
Qed.
Lemma scripts_exact ss t : existsb (fun i => ss <? len (in_script (xi_input i))) (xt_inputs t) = false /\ existsb (fun o => ss <? len (out_script o)) (xt_outputs t) = false <-> scripts_within ss t.
Proof.
  unfold scripts_within. split.
  - intros (A & B). split.
    + intros i I. destruct (N.le_gt_cases (len (in_script (xi_input i))) ss) as [|G]; [assumption|]. assert (X : existsb (fun i => ss <? len (in_script (xi_input i))) (xt_inputs t) = true) by (apply existsb_exists; exists i; split; [exact I|lia]). congruence.
    + intros o I. destruct (N.le_gt_cases (len (out_script o)) ss) as [|G]; [assumption|]. assert (X : existsb (fun o => ss <? len (out_script o)) (xt_outputs t) = true) by (apply existsb_exists; exists o; split; [exact I|lia]). congruence.
  - intros (A & B). split.
    + destruct (existsb (fun i => ss <? len (in_script (xi_input i))) (xt_inputs t)) eqn:X; [|reflexivity]. apply existsb_exists in X. destruct X as (i & I & X). specialize (A i I). lia.
    + destruct (existsb (fun o => ss <? len (out_script o)) (xt_outputs t)) eqn:X; [|reflexivity]. apply existsb_exists in X. destruct X as (i & I & X). specialize (B i I). lia.
Qed.
Lemma satisfies_exact cut ovf p t ss so ts sat by' : policy_plain p ss so ts sat by' -> sat < 2 ^ 53 -> 0 < by' <= 2 ^ 53 -> Z.abs_N (xtx_fee ovf t) <= 2 ^ 53 ->
  exists r, satisfies float_u float_i cut ovf p t = Ret r /\
  (r = true <-> tx_size (xtx_plain t) <= ts /\ scripts_within ss t /\
    (if cut then (Z.of_N (sat / by') <= xtx_fee ovf t)%Z else (Z.of_N sat <= xtx_fee ovf t * Z.of_N by')%Z)).
Proof.
  intros P S B F. change (2 ^ 53) with 9007199254740992 in S. destruct (plain_read _ _ _ _ _ _ P) as (A1 & A2 & A3 & A4); [change (2 ^ 63) with 9223372036854775808; lia|].
  unfold satisfies. rewrite A1, A2, A3, A4. cbn [and_then]. change (sigops (xtx_plain t)) with 0. replace (so <? 0) with false by lia.
  destruct (ts <? tx_size (xtx_plain t)) eqn:T; [exists false; split; [reflexivity|split; [discriminate|lia]]|].
  rewrite (below_exact cut (xtx_fee ovf t) sat by' S B F). cbn [and_then].
  assert (LO : (if (if cut then (xtx_fee ovf t <? Z.of_N (sat / by'))%Z else (xtx_fee ovf t * Z.of_N by' <? Z.of_N sat)%Z) then false else true) = true <->
    (if cut then (Z.of_N (sat / by') <= xtx_fee ovf t)%Z else (Z.of_N sat <= xtx_fee ovf t * Z.of_N by')%Z)).
  { destruct cut; [destruct (xtx_fee ovf t <? Z.of_N (sat / by'))%Z eqn:X|destruct (xtx_fee ovf t * Z.of_N by' <? Z.of_N sat)%Z eqn:X]; split; intros Y; try discriminate Y; try reflexivity; lia. }
  destruct (if cut then (xtx_fee ovf t <? Z.of_N (sat / by'))%Z else (xtx_fee ovf t * Z.of_N by' <? Z.of_N sat)%Z).
  - exists false. split; [reflexivity|]. split; [discriminate|]. intros (_ & _ & X). apply LO in X. discriminate X.
  - pose proof (scripts_exact ss t) as Q. assert (LE : tx_size (xtx_plain t) <= ts) by lia. pose proof (proj1 LO eq_refl) as EN.
    destruct (existsb (fun i => ss <? len (in_script (xi_input i))) (xt_inputs t)) eqn:X; [exists false; split; [reflexivity|]; split; [discriminate|]; intros (_ & W & _); apply Q in W; destruct W; discriminate|].
    destruct (existsb (fun o => ss <? len (out_script o)) (xt_outputs t)) eqn:Y; [exists false; split; [reflexivity|]; split; [discriminate|]; intros (_ & W & _); apply Q in W; destruct W; discriminate|].
    exists true. split; [reflexivity|]. split; [|reflexivity]. intros _. split; [exact LE|]. split; [apply Q; split; reflexivity|exact EN].
Qed.
(* the number of checks of signatures is never looked at *)
Lemma sigops_ignored cut ovf p q t ss so so' ts sat by' : sat < 2 ^ 63 -> policy_plain p ss so ts sat by' -> policy_plain q ss so' ts sat by' ->
  satisfies float_u float_i cut ovf p t = satisfies float_u float_i cut ovf q t.
Proof.
  intros L P Q. destruct (plain_read _ _ _ _ _ _ P L) as (A1 & A2 & A3 & A4). destruct (plain_read _ _ _ _ _ _ Q L) as (B1 & B2 & B3 & B4).
  unfold satisfies. rewrite A1, A2, A3, A4, B1, B2, B3, B4. cbn [and_then]. change (sigops (xtx_plain t)) with 0. replace (so <? 0) with false by lia. replace (so' <? 0) with false by lia. reflexivity.
Qed.
(* when less than a satoshi a byte is asked for, any fee will do *)
Lemma any_fee cut ovf p t ss so ts sat by' : policy_plain p ss so ts sat by' -> sat < 2 ^ 53 -> 0 < by' <= 2 ^ 53 -> sat <= by' -> (1 <= xtx_fee ovf t <= 9007199254740992)%Z ->
  tx_size (xtx_plain t) <= ts -> scripts_within ss t -> satisfies float_u float_i cut ovf p t = Ret true.
Proof.
  intros P S B L F T W. destruct (satisfies_exact cut ovf p t ss so ts sat by' P S B) as (r & -> & E); [change (2 ^ 53) with 9007199254740992; lia|]. f_equal. apply E. split; [exact T|]. split; [exact W|].
  destruct cut; [|nia]. assert (sat / by' <= 1) by (apply N.div_le_upper_bound; lia). lia.
Qed.
Lemma no_bytes cut ovf p t ss so ts sat : policy_plain p ss so ts sat 0 -> sat < 2 ^ 63 ->
  satisfies float_u float_i cut ovf p t = if ts <? tx_size (xtx_plain t) then Ret false else Throw tt.
Proof.
  intros P L. destruct (plain_read _ _ _ _ _ _ P L) as (A1 & A2 & A3 & A4). unfold satisfies. rewrite A1, A2, A3, A4. cbn [and_then]. change (sigops (xtx_plain t)) with 0. replace (so <? 0) with false by lia.
  destruct (ts <? tx_size (xtx_plain t)); reflexivity.
Qed.
(* a policy that is valid and whose fee cannot be read *)
Lemma fee_missing cut ovf p t a b c m ss so ts : policy_says p a b c m -> as_u64 float_u a = Ret ss -> as_u64 float_u b = Ret so -> as_u64 float_u c = Ret ts ->
  (~ exists v, holds "satoshis" m v) -> satisfies float_u float_i cut ovf p t = Undef.
Proof.
  intros (A & _ & B & _ & C & _ & D & o & ->) X Y Z N. unfold satisfies, policy_script_size, policy_sigops, policy_tx_size, policy_fee.
  change k_script_size with (text "maxscriptsizepolicy"). change k_sigops with (text "maxtxsigopscountspolicy"). change k_tx_size with (text "maxtxsizepolicy"). change k_mining_fee with (text "miningFee").
  apply at_holds in A. apply at_holds in B. apply at_holds in C. apply at_holds in D. rewrite A, B, C, D. cbn [and_then]. rewrite X, Y, Z. cbn [and_then].
  assert (U : at_key k_satoshis (JObject o) = Undef) by (change k_satoshis with (text "satoshis"); apply at_undef; split; [exists o; reflexivity|exact N]). rewrite U. reflexivity.
Qed.
End Policy.
