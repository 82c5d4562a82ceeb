From Verif Require Import Base ScriptModel MachineModel LimitSpec.
From Coq Require Import Lia ZifyBool ZifyNat ZifyN.
Local Open Scope N_scope.

Theorem custom_exact f ops keys mem num size c :
  script_config_custom f ops keys mem num size = Some c <->
  allowed (has_flag FLAG_CUSTOM_LIMITS f) ops keys mem num size /\ limited c f ops keys mem num.
Proof.
  unfold script_config_custom, allowed, limited.
  change UINT32_MAX with 4294967295. change MAX_NUM_AFTER_GENESIS with 750000. change MAX_NUM_BEFORE_GENESIS with 4.
  change MAX_OPS_BEFORE_GENESIS with 500. change MAX_KEYS_BEFORE_GENESIS with 20. change MAX_SIZE_BEFORE_GENESIS with 10000.
  change INT64_MAX with (2 ^ 63 - 1). change (2 ^ 32) with 4294967296. generalize (2 ^ 63 - 1). intros big.
  assert (R : forall x : config, Some x = Some c <-> c_flags c = c_flags x /\ c_max_ops c = c_max_ops x /\
    c_max_keys c = c_max_keys x /\ c_max_memory c = c_max_memory x /\ c_max_num c = c_max_num x).
  { intros [a1 a2 a3 a4 a5]. destruct c as [b1 b2 b3 b4 b5]. cbn. split; [intros E; injection E; auto|].
    intros (-> & -> & -> & -> & ->). reflexivity. }
  match goal with |- (if ?a then _ else if ?b then _ else _) = _ <-> _ => destruct a eqn:A; [|destruct b eqn:B] end.
  - split; [discriminate|]. destruct (has_flag FLAG_CUSTOM_LIMITS f); [discriminate A|]. lia.
  - split; [discriminate|]. destruct (has_flag FLAG_CUSTOM_LIMITS f); lia.
  - rewrite R. cbn [c_flags c_max_ops c_max_keys c_max_memory c_max_num].
    destruct (has_flag FLAG_CUSTOM_LIMITS f); split; try tauto; intros G; split; try exact G; cbn [negb andb] in A; lia.
Qed.

Theorem library_exact f consensus :
  limited (script_config f consensus) f
    (if has_flag FLAG_CUSTOM_LIMITS f then 2 ^ 32 - 1 else 500) (if has_flag FLAG_CUSTOM_LIMITS f then 2 ^ 32 - 1 else 20)
    (2 ^ 63 - 1) (if has_flag FLAG_CUSTOM_LIMITS f then if consensus then 750000 else 250000 else 4).
Proof. unfold script_config. destruct (has_flag FLAG_CUSTOM_LIMITS f), consensus; repeat split. Qed.

Theorem library_allowed f consensus : exists size,
  script_config_custom f (c_max_ops (script_config f consensus)) (c_max_keys (script_config f consensus))
    (c_max_memory (script_config f consensus)) (c_max_num (script_config f consensus)) size = Some (script_config f consensus).
Proof.
  exists 10000. apply custom_exact. pose proof (library_exact f consensus) as (F & O & K & M & U). rewrite O, K, M, U.
  split; [|repeat split; assumption].
  unfold allowed. destruct (has_flag FLAG_CUSTOM_LIMITS f), consensus; repeat split; vm_compute; congruence.
Qed.

(* a property of all bit positions is a property of those below 32 when the numbers are that small *)
Lemma has_flag_high k p : p < 2 ^ 32 -> 32 <= k -> has_flag k p = false.
Proof.
  intros P K. unfold has_flag. destruct (N.eq_dec p 0) as [->|Np]; [apply N.bits_0|].
  apply N.bits_above_log2. apply N.log2_lt_pow2; [lia|]. eapply N.lt_le_trans; [exact P|]. apply N.pow_le_mono_r; lia.
Qed.

Lemma only_in_checked p q l : p < 2 ^ 32 ->
  forallb (fun k => Bool.eqb (has_flag k p && negb (has_flag k q)) (existsb (N.eqb k) l)) (map N.of_nat (seq 0 32)) = true ->
  forallb (fun k => k <? 32) l = true -> only_in p q l.
Proof.
  intros P H L k. rewrite forallb_forall in H, L.
  assert (E : existsb (N.eqb k) l = true <-> In k l).
  { rewrite existsb_exists. split; [intros (x & I & X); apply N.eqb_eq in X; subst; exact I|].
    intros I. exists k. split; [exact I|apply N.eqb_refl]. }
  rewrite <- E. destruct (N.ltb_spec k 32) as [K|K].
  - assert (I : In k (map N.of_nat (seq 0 32))).
    { apply in_map_iff. exists (N.to_nat k). split; [lia|]. apply in_seq. lia. }
    specialize (H k I). apply Bool.eqb_prop in H. rewrite <- H. destruct (has_flag k p), (has_flag k q); cbn; intuition discriminate.
  - rewrite (has_flag_high k p P K). split; [intros (D & _); discriminate D|]. rewrite E. intros I.
    specialize (L k I). cbv beta in L. lia.
Qed.

Theorem profiles_exact :
  only_in pre_genesis_profile genesis_profile [FLAG_P2SH; FLAG_CLTV; FLAG_CSV] /\
  only_in genesis_profile pre_genesis_profile
    [FLAG_SIGPUSHONLY; FLAG_CUSTOMIZE_LIMITS; FLAG_SAFE_RETURN; FLAG_GENESIS_STACK; FLAG_CUSTOM_LIMITS; FLAG_GENESIS_OPCODES] /\
  only_in genesis_profile chronicle_profile
    [FLAG_STRICTENC; FLAG_DERSIG; FLAG_LOW_S; FLAG_NULLDUMMY; FLAG_SIGPUSHONLY; FLAG_MINIMALDATA; FLAG_DISCOURAGE_NOPS;
     FLAG_CLEANSTACK; FLAG_NULLFAIL; FLAG_REQUIRE_FORKID; FLAG_CUSTOM_LIMITS] /\
  only_in chronicle_profile genesis_profile [FLAG_CHRONICLE_OPCODES].
Proof. split; [|split; [|split]]; apply only_in_checked; vm_compute; reflexivity. Qed.

Theorem chronicle_limits consensus : limited (script_config chronicle_profile consensus) chronicle_profile 500 20 (2 ^ 63 - 1) 4.
Proof. exact (library_exact chronicle_profile consensus). Qed.

Theorem chronicle_custom ops keys mem num size c :
  script_config_custom chronicle_profile ops keys mem num size = Some c <->
  ops = 500 /\ keys = 20 /\ mem = 2 ^ 63 - 1 /\ num = 4 /\ size = 10000 /\ c = script_config chronicle_profile false.
Proof.
  rewrite custom_exact. change (has_flag FLAG_CUSTOM_LIMITS chronicle_profile) with false. unfold allowed, limited.
  split.
  - intros ((-> & -> & -> & -> & ->) & F & O & K & M & U). repeat split.
    destruct c as [a1 a2 a3 a4 a5]. cbn in F, O, K, M, U. subst. vm_compute. reflexivity.
  - intros (-> & -> & -> & -> & -> & ->). repeat split.
Qed.
