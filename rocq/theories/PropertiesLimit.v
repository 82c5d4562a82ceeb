(* Limits for scripts and the profiles of flags. *)
From Verif Require Import Base ScriptModel MachineModel LimitSpec LimitProofs.
Local Open Scope N_scope.

(* C133: which limits may be asked for *)
Theorem C133_custom : forall f ops keys mem num size c,
  script_config_custom f ops keys mem num size = Some c <->
  allowed (has_flag FLAG_CUSTOM_LIMITS f) ops keys mem num size /\ limited c f ops keys mem num.
Proof. exact custom_exact. Qed.
Print Assumptions C133_custom.
(* the limits that go with the flags *)
Theorem C133_library : forall f consensus,
  limited (script_config f consensus) f
    (if has_flag FLAG_CUSTOM_LIMITS f then 2 ^ 32 - 1 else 500) (if has_flag FLAG_CUSTOM_LIMITS f then 2 ^ 32 - 1 else 20)
    (2 ^ 63 - 1) (if has_flag FLAG_CUSTOM_LIMITS f then if consensus then 750000 else 250000 else 4).
Proof. exact library_exact. Qed.
Print Assumptions C133_library.
Theorem C133_allowed : forall f consensus, exists size,
  script_config_custom f (c_max_ops (script_config f consensus)) (c_max_keys (script_config f consensus))
    (c_max_memory (script_config f consensus)) (c_max_num (script_config f consensus)) size = Some (script_config f consensus).
Proof. exact library_allowed. Qed.
Print Assumptions C133_allowed.
(* in what the three profiles differ *)
Theorem C133_profiles :
  only_in pre_genesis_profile genesis_profile [FLAG_P2SH; FLAG_CLTV; FLAG_CSV] /\
  only_in genesis_profile pre_genesis_profile
    [FLAG_SIGPUSHONLY; FLAG_CUSTOMIZE_LIMITS; FLAG_SAFE_RETURN; FLAG_GENESIS_STACK; FLAG_CUSTOM_LIMITS; FLAG_GENESIS_OPCODES] /\
  only_in genesis_profile chronicle_profile
    [FLAG_STRICTENC; FLAG_DERSIG; FLAG_LOW_S; FLAG_NULLDUMMY; FLAG_SIGPUSHONLY; FLAG_MINIMALDATA; FLAG_DISCOURAGE_NOPS;
     FLAG_CLEANSTACK; FLAG_NULLFAIL; FLAG_REQUIRE_FORKID; FLAG_CUSTOM_LIMITS] /\
  only_in chronicle_profile genesis_profile [FLAG_CHRONICLE_OPCODES].
Proof. exact profiles_exact. Qed.
Print Assumptions C133_profiles.
(* the chronicle profile has the flag for customizing limits, yet the limits are those before genesis and no others are allowed *)
Theorem C133_chronicle_refuted :
  has_flag FLAG_CUSTOMIZE_LIMITS chronicle_profile = true /\
  (forall consensus, limited (script_config chronicle_profile consensus) chronicle_profile 500 20 (2 ^ 63 - 1) 4) /\
  forall ops keys mem num size c,
    script_config_custom chronicle_profile ops keys mem num size = Some c <->
    ops = 500 /\ keys = 20 /\ mem = 2 ^ 63 - 1 /\ num = 4 /\ size = 10000 /\ c = script_config chronicle_profile false.
Proof. exact (conj eq_refl (conj chronicle_limits chronicle_custom)). Qed.
Print Assumptions C133_chronicle_refuted.
Example C133_example :
  (exists c, script_config_custom genesis_profile 1000 3 0 4 0 = Some c /\ c_max_memory c = 0) /\
  script_config_custom genesis_profile 1000 3 0 3 0 = None /\ script_config_custom pre_genesis_profile 501 20 (2 ^ 63 - 1) 4 10000 = None /\
  c_max_num (script_config genesis_profile true) = 750000.
Proof. split; [eexists; split; reflexivity|]. repeat split. Qed.
