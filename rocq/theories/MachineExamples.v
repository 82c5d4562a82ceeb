(* Concrete parameters for the examples beside the properties of the script machine. *)
From Verif Require Import Base ScriptModel NumModel StackModel MachineModel.
Local Open Scope N_scope.

(* no real hash functions: constants of the right length *)
Definition ex_externals : externals :=
  {| x_ripemd160 := fun _ => repeat x01 20; x_sha1 := fun _ => repeat x02 20; x_sha256 := fun _ => repeat x03 32;
     x_div := Z.quot; x_mod := Z.rem |}.
(* after genesis, 2^30 bytes of stack, minimal encodings *)
Definition ex_config : config :=
  {| c_flags := 2 ^ FLAG_MINIMALDATA + 2 ^ FLAG_SAFE_RETURN + 2 ^ FLAG_GENESIS_STACK + 2 ^ FLAG_CUSTOM_LIMITS + 2 ^ FLAG_GENESIS_OPCODES;
     c_max_ops := 100; c_max_keys := 20; c_max_memory := 2 ^ 30; c_max_num := 4 |}.
Definition ex_old_config : config :=
  {| c_flags := 0; c_max_ops := 500; c_max_keys := 20; c_max_memory := 2 ^ 63 - 1; c_max_num := 4 |}.
(* a signature "matches" a key when they are equal apart from the last byte *)
Definition ex_checks : sig_checks :=
  {| k_compressed := fun _ => true; k_valid := fun _ => true; k_der := fun _ => true; k_normalized := fun _ => true;
     k_verify := fun _ sig pub => bytes_eqb (removelast sig) pub |}.
Definition ex_strict_flags : flag :=
  2 ^ FLAG_NULLFAIL + 2 ^ FLAG_FORKID + 2 ^ FLAG_REQUIRE_FORKID + 2 ^ FLAG_GENESIS_STACK + 2 ^ FLAG_GENESIS_OPCODES + 2 ^ FLAG_MINIMALDATA.
Definition ex_document (f : flag) : rdoc :=
  {| d_verify := verify_signature ex_checks f; d_locktime := check_locktime 100 0; d_sequence := check_sequence 2 100 |}.
Definition ex_machine (cf : config) (main : list bytes) : mstate :=
  {| m_stack := {| s_main := main; s_alt := []; s_lim := s_lim (m_stack (machine0 cf));
                   s_mem := fold_right (fun x n => len x + 32 + n) 0 main |};
     m_exec := []; m_else := []; m_ops := 0 |}.
Definition ex_counter : counter := {| pc_next := []; pc_script := []; pc_pos := 0; pc_sep := 0 |}.
Definition ex_run (cf : config) (ux lx : bytes) : outcome sexn result :=
  evaluate ex_externals (Some (ex_document (c_flags cf))) cf [x81] ux lx.
Definition ex_strict_config : config :=
  {| c_flags := ex_strict_flags; c_max_ops := 100; c_max_keys := 20; c_max_memory := 2 ^ 30; c_max_num := 4 |}.
Definition ex_stack (x : bytes) : stack := {| s_main := [x]; s_alt := []; s_lim := Count 520 1000; s_mem := 0 |}.
