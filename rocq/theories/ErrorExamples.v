(* For each error that is reported, flags and a script that give it. *)
From Verif Require Import Base ScriptModel NumModel StackModel MachineModel MachineExamples ErrorModel ErrorSpec.
Local Open Scope N_scope.

(* keys are valid if they start with 2 or 3 and compressed if with 2; signatures that start with 9 are not DER, with 8 not normalized *)
Definition ex_error_checks : sig_checks :=
  {| k_compressed := fun k => byte_eqb (nth 0 k x00) x02; k_valid := fun k => existsb (byte_eqb (nth 0 k x00)) [x02; x03];
     k_der := fun s => negb (byte_eqb (nth 0 s x00) x09); k_normalized := fun s => negb (byte_eqb (nth 0 s x00) x08);
     k_verify := fun _ s _ => byte_eqb (nth 0 s x00) x07 |}.
Definition ex_error_document (f : flag) : rdoc :=
  {| d_verify := verify_signature ex_error_checks f; d_locktime := check_locktime 100 0; d_sequence := check_sequence 2 100 |}.
Definition ex_error_run (f : list N) (ux lx : bytes) : outcome sexn result :=
  evaluate ex_externals (Some (ex_error_document (flags_of f))) (script_config (flags_of f) true) [x81] ux lx.

Definition ex_sig (s h k : byte) : bytes := [x02; s; h; x01; k].
Definition ex_error_case (e : serror) : list N * bytes * bytes :=
  match e with
  | E_OK => ([], [OP_1], [])
  | E_UNKNOWN_ERROR => ([], [x02; x01; x02], [x01; x80; OP_SPLIT])
  | E_OP_RETURN => ([], [], [OP_1; OP_RETURN])
  | E_PUSH_SIZE => ([], [], [x04])
  | E_OP_COUNT => ([], [OP_1], repeat OP_NOP 501)
  | E_STACK_SIZE => ([], [], repeat OP_1 1001)
  | E_SIG_COUNT => ([], [], [OP_0; OP_1; OP_0; OP_CHECKMULTISIG])
  | E_PUBKEY_COUNT => ([], [], [OP_1NEGATE; OP_CHECKMULTISIG])
  | E_INVALID_OPERAND_SIZE => ([], [], [OP_0; OP_1; OP_AND])
  | E_INVALID_NUMBER_RANGE => ([], [], [OP_1; OP_1NEGATE; OP_LSHIFT])
  | E_IMPOSSIBLE_ENCODING => ([], [], [OP_1; OP_0; OP_NUM2BIN])
  | E_INVALID_SPLIT_RANGE => ([], [], [OP_1; x52; OP_SPLIT])
  | E_SCRIPTNUM_OVERFLOW => ([], [], [x05; x01; x01; x01; x01; x01; OP_1ADD])
  | E_SCRIPTNUM_MINENCODE => ([FLAG_MINIMALDATA], [], [x02; x01; x00; OP_1ADD])
  | E_VERIFY => ([], [], [OP_0; OP_VERIFY])
  | E_EQUALVERIFY => ([], [], [OP_0; OP_1; OP_EQUALVERIFY])
  | E_CHECKMULTISIGVERIFY => ([], [], [OP_0; x02; x01; x01; OP_1; x01; x02; OP_1; OP_CHECKMULTISIGVERIFY])
  | E_CHECKSIGVERIFY => ([], [], ex_sig x01 x01 x02 ++ [OP_CHECKSIGVERIFY])
  | E_NUMEQUALVERIFY => ([], [], [OP_0; OP_1; OP_NUMEQUALVERIFY])
  | E_BAD_OPCODE => ([], [], [OP_RESERVED])
  | E_INVALID_STACK_OPERATION => ([], [], [OP_DUP])
  | E_INVALID_ALTSTACK_OPERATION => ([], [], [OP_FROMALTSTACK])
  | E_UNBALANCED_CONDITIONAL => ([], [], [OP_1; OP_IF])
  | E_DIV_BY_ZERO => ([], [], [OP_1; OP_0; OP_DIV])
  | E_MOD_BY_ZERO => ([], [], [OP_1; OP_0; OP_MOD])
  | E_NEGATIVE_LOCKTIME => ([], [], [OP_1NEGATE; OP_CHECKLOCKTIMEVERIFY])
  | E_UNSATISFIED_LOCKTIME => ([], [], [x02; xff; x00; OP_CHECKLOCKTIMEVERIFY])
  | E_SIG_HASHTYPE => ([], [], ex_sig x07 x04 x02 ++ [OP_CHECKSIG])
  | E_SIG_DER => ([FLAG_DERSIG], [], ex_sig x09 x01 x02 ++ [OP_CHECKSIG])
  | E_MINIMALDATA => ([FLAG_MINIMALDATA], [], [x01; x01])
  | E_SIG_PUSHONLY => ([FLAG_SIGPUSHONLY], [OP_1; OP_DUP], [OP_1])
  | E_SIG_HIGH_S => ([FLAG_LOW_S], [], ex_sig x08 x01 x02 ++ [OP_CHECKSIG])
  | E_SIG_NULLDUMMY => ([FLAG_NULLDUMMY], [], [OP_1; OP_0; OP_0; OP_CHECKMULTISIG])
  | E_PUBKEYTYPE => ([FLAG_STRICTENC], [], ex_sig x07 x01 x05 ++ [OP_CHECKSIG])
  | E_CLEANSTACK => ([FLAG_CLEANSTACK], [OP_1], [OP_1])
  | E_MINIMALIF => ([FLAG_MINIMALIF], [], [x01; x02; OP_IF; OP_ENDIF])
  | E_SIG_NULLFAIL => ([FLAG_NULLFAIL], [], ex_sig x01 x01 x02 ++ [OP_CHECKSIG])
  | E_DISCOURAGE_UPGRADABLE_NOPS => ([FLAG_DISCOURAGE_NOPS], [], [OP_NOP1])
  | E_NONCOMPRESSED_PUBKEY => ([FLAG_COMPRESSED], [], ex_sig x07 x01 x03 ++ [OP_CHECKSIG])
  | E_ILLEGAL_FORKID => ([], [], ex_sig x07 x41 x02 ++ [OP_CHECKSIG])
  | E_MUST_USE_FORKID => ([FLAG_REQUIRE_FORKID], [], ex_sig x07 x01 x02 ++ [OP_CHECKSIG])
  | E_EVAL_FALSE | E_SCRIPT_SIZE | E_DISABLED_OPCODE | E_BIG_INT | E_INVALID_SCRIPT_CODE => ([], [], [])
  end.
(* 10500 bytes: twenty strings of 520 bytes pushed and dropped, and a one *)
Definition ex_long_script : bytes := concat (repeat ([OP_PUSHDATA2; x08; x02] ++ repeat x07 520 ++ [OP_DROP]) 20) ++ [OP_1].
