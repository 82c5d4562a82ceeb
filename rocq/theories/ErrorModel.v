(* The texts of script errors.
   Source: script/error.cpp 10-113, include/gigamonkey/script/error.h 12-85. *)
From Coq Require Import String.
From Verif Require Import Base ScriptModel TextModel.
Local Open Scope string_scope.

(* error.cpp 10-109, ScriptErrorString; SCRIPT_ERR_ERROR_COUNT, which no code returns, is left out *)
Definition error_string (e : serror) : string :=
  match e with
  | E_OK => "No error"
  | E_EVAL_FALSE => "Script evaluated without error but finished with a false/empty top stack element"
  | E_VERIFY => "Script failed an OP_VERIFY operation"
  | E_EQUALVERIFY => "Script failed an OP_EQUALVERIFY operation"
  | E_CHECKMULTISIGVERIFY => "Script failed an OP_CHECKMULTISIGVERIFY operation"
  | E_CHECKSIGVERIFY => "Script failed an OP_CHECKSIGVERIFY operation"
  | E_NUMEQUALVERIFY => "Script failed an OP_NUMEQUALVERIFY operation"
  | E_SCRIPT_SIZE => "Script is too big"
  | E_PUSH_SIZE => "Push value size limit exceeded"
  | E_OP_COUNT => "Operation limit exceeded"
  | E_STACK_SIZE => "Stack size limit exceeded"
  | E_SIG_COUNT => "Signature count negative or greater than pubkey count"
  | E_PUBKEY_COUNT => "Pubkey count negative or limit exceeded"
  | E_INVALID_OPERAND_SIZE => "Invalid operand size"
  | E_INVALID_NUMBER_RANGE => "Given operand is not a number within the valid range [-2^31...2^31]"
  | E_IMPOSSIBLE_ENCODING => "The requested encoding is impossible to satisfy"
  | E_INVALID_SPLIT_RANGE => "Invalid OP_SPLIT range"
  | E_SCRIPTNUM_OVERFLOW => "Script number overflow"
  | E_SCRIPTNUM_MINENCODE => "Non-minimally encoded script number"
  | E_BAD_OPCODE => "Opcode missing or not understood"
  | E_DISABLED_OPCODE => "Attempted to use a disabled opcode"
  | E_INVALID_STACK_OPERATION => "Operation not valid with the current stack size"
  | E_INVALID_ALTSTACK_OPERATION => "Operation not valid with the current altstack size"
  | E_OP_RETURN => "OP_RETURN was encountered"
  | E_UNBALANCED_CONDITIONAL => "Invalid OP_IF construction"
  | E_DIV_BY_ZERO => "Division by zero error"
  | E_MOD_BY_ZERO => "Modulo by zero error"
  | E_NEGATIVE_LOCKTIME => "Negative locktime"
  | E_UNSATISFIED_LOCKTIME => "Locktime requirement not satisfied"
  | E_SIG_HASHTYPE => "Signature hash type missing or not understood"
  | E_SIG_DER => "Non-canonical DER signature"
  | E_MINIMALDATA => "Data push larger than necessary"
  | E_SIG_PUSHONLY => "Only non-push operators allowed in signatures"
  | E_SIG_HIGH_S => "Non-canonical signature: S value is unnecessarily high"
  | E_SIG_NULLDUMMY => "Dummy CHECKMULTISIG argument must be zero"
  | E_MINIMALIF => "OP_IF/NOTIF argument must be minimal"
  | E_SIG_NULLFAIL => "Signature must be zero for failed CHECK(MULTI)SIG operation"
  | E_DISCOURAGE_UPGRADABLE_NOPS => "NOPx reserved for soft-fork upgrades"
  | E_PUBKEYTYPE => "Public key is neither compressed or uncompressed"
  | E_CLEANSTACK => "Script did not clean its stack"
  | E_NONCOMPRESSED_PUBKEY => "Using non-compressed public key"
  | E_ILLEGAL_FORKID => "Illegal use of SIGHASH_FORKID"
  | E_MUST_USE_FORKID => "Signature must use SIGHASH_FORKID"
  | E_BIG_INT => "Big integer OpenSSL error"
  | _ => "unknown error"
  end.
Definition error_text (e : serror) : bytes := text (error_string e).
