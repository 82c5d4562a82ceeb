(* Scripts and instructions as text.
   Source: script/opcodes.cpp, script/instruction.cpp 188-299.
   encoding::hex::write may write digits of either case: the parameter [up].  A text is its bytes. *)
From Coq Require Import String.
From Verif Require Import Base TextModel ScriptModel TscModel Bip44Model.
Local Open Scope list_scope.
Local Open Scope N_scope.

(* opcodes.cpp 72-319 *)
Definition op_name (o : byte) : bytes :=
  match o with
  | x00 => text "0" | x4c => text "OP_PUSHDATA1" | x4d => text "OP_PUSHDATA2" | x4e => text "OP_PUSHDATA4" | x4f => text "-1"
  | x50 => text "OP_RESERVED" | x51 => text "1" | x52 => text "2" | x53 => text "3" | x54 => text "4" | x55 => text "5" | x56 => text "6"
  | x57 => text "7" | x58 => text "8" | x59 => text "9" | x5a => text "10" | x5b => text "11" | x5c => text "12" | x5d => text "13"
  | x5e => text "14" | x5f => text "15" | x60 => text "16" | x61 => text "OP_NOP" | x62 => text "OP_VER" | x63 => text "OP_IF"
  | x64 => text "OP_NOTIF" | x65 => text "OP_VERIF" | x66 => text "OP_VERNOTIF" | x67 => text "OP_ELSE" | x68 => text "OP_ENDIF"
  | x69 => text "OP_VERIFY" | x6a => text "OP_RETURN" | x6b => text "OP_TOALTSTACK" | x6c => text "OP_FROMALTSTACK" | x6d => text "OP_2DROP"
  | x6e => text "OP_2DUP" | x6f => text "OP_3DUP" | x70 => text "OP_2OVER" | x71 => text "OP_2ROT" | x72 => text "OP_2SWAP" | x73 => text "OP_IFDUP"
  | x74 => text "OP_DEPTH" | x75 => text "OP_DROP" | x76 => text "OP_DUP" | x77 => text "OP_NIP" | x78 => text "OP_OVER" | x79 => text "OP_PICK"
  | x7a => text "OP_ROLL" | x7b => text "OP_ROT" | x7c => text "OP_SWAP" | x7d => text "OP_TUCK" | x7e => text "OP_CAT" | x7f => text "OP_SPLIT"
  | x80 => text "OP_NUM2BIN" | x81 => text "OP_BIN2NUM" | x82 => text "OP_SIZE" | x83 => text "OP_INVERT" | x84 => text "OP_AND"
  | x85 => text "OP_OR" | x86 => text "OP_XOR" | x87 => text "OP_EQUAL" | x88 => text "OP_EQUALVERIFY" | x89 => text "OP_RESERVED1"
  | x8a => text "OP_RESERVED2" | x8b => text "OP_1ADD" | x8c => text "OP_1SUB" | x8d => text "OP_2MUL" | x8e => text "OP_2DIV"
  | x8f => text "OP_NEGATE" | x90 => text "OP_ABS" | x91 => text "OP_NOT" | x92 => text "OP_0NOTEQUAL" | x93 => text "OP_ADD" | x94 => text "OP_SUB"
  | x95 => text "OP_MUL" | x96 => text "OP_DIV" | x97 => text "OP_MOD" | x98 => text "OP_LSHIFT" | x99 => text "OP_RSHIFT" | x9a => text "OP_BOOLAND"
  | x9b => text "OP_BOOLOR" | x9c => text "OP_NUMEQUAL" | x9d => text "OP_NUMEQUALVERIFY" | x9e => text "OP_NUMNOTEQUAL" | x9f => text "OP_LESSTHAN"
  | xa0 => text "OP_GREATERTHAN" | xa1 => text "OP_LESSTHANOREQUAL" | xa2 => text "OP_GREATERTHANOREQUAL" | xa3 => text "OP_MIN"
  | xa4 => text "OP_MAX" | xa5 => text "OP_WITHIN" | xa6 => text "OP_RIPEMD160" | xa7 => text "OP_SHA1" | xa8 => text "OP_SHA256"
  | xa9 => text "OP_HASH160" | xaa => text "OP_HASH256" | xab => text "OP_CODESEPARATOR" | xac => text "OP_CHECKSIG"
  | xad => text "OP_CHECKSIGVERIFY" | xae => text "OP_CHECKMULTISIG" | xaf => text "OP_CHECKMULTISIGVERIFY" | xb0 => text "OP_NOP1"
  | xb1 => text "OP_CHECKLOCKTIMEVERIFY" | xb2 => text "OP_CHECKSEQUENCEVERIFY" | xb3 => text "OP_NOP4" | xb4 => text "OP_NOP5"
  | xb5 => text "OP_NOP6" | xb6 => text "OP_NOP7" | xb7 => text "OP_NOP8" | xb8 => text "OP_NOP9" | xb9 => text "OP_NOP10"
  | xff => text "OP_INVALIDOPCODE"
  | _ => text "OP_UNKNOWN"
  end.
(* opcodes.cpp 10-70 *)
Definition op_text (o : byte) : bytes :=
  if (1 <=? b2n o) && (b2n o <=? 75) then to_string (b2n o)
  else match o with
  | x00 => text "OP_0" | x51 => text "OP_1" | x52 => text "OP_2" | x53 => text "OP_3" | x54 => text "OP_4" | x55 => text "OP_5" | x56 => text "OP_6"
  | x57 => text "OP_7" | x58 => text "OP_8" | x59 => text "OP_9" | x5a => text "OP_10" | x5b => text "OP_11" | x5c => text "OP_12"
  | x5d => text "OP_13" | x5e => text "OP_14" | x5f => text "OP_15" | x60 => text "OP_16"
  | _ => op_name o
  end.

Section Asm.
Variable up : bool.

(* instruction.cpp 188-192 *)
Definition asm_instr (i : instr) : bytes :=
  if byte_eqb (i_op i) OP_0 then text "0"
  else if is_push_data (i_op i) then hex_of up (i_data i)
  else op_text (i_op i).
(* the loop of instruction.cpp 198-202 *)
Fixpoint spaced (l : list bytes) : bytes :=
  match l with
  | [] => []
  | [x] => x
  | x :: r => x ++ x20 :: spaced r
  end.
(* instruction.cpp 194-205 *)
Definition asm (b : bytes) : outcome sexn bytes :=
  match decompile b with Ret p => Ret (spaced (map asm_instr p)) | Throw e => Throw e | Undef => Undef end.

(* instruction.cpp 207-295: OP_FALSE is caught first *)
Definition code_text (o : byte) : bytes :=
  if byte_eqb o OP_0 then text "push_empty"
  else if is_push_op o then
    match o with
    | x4c => text "push_data_1" | x4d => text "push_data_2" | x4e => text "push_data_4" | x4f => text "(-1)" | x51 => text "(1)" | x52 => text "(2)"
    | x53 => text "(3)" | x54 => text "(4)" | x55 => text "(5)" | x56 => text "(6)" | x57 => text "(7)" | x58 => text "(8)" | x59 => text "(9)"
    | x5a => text "(10)" | x5b => text "(11)" | x5c => text "(12)" | x5d => text "(13)" | x5e => text "(14)" | x5f => text "(15)" | x60 => text "(16)"
    | _ => text "push_size_" ++ to_string (b2n o)
    end
  else
    match o with
    | x50 => text "reserved" | x61 => text "nop" | x62 => text "ver" | x63 => text "if" | x64 => text "not_if" | x65 => text "ver_if"
    | x66 => text "ver_not_if" | x67 => text "else" | x68 => text "end_if" | x69 => text "verify" | x6a => text "return" | x6b => text "to_alt_stack"
    | x6c => text "from_alt_stack" | x6d => text "2_drop" | x6e => text "2_dup" | x6f => text "3_dup" | x70 => text "2_over" | x71 => text "2_rot"
    | x72 => text "2_swap" | x73 => text "if_dup" | x74 => text "depth" | x75 => text "drop" | x76 => text "dup" | x77 => text "nip"
    | x78 => text "over" | x79 => text "pick" | x7a => text "roll" | x7b => text "rot" | x7c => text "swap" | x7d => text "tuck" | x7e => text "cat"
    | x7f => text "split" | x82 => text "size" | x88 => text "equal_verify" | x93 => text "add" | x94 => text "subtract" | x95 => text "mul"
    | x98 => text "lshift" | x99 => text "rshift" | x9f => text "less" | xa0 => text "greater" | xa1 => text "less_equal" | xa2 => text "greater_equal"
    | xa5 => text "within" | xaa => text "hash256" | xac => text "checksig" | xad => text "checksig_verify"
    | _ => op_text o
    end.
(* instruction.cpp 297-300 *)
Definition instr_text (i : instr) : bytes :=
  if is_push_data (i_op i) then code_text (i_op i) ++ text "{" ++ hex_of up (i_data i) ++ text "}" else code_text (i_op i).
End Asm.
