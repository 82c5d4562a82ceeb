(* The model run on the values of TestAgainstBoostPoWJS of /repo/test/testBoost.cpp: the
   scripts made by the library boostpow-js, and what they pay for. *)
From Coq Require Import String.
From Verif Require Import Base WireModel TextModel MerkleModel ScriptModel StackModel MachineModel AsmModel WorkModel ExtModel
  DifficultyModel BoostModel Sha1Spec Sha256Spec Ripemd160Spec.
Local Open Scope N_scope.

Definition unhex (s : string) : bytes := match hex_read (text s) with Some b => b | None => [] end.
Definition vb_content : bytes := text "hello animal" ++ repeat x00 20.
Definition vb_tag : bytes := text "this is a tag".
Definition vb_data : bytes := text "this is more additionalData".
Definition vb_target : N := match compact_of_difficulty (Num (double 1 10000)) with Some c => c | None => 0 end.
Definition vb_key : bytes := unhex "020000000000000000000000000000000000000000000000000000000000000007".
Definition vb_sig : bytes := unhex "300602010a02010b41".
Definition vb_hash : bytes := ripemd160 (sha256 vb_key).
Definition vb_output (contract bits : bool) (hash : bytes) : output :=
  if contract then contract_output 1234 vb_content vb_target vb_tag 456 vb_data hash bits
  else bounty_output 1234 vb_content vb_target vb_tag 456 vb_data bits.
Definition vb_input (contract bits : bool) : input :=
  let nonce := le_val (unhex (if bits then "04670400" else "f8fc1600")%string) in
  let g := if bits then Some (-1)%Z else None in
  if contract then contract_input vb_sig vb_key nonce 151007250 (unhex "0000000300000003") 0x02000000 g
  else bounty_input vb_sig vb_key nonce 151007250 (unhex "0000000300000003") 0x02000000 g vb_hash.
Definition vb_cases : list (bool * bool) := [(false, false); (false, true); (true, false); (true, true)].

Succeed Example boost_target : le 4 vb_target = unhex "d80f271e" :=
  ltac:(vm_compute; reflexivity).
Succeed Example boost_hash : vb_hash = unhex "1A7340DA6FB3F728439A4BECFCA9CBEDDAF8795F" :=
  ltac:(vm_compute; reflexivity).

(* boost::to_upper_copy *)
Definition upper (s : bytes) : bytes :=
  map (fun c => if (97 <=? b2n c) && (b2n c <=? 122) then n2b (b2n c - 32) else c) s.
Definition asm_of (w : option bytes) : option bytes :=
  match w with Some b => match asm false b with Ret t => Some (upper t) | _ => None end | None => None end.
Succeed Example locking_bounty_v1 : asm_of (output_write (vb_output false false vb_hash)) = Some (text
  ("626F6F7374706F77 OP_DROP D2040000 68656C6C6F20616E696D616C0000000000000000000000000000000000000000 D" ++
   "80F271E 74686973206973206120746167 C8010000 74686973206973206D6F7265206164646974696F6E616C44617461 O" ++
   "P_CAT OP_SWAP OP_5 OP_ROLL OP_DUP OP_TOALTSTACK OP_CAT OP_2 OP_PICK OP_TOALTSTACK OP_5 OP_ROLL OP_SI" ++
   "ZE OP_4 OP_EQUALVERIFY OP_CAT OP_5 OP_ROLL OP_SIZE OP_8 OP_EQUALVERIFY OP_CAT OP_SWAP OP_CAT OP_HASH" ++
   "256 OP_SWAP OP_TOALTSTACK OP_CAT OP_CAT OP_SWAP OP_SIZE OP_4 OP_EQUALVERIFY OP_CAT OP_FROMALTSTACK O" ++
   "P_CAT OP_SWAP OP_SIZE OP_4 OP_EQUALVERIFY OP_CAT OP_HASH256 00 OP_CAT OP_BIN2NUM OP_FROMALTSTACK OP_" ++
   "SIZE OP_4 OP_EQUALVERIFY OP_3 OP_SPLIT OP_DUP OP_BIN2NUM OP_3 21 OP_WITHIN OP_VERIFY OP_TOALTSTACK O" ++
   "P_DUP OP_BIN2NUM 0 OP_GREATERTHAN OP_VERIFY 00000000000000000000000000000000000000000000000000000000" ++
   "00 OP_CAT OP_FROMALTSTACK OP_3 OP_SUB OP_8 OP_MUL OP_RSHIFT 00 OP_CAT OP_BIN2NUM OP_LESSTHAN OP_VERI" ++
   "FY OP_DUP OP_HASH160 OP_FROMALTSTACK OP_EQUALVERIFY OP_CHECKSIG")%string) :=
  ltac:(vm_compute; reflexivity).
Succeed Example unlocking_bounty_v1 : asm_of (input_write (vb_input false false)) = Some (text
  ("300602010A02010B41 020000000000000000000000000000000000000000000000000000000000000007 F8FC1600 12300" ++
   "009 0000000300000003 02000000 1A7340DA6FB3F728439A4BECFCA9CBEDDAF8795F")%string) :=
  ltac:(vm_compute; reflexivity).
Succeed Example locking_bounty_v2 : asm_of (output_write (vb_output false true vb_hash)) = Some (text
  ("626F6F7374706F77 OP_DROP D2040000 68656C6C6F20616E696D616C0000000000000000000000000000000000000000 D" ++
   "80F271E 74686973206973206120746167 C8010000 74686973206973206D6F7265206164646974696F6E616C44617461 O" ++
   "P_CAT OP_SWAP OP_5 OP_ROLL OP_DUP OP_TOALTSTACK OP_CAT OP_2 OP_PICK OP_TOALTSTACK OP_6 OP_ROLL OP_SI" ++
   "ZE OP_4 OP_EQUALVERIFY OP_CAT OP_6 OP_ROLL OP_SIZE 20 OP_LESSTHANOREQUAL OP_VERIFY OP_CAT OP_SWAP OP" ++
   "_CAT OP_HASH256 OP_SWAP OP_TOALTSTACK OP_CAT OP_TOALTSTACK FF1F00E0 OP_DUP OP_INVERT OP_TOALTSTACK O" ++
   "P_AND OP_SWAP OP_FROMALTSTACK OP_AND OP_OR OP_FROMALTSTACK OP_CAT OP_SWAP OP_SIZE OP_4 OP_EQUALVERIF" ++
   "Y OP_CAT OP_FROMALTSTACK OP_CAT OP_SWAP OP_SIZE OP_4 OP_EQUALVERIFY OP_CAT OP_HASH256 00 OP_CAT OP_B" ++
   "IN2NUM OP_FROMALTSTACK OP_SIZE OP_4 OP_EQUALVERIFY OP_3 OP_SPLIT OP_DUP OP_BIN2NUM OP_3 21 OP_WITHIN" ++
   " OP_VERIFY OP_TOALTSTACK OP_DUP OP_BIN2NUM 0 OP_GREATERTHAN OP_VERIFY 000000000000000000000000000000" ++
   "0000000000000000000000000000 OP_CAT OP_FROMALTSTACK OP_3 OP_SUB OP_8 OP_MUL OP_RSHIFT 00 OP_CAT OP_B" ++
   "IN2NUM OP_LESSTHAN OP_VERIFY OP_DUP OP_HASH160 OP_FROMALTSTACK OP_EQUALVERIFY OP_CHECKSIG")%string) :=
  ltac:(vm_compute; reflexivity).
Succeed Example unlocking_bounty_v2 : asm_of (input_write (vb_input false true)) = Some (text
  ("300602010A02010B41 020000000000000000000000000000000000000000000000000000000000000007 04670400 12300" ++
   "009 0000000300000003 02000000 FFFFFFFF 1A7340DA6FB3F728439A4BECFCA9CBEDDAF8795F")%string) :=
  ltac:(vm_compute; reflexivity).
Succeed Example locking_contract_v1 : asm_of (output_write (vb_output true false vb_hash)) = Some (text
  ("626F6F7374706F77 OP_DROP 1A7340DA6FB3F728439A4BECFCA9CBEDDAF8795F D2040000 68656C6C6F20616E696D616C0" ++
   "000000000000000000000000000000000000000 D80F271E 74686973206973206120746167 C8010000 746869732069732" ++
   "06D6F7265206164646974696F6E616C44617461 OP_CAT OP_SWAP OP_5 OP_ROLL OP_DUP OP_TOALTSTACK OP_CAT OP_2" ++
   " OP_PICK OP_TOALTSTACK OP_5 OP_ROLL OP_SIZE OP_4 OP_EQUALVERIFY OP_CAT OP_5 OP_ROLL OP_SIZE OP_8 OP_" ++
   "EQUALVERIFY OP_CAT OP_SWAP OP_CAT OP_HASH256 OP_SWAP OP_TOALTSTACK OP_CAT OP_CAT OP_SWAP OP_SIZE OP_" ++
   "4 OP_EQUALVERIFY OP_CAT OP_FROMALTSTACK OP_CAT OP_SWAP OP_SIZE OP_4 OP_EQUALVERIFY OP_CAT OP_HASH256" ++
   " 00 OP_CAT OP_BIN2NUM OP_FROMALTSTACK OP_SIZE OP_4 OP_EQUALVERIFY OP_3 OP_SPLIT OP_DUP OP_BIN2NUM OP" ++
   "_3 21 OP_WITHIN OP_VERIFY OP_TOALTSTACK OP_DUP OP_BIN2NUM 0 OP_GREATERTHAN OP_VERIFY 000000000000000" ++
   "0000000000000000000000000000000000000000000 OP_CAT OP_FROMALTSTACK OP_3 OP_SUB OP_8 OP_MUL OP_RSHIFT" ++
   " 00 OP_CAT OP_BIN2NUM OP_LESSTHAN OP_VERIFY OP_DUP OP_HASH160 OP_FROMALTSTACK OP_EQUALVERIFY OP_CHEC" ++
   "KSIG")%string) :=
  ltac:(vm_compute; reflexivity).
Succeed Example unlocking_contract_v1 : asm_of (input_write (vb_input true false)) = Some (text
  ("300602010A02010B41 020000000000000000000000000000000000000000000000000000000000000007 F8FC1600 12300" ++
   "009 0000000300000003 02000000")%string) :=
  ltac:(vm_compute; reflexivity).
Succeed Example locking_contract_v2 : asm_of (output_write (vb_output true true vb_hash)) = Some (text
  ("626F6F7374706F77 OP_DROP 1A7340DA6FB3F728439A4BECFCA9CBEDDAF8795F D2040000 68656C6C6F20616E696D616C0" ++
   "000000000000000000000000000000000000000 D80F271E 74686973206973206120746167 C8010000 746869732069732" ++
   "06D6F7265206164646974696F6E616C44617461 OP_CAT OP_SWAP OP_5 OP_ROLL OP_DUP OP_TOALTSTACK OP_CAT OP_2" ++
   " OP_PICK OP_TOALTSTACK OP_6 OP_ROLL OP_SIZE OP_4 OP_EQUALVERIFY OP_CAT OP_6 OP_ROLL OP_SIZE 20 OP_LE" ++
   "SSTHANOREQUAL OP_VERIFY OP_CAT OP_SWAP OP_CAT OP_HASH256 OP_SWAP OP_TOALTSTACK OP_CAT OP_TOALTSTACK " ++
   "FF1F00E0 OP_DUP OP_INVERT OP_TOALTSTACK OP_AND OP_SWAP OP_FROMALTSTACK OP_AND OP_OR OP_FROMALTSTACK " ++
   "OP_CAT OP_SWAP OP_SIZE OP_4 OP_EQUALVERIFY OP_CAT OP_FROMALTSTACK OP_CAT OP_SWAP OP_SIZE OP_4 OP_EQU" ++
   "ALVERIFY OP_CAT OP_HASH256 00 OP_CAT OP_BIN2NUM OP_FROMALTSTACK OP_SIZE OP_4 OP_EQUALVERIFY OP_3 OP_" ++
   "SPLIT OP_DUP OP_BIN2NUM OP_3 21 OP_WITHIN OP_VERIFY OP_TOALTSTACK OP_DUP OP_BIN2NUM 0 OP_GREATERTHAN" ++
   " OP_VERIFY 0000000000000000000000000000000000000000000000000000000000 OP_CAT OP_FROMALTSTACK OP_3 OP" ++
   "_SUB OP_8 OP_MUL OP_RSHIFT 00 OP_CAT OP_BIN2NUM OP_LESSTHAN OP_VERIFY OP_DUP OP_HASH160 OP_FROMALTST" ++
   "ACK OP_EQUALVERIFY OP_CHECKSIG")%string) :=
  ltac:(vm_compute; reflexivity).
Succeed Example unlocking_contract_v2 : asm_of (input_write (vb_input true true)) = Some (text
  ("300602010A02010B41 020000000000000000000000000000000000000000000000000000000000000007 04670400 12300" ++
   "009 0000000300000003 02000000 FFFFFFFF")%string) :=
  ltac:(vm_compute; reflexivity).

Succeed Example boost_proofs :
  map (fun c => output_valid (vb_output (fst c) (snd c) vb_hash) && input_valid (vb_input (fst c) (snd c))
                && bproof_valid sha256d (proof_of (vb_output (fst c) (snd c) vb_hash) (vb_input (fst c) (snd c)))) vb_cases
  = [true; true; true; true] :=
  ltac:(vm_compute; reflexivity).

(* the scripts, run without a document: no signature is asked for *)
Definition vb_externals : externals :=
  {| x_ripemd160 := ripemd160; x_sha1 := sha1; x_sha256 := sha256; x_div := Z.quot; x_mod := Z.rem |}.
Definition vb_run (contract bits : bool) : option (outcome sexn result) :=
  match input_write (vb_input contract bits), output_write (vb_output contract bits vb_hash) with
  | Some i, Some o => Some (evaluate vb_externals None (script_config genesis_profile false) [x81] i o)
  | _, _ => None
  end.
Succeed Example boost_scripts :
  map (fun c => vb_run (fst c) (snd c)) vb_cases = repeat (Some (Ret (result_of_bool true))) 4 :=
  ltac:(vm_compute; reflexivity).
