(* The script machine and interpreter.
   /repo/src/gigamonkey/script/machine.cpp, include/gigamonkey/script/machine.hpp,
   script/interpreter.cpp, include/gigamonkey/script/interpreter.hpp, script/config.cpp,
   include/gigamonkey/script/config.hpp.
   Hash functions, integer division and the redemption document are parameters: every theorem holds
   whatever they are. *)
From Verif Require Import Base ScriptModel NumModel StackModel.
Local Open Scope N_scope.

(* remaining opcodes, include/gigamonkey/script/opcodes.h *)
Notation OP_TOALTSTACK := x6b. Notation OP_FROMALTSTACK := x6c. Notation OP_2DROP := x6d. Notation OP_2DUP := x6e.
Notation OP_3DUP := x6f. Notation OP_2OVER := x70. Notation OP_2ROT := x71. Notation OP_2SWAP := x72.
Notation OP_IFDUP := x73. Notation OP_DEPTH := x74. Notation OP_DROP := x75. Notation OP_DUP := x76.
Notation OP_NIP := x77. Notation OP_OVER := x78. Notation OP_PICK := x79. Notation OP_ROLL := x7a.
Notation OP_ROT := x7b. Notation OP_SWAP := x7c. Notation OP_TUCK := x7d. Notation OP_CAT := x7e.
Notation OP_SPLIT := x7f. Notation OP_NUM2BIN := x80. Notation OP_BIN2NUM := x81. Notation OP_SIZE := x82.
Notation OP_INVERT := x83. Notation OP_AND := x84. Notation OP_OR := x85. Notation OP_XOR := x86.
Notation OP_EQUALVERIFY := x88. Notation OP_1ADD := x8b. Notation OP_1SUB := x8c. Notation OP_2MUL := x8d.
Notation OP_2DIV := x8e. Notation OP_NEGATE := x8f. Notation OP_ABS := x90. Notation OP_NOT := x91.
Notation OP_0NOTEQUAL := x92. Notation OP_ADD := x93. Notation OP_SUB := x94. Notation OP_MUL := x95.
Notation OP_DIV := x96. Notation OP_MOD := x97. Notation OP_LSHIFT := x98. Notation OP_RSHIFT := x99.
Notation OP_BOOLAND := x9a. Notation OP_BOOLOR := x9b. Notation OP_NUMEQUAL := x9c. Notation OP_NUMEQUALVERIFY := x9d.
Notation OP_NUMNOTEQUAL := x9e. Notation OP_LESSTHAN := x9f. Notation OP_GREATERTHAN := xa0.
Notation OP_LESSTHANOREQUAL := xa1. Notation OP_GREATERTHANOREQUAL := xa2. Notation OP_MIN := xa3.
Notation OP_MAX := xa4. Notation OP_WITHIN := xa5. Notation OP_RIPEMD160 := xa6. Notation OP_SHA1 := xa7.
Notation OP_SHA256 := xa8. Notation OP_HASH256 := xaa. Notation OP_CHECKSIG := xac. Notation OP_CHECKSIGVERIFY := xad.
Notation OP_CHECKMULTISIG := xae. Notation OP_CHECKMULTISIGVERIFY := xaf. Notation OP_NOP1 := xb0.
Notation OP_CHECKLOCKTIMEVERIFY := xb1. Notation OP_CHECKSEQUENCEVERIFY := xb2. Notation OP_SUBSTR := xb3.
Notation OP_LEFT := xb4. Notation OP_RIGHT := xb5. Notation OP_NOP7 := xb6. Notation OP_NOP8 := xb7.
Notation OP_NOP9 := xb8. Notation OP_NOP10 := xb9.

(* config.hpp 182-210; MaxScriptSize is set by the constructors and read nowhere *)
Record config : Type :=
  { c_flags : flag; c_max_ops : N; c_max_keys : N; c_max_memory : N; c_max_num : N }.

(* /repo/src/sv/include/sv/consensus/consensus.h 12-78, policy/policy.h 81-112 *)
Definition MAX_OPS_BEFORE_GENESIS : N := 500.
Definition MAX_KEYS_BEFORE_GENESIS : N := 20.
Definition MAX_NUM_BEFORE_GENESIS : N := 4.
Definition INT64_MAX : N := 2 ^ 63 - 1.
Definition UINT32_MAX : N := 2 ^ 32 - 1.
Definition MAX_NUM_AFTER_GENESIS : N := 750000.
Definition MAX_NUM_POLICY : N := 250000.
Definition MAX_SIZE_BEFORE_GENESIS : N := 10000.
Definition MAX_ELEMENT_BEFORE_GENESIS : N := 520.
Definition MAX_ELEMENTS_BEFORE_GENESIS : N := 1000.

(* config.cpp 15-37 *)
Definition script_config (f : flag) (consensus : bool) : config :=
  if negb (has_flag FLAG_CUSTOM_LIMITS f) then
    {| c_flags := f; c_max_ops := MAX_OPS_BEFORE_GENESIS; c_max_keys := MAX_KEYS_BEFORE_GENESIS;
       c_max_memory := INT64_MAX; c_max_num := MAX_NUM_BEFORE_GENESIS |}
  else
    {| c_flags := f; c_max_ops := UINT32_MAX; c_max_keys := UINT32_MAX; c_max_memory := INT64_MAX;
       c_max_num := if consensus then MAX_NUM_AFTER_GENESIS else MAX_NUM_POLICY |}.

(* config.cpp 39-78; [None]: the constructor throws *)
Definition script_config_custom (f : flag) (ops keys mem num size : N) : option config :=
  if negb (has_flag FLAG_CUSTOM_LIMITS f) &&
     (negb (ops =? MAX_OPS_BEFORE_GENESIS) || negb (keys =? MAX_KEYS_BEFORE_GENESIS) || negb (mem =? INT64_MAX) ||
      negb (size =? MAX_SIZE_BEFORE_GENESIS) || negb (num =? MAX_NUM_BEFORE_GENESIS)) then None
  else if (UINT32_MAX <? ops) || (UINT32_MAX <? keys) || (MAX_NUM_AFTER_GENESIS <? num) ||
          (num <? MAX_NUM_BEFORE_GENESIS) || (UINT32_MAX <? size) then None
  else Some {| c_flags := f; c_max_ops := ops; c_max_keys := keys; c_max_memory := mem; c_max_num := num |}.

(* external functions used by step *)
Record externals : Type :=
  { x_ripemd160 : bytes -> bytes; x_sha1 : bytes -> bytes; x_sha256 : bytes -> bytes;
    x_div : Z -> Z -> Z; x_mod : Z -> Z -> Z }.

(* redemption_document, script.hpp 61-80: verify_signature with the script code filled in,
   check_locktime and check_sequence *)
Record rdoc : Type :=
  { d_verify : program -> bytes -> bytes -> result; d_locktime : N -> bool; d_sequence : N -> bool }.

(* script.cpp 53-84 and 86-130, for the lock time and version of the transaction and the sequence number of
   the input; constants from script/stack.hpp 23 and script/bitcoin_core.hpp 16-36 *)
Definition LOCKTIME_THRESHOLD : N := 500000000.
Definition SEQUENCE_FINAL : N := 0xffffffff.
Definition SEQUENCE_TYPE_FLAG : N := 2 ^ 22.
Definition SEQUENCE_MASK : N := 0xffff.
Definition check_locktime (tx_locktime sequence n : N) : bool :=
  if negb ((tx_locktime <? LOCKTIME_THRESHOLD) && (n <? LOCKTIME_THRESHOLD) ||
           (LOCKTIME_THRESHOLD <=? tx_locktime) && (LOCKTIME_THRESHOLD <=? n)) then false
  else if tx_locktime <? n then false
  else if SEQUENCE_FINAL =? sequence then false
  else true.
Definition check_sequence (version : Z) (sequence n : N) : bool :=
  if Z.to_N (version mod 2 ^ 32) <? 2 then false
  else if N.testbit sequence 31 then false
  else
    let mask := N.lor SEQUENCE_TYPE_FLAG SEQUENCE_MASK in
    let t := N.land sequence mask in
    let m := N.land n mask in
    if negb ((t <? SEQUENCE_TYPE_FLAG) && (m <? SEQUENCE_TYPE_FLAG) ||
             (SEQUENCE_TYPE_FLAG <=? t) && (SEQUENCE_TYPE_FLAG <=? m)) then false
    else if t <? m then false
    else true.

(* sighash.hpp: has_fork_id (directive (sig)); signature.hpp 46-52 *)
Definition sig_directive (sig : bytes) : byte := last sig x00.
Definition sig_raw (sig : bytes) : bytes := removelast sig.
Definition has_fork_id (d : byte) : bool := N.testbit (b2n d) 6.
(* sighash.hpp: no bit other than the base type, FORKID and ANYONECANPAY *)
Definition directive_valid (d : byte) : bool := N.land (b2n d) 0x3c =? 0.

(* the tests on keys and signatures, and the ECDSA verification against the document with a given script code *)
Record sig_checks : Type :=
  { k_compressed : bytes -> bool; k_valid : bytes -> bool; k_der : bytes -> bool; k_normalized : bytes -> bool;
    k_verify : program -> bytes -> bytes -> bool }.

(* script.cpp 12-43 *)
Definition verify_signature (K : sig_checks) (f : flag) (code : program) (sig pub : bytes) : result :=
  if has_flag FLAG_COMPRESSED f && negb (k_compressed K pub) then result_of_error E_NONCOMPRESSED_PUBKEY
  else if has_flag FLAG_STRICTENC f && negb (k_valid K pub) then result_of_error E_PUBKEYTYPE
  else
    let d := sig_directive sig in
    if negb (directive_valid d) then result_of_error E_SIG_HASHTYPE
    else if negb (has_flag FLAG_FORKID f) && has_fork_id d then result_of_error E_ILLEGAL_FORKID
    else if has_flag FLAG_REQUIRE_FORKID f && negb (has_fork_id d) then result_of_error E_MUST_USE_FORKID
    else if (has_flag FLAG_DERSIG f || has_flag FLAG_LOW_S f || has_flag FLAG_STRICTENC f) && negb (k_der K sig)
         then result_of_error E_SIG_DER
    else if has_flag FLAG_LOW_S f && negb (k_normalized K (sig_raw sig)) then result_of_error E_SIG_HIGH_S
    else if k_verify K code sig pub then result_of_bool true
    else if has_flag FLAG_NULLFAIL f && negb (len sig =? 0) then result_of_error E_SIG_NULLFAIL
    else result_of_bool false.

(* machine.hpp 15-45 without Halt and Result, which belong to the interpreter below.  The back of Exec
   and Else is the head of the list. OpCount is a long; it stays far below 2^63. *)
Record mstate : Type := { m_stack : stack; m_exec : list bool; m_else : list bool; m_ops : N }.

Definition M (A : Type) := mstate -> mres mstate A.

Definition lift {A} (f : SO A) : M A := fun m =>
  let put s := {| m_stack := s; m_exec := m_exec m; m_else := m_else m; m_ops := m_ops m |} in
  match f (m_stack m) with
  | Val a s => Val a (put s)
  | Stop r s => Stop r (put s)
  | Exc e s => Exc e (put s)
  | UB => UB
  end.

Definition fail {A} (e : serror) : M A := mstop (result_of_error e).
Definition throw {A} (e : serror) : M A := mthrow (X_script e).
Definition guard (ok : bool) (e : serror) : M unit := if ok then mret tt else fail e.
Definition get_size : M N := fun m => Val (size (m_stack m)) m.
Definition get_alt_size : M N := fun m => Val (alt_size (m_stack m)) m.
Definition get_main : M (list bytes) := fun m => Val (s_main (m_stack m)) m.
Definition need (k : N) (e : serror) : M unit := n <- get_size ;; guard (k <=? n) e.
Definition need_stack (k : N) : M unit := need k E_INVALID_STACK_OPERATION.

Definition top_at (i : Z) : M bytes := lift (top i).
Definition pop : M unit := lift pop_back.
Definition push_stack (x : bytes) : M unit := lift (push_back x).

Definition set_control (ex el : list bool) : M unit := fun m =>
  Val tt {| m_stack := m_stack m; m_exec := ex; m_else := el; m_ops := m_ops m |}.
Definition set_ops (n : N) : M unit := fun m =>
  Val tt {| m_stack := m_stack m; m_exec := m_exec m; m_else := m_else m; m_ops := n |}.
Definition get : M mstate := fun m => Val m m.

(* read_integer throws a script_exception, numbers.hpp 146-150 *)
Definition number (b : bytes) (minimal : bool) (max : N) : M bytes :=
  match read_integer b minimal max with inl e => throw e | inr n => mret n end.

(* the conversion to int of -n for an unsigned n, as in top (-i) *)
Definition neg_index (n : N) : Z := int32_of (2 ^ 64 - n mod 2 ^ 64).

(* machine.cpp 27-30 *)
Definition cleanup_script_code (code : program) (sig : bytes) : program :=
  if has_fork_id (sig_directive sig) then code else find_and_delete code (push sig).

(* machine.cpp 38-52 *)
Definition get_push_data (i : bytes) : bytes :=
  match i with
  | [] => []
  | o :: r =>
      if negb (is_push_data o) then []
      else if b2n o <=? 75 then r
      else if byte_eqb o OP_PUSHDATA1 then skipn 2 i
      else if byte_eqb o OP_PUSHDATA2 then skipn 3 i
      else skipn 5 i
  end.

(* Counter.to_last_code_separator () inside step: its exceptions are not script_exceptions *)
Definition code_of (c : counter) : M program :=
  match script_code c with
  | Ret p => mret p
  | Throw _ => mthrow X_other
  | Undef => mundef
  end.

Section Step.
Variable X : externals.
Variable doc : option rdoc.
Variable cf : config.

Notation flags := (c_flags cf).
(* machine.cpp 15, UtxoAfterGenesis *)
Definition genesis : bool := has_flag FLAG_GENESIS_OPCODES flags.
(* machine.cpp 16, RequireMinimal *)
Definition minimal : bool := has_flag FLAG_MINIMALDATA flags.
Definition num (b : bytes) : M bytes := number b minimal (c_max_num cf).

Definition discourage : M unit := guard (negb (has_flag FLAG_DISCOURAGE_NOPS flags)) E_DISCOURAGE_UPGRADABLE_NOPS.

(* machine.cpp 125-163; Config.check_locktime () is the flag itself, config.hpp 324-330 *)
Definition op_cltv : M unit :=
  if has_flag FLAG_CLTV flags then discourage
  else
    need_stack 1 ;;;
    t <- top_at (-1) ;; n <- number t minimal 5 ;;
    guard (negb (is_negative n)) E_NEGATIVE_LOCKTIME ;;;
    guard (match doc with None => true | Some d => d_locktime d (read_as_uint32 n) end) E_UNSATISFIED_LOCKTIME.

(* machine.cpp 165-196 *)
Definition op_csv : M unit :=
  if has_flag FLAG_CSV flags then discourage
  else
    need_stack 1 ;;;
    t <- top_at (-1) ;; n <- number t minimal 5 ;;
    guard (0 <=? sn_val n)%Z E_NEGATIVE_LOCKTIME ;;;
    (let nx := read_as_uint32 n in
     if N.testbit nx 31 then mstop (result_of_error E_OK)
     else guard (match doc with None => true | Some d => d_sequence d nx end) E_UNSATISFIED_LOCKTIME).

(* machine.cpp 207-229 *)
Definition op_if (negate : bool) : M unit :=
  need 1 E_UNBALANCED_CONDITIONAL ;;;
  v <- top_at (-1) ;;
  guard (negb (has_flag FLAG_MINIMALIF flags) ||
         negb ((1 <? len v) || (len v =? 1) && negb (byte_eqb (nth 0 v x00) x01))) E_MINIMALIF ;;;
  pop ;;;
  m <- get ;;
  set_control (xorb negate (nonzero v) :: m_exec m) (false :: m_else m).

(* machine.cpp 231-238 *)
Definition op_else : M unit :=
  m <- get ;;
  match m_exec m, m_else m with
  | [], _ => fail E_UNBALANCED_CONDITIONAL
  | _ :: _, [] => mundef
  | x :: ex, y :: el => if y && genesis then fail E_UNBALANCED_CONDITIONAL else set_control (negb x :: ex) (true :: el)
  end.

(* machine.cpp 240-244 *)
Definition op_endif : M unit :=
  m <- get ;;
  match m_exec m, m_else m with
  | [], _ => fail E_UNBALANCED_CONDITIONAL
  | _ :: _, [] => mundef
  | _ :: ex, _ :: el => set_control ex el
  end.

(* machine.cpp 246-254 *)
Definition op_verify : M unit :=
  need_stack 1 ;;; v <- top_at (-1) ;; if nonzero v then pop else fail E_VERIFY.

(* machine.cpp 256-261 *)
Definition op_return : M unit :=
  if genesis then (m <- get ;; match m_exec m with [] => mstop (result_of_bool true) | _ => mret tt end)
  else fail E_OP_RETURN.

(* machine.cpp 391-409: the index is computed in uint32 arithmetic and converted to int *)
Definition op_pick (roll : bool) : M unit :=
  need_stack 2 ;;;
  t <- top_at (-1) ;; n <- num t ;; pop ;;;
  s <- get_size ;;
  guard ((0 <=? sn_val n)%Z && (sn_val n <? Z.of_N s)%Z) E_INVALID_STACK_OPERATION ;;;
  (let i := int32_of (2 ^ 32 + (2 ^ 32 - 1) - read_as_uint32 n) in
   v <- top_at i ;;
   (if roll then lift (erase i) else mret tt) ;;;
   push_stack v).

(* machine.cpp 449-478 *)
Definition op_bitwise (f : byte -> byte -> byte) : M unit :=
  need_stack 2 ;;;
  a <- top_at (-2) ;; b <- top_at (-1) ;;
  guard (len a =? len b) E_INVALID_OPERAND_SIZE ;;;
  lift (update_top (-2) (zip_bytes f a b)) ;;;
  pop.

(* machine.cpp 480-488 *)
Definition op_invert : M unit :=
  need_stack 1 ;;; a <- top_at (-1) ;; lift (update_top (-1) (map byte_not a)).

(* machine.cpp 490-530 *)
Definition op_shift (sh : bytes -> Z -> option bytes) : M unit :=
  need_stack 2 ;;;
  t <- top_at (-1) ;; n <- num t ;;
  guard (0 <=? sn_val n)%Z E_INVALID_NUMBER_RANGE ;;;
  pop ;;;
  lift (modify_top (fun v => match shift_op sh n v with Some r => F_ok r | None => F_undef end)).

(* machine.cpp 532-556 *)
Definition op_equal (verify : bool) : M unit :=
  need_stack 2 ;;;
  a <- top_at (-2) ;; b <- top_at (-1) ;;
  (let eq := bytes_eqb a b in
   pop ;;; pop ;;; push_stack (sn_bool eq) ;;;
   if verify then (if eq then pop else fail E_EQUALVERIFY) else mret tt).

(* machine.cpp 561-607 *)
Definition op_unary (f : bytes -> bytes) : M unit :=
  need_stack 1 ;;;
  t <- top_at (-1) ;; n <- num t ;;
  pop ;;; push_stack (f n).

Definition on_value (f : Z -> Z) (n : bytes) : bytes := sn_enc (f (sn_val n)).
Definition u_2div (n : bytes) : bytes := sn_enc (Z.shiftr (if is_negative n then sn_val n + 1 else sn_val n)%Z 1).
Definition u_abs (n : bytes) : bytes := if is_negative n then sn_enc (- sn_val n) else n.
Definition u_not (n : bytes) : bytes := sn_bool (sn_val n =? 0)%Z.
Definition u_0notequal (n : bytes) : bytes := sn_bool (negb (sn_val n =? 0)%Z).

(* machine.cpp 609-703.  Line 626 does not return; line 628 then throws out_of_range. *)
Definition op_binary (f : bytes -> bytes -> serror + bytes) (verify : bool) : M unit :=
  a <- top_at (-2) ;; n1 <- num a ;;
  b <- top_at (-1) ;; n2 <- num b ;;
  match f n1 n2 with
  | inl e => fail e
  | inr n =>
      pop ;;; pop ;;; push_stack n ;;;
      if verify then (v <- top_at (-1) ;; if nonzero v then pop else fail E_NUMEQUALVERIFY) else mret tt
  end.

Definition b_arith (f : Z -> Z -> Z) (a b : bytes) : serror + bytes := inr (sn_enc (f (sn_val a) (sn_val b))).
Definition b_div (a b : bytes) : serror + bytes :=
  if is_zero b then inl E_DIV_BY_ZERO else inr (sn_enc (x_div X (sn_val a) (sn_val b))).
Definition b_mod (a b : bytes) : serror + bytes :=
  if is_zero b then inl E_MOD_BY_ZERO else inr (sn_enc (x_mod X (sn_val a) (sn_val b))).
Definition b_bool (f : Z -> Z -> bool) (a b : bytes) : serror + bytes := inr (sn_bool (f (sn_val a) (sn_val b))).
Definition b_min (a b : bytes) : serror + bytes := inr (if (sn_val a <? sn_val b)%Z then a else b).
Definition b_max (a b : bytes) : serror + bytes := inr (if (sn_val b <? sn_val a)%Z then a else b).

(* machine.cpp 705-719 *)
Definition op_within : M unit :=
  need_stack 3 ;;;
  a <- top_at (-3) ;; n1 <- num a ;;
  b <- top_at (-2) ;; n2 <- num b ;;
  c <- top_at (-1) ;; n3 <- num c ;;
  pop ;;; pop ;;; pop ;;;
  push_stack (sn_bool ((sn_val n2 <=? sn_val n1)%Z && (sn_val n1 <? sn_val n3)%Z)).

(* machine.cpp 723-736; hash.hpp: Hash160 is RIPEMD-160 of SHA-256, Hash256 is SHA-256 twice *)
Definition op_hash (h : bytes -> bytes) : M unit :=
  need_stack 1 ;;; t <- top_at (-1) ;; lift (replace_back (h t)).
Definition x_hash160 (b : bytes) : bytes := x_ripemd160 X (x_sha256 X b).
Definition x_hash256 (b : bytes) : bytes := x_sha256 X (x_sha256 X b).

(* machine.cpp 741-768.  A successful CHECKSIGVERIFY returns true from step. *)
Definition op_checksig (c : counter) (verify : bool) : M unit :=
  need_stack 2 ;;;
  sig <- top_at (-2) ;; pub <- top_at (-1) ;;
  r <- match doc with
       | None => mret (result_of_bool true)
       | Some d => code <- code_of c ;; mret (d_verify d (cleanup_script_code code sig) sig pub)
       end ;;
  guard (serror_is_ok (r_error r)) (r_error r) ;;;
  pop ;;; pop ;;; push_stack (sn_bool (r_success r)) ;;;
  if verify then
    if r_success r then pop ;;; mstop (result_of_bool true) else fail E_CHECKSIGVERIFY
  else mret tt.

(* machine.cpp 823-852.  [fuel] bounds the number of keys tried; it starts at the number of keys and
   one key is used per turn, so that running out means no signatures are left. *)
Fixpoint multisig_loop (code : option (rdoc * program)) (fuel : nat) (isig ikey nsigs nkeys : N) : M bool :=
  if nsigs =? 0 then mret true
  else match fuel with
       | O => mret false
       | S k =>
           sig <- top_at (neg_index isig) ;; pub <- top_at (neg_index ikey) ;;
           (let r := match code with None => result_of_bool true | Some (d, p) => d_verify d p sig pub end in
            guard (serror_is_ok (r_error r)) (r_error r) ;;;
            (let nsigs' := if r_success r then nsigs - 1 else nsigs in
             let isig' := if r_success r then isig + 1 else isig in
             if nkeys - 1 <? nsigs' then mret false
             else multisig_loop code k isig' (ikey + 1) nsigs' (nkeys - 1)))
       end.

(* machine.cpp 856-868; [ikey2] counts down the elements that are not signatures *)
Fixpoint multisig_cleanup (k : nat) (failed : bool) (ikey2 : N) : M unit :=
  match k with
  | O => mret tt
  | S k' =>
      (if failed && has_flag FLAG_NULLFAIL flags && (ikey2 =? 0)
       then t <- top_at (-1) ;; guard (len t =? 0) E_SIG_NULLFAIL
       else mret tt) ;;;
      pop ;;; multisig_cleanup k' failed (ikey2 - 1)
  end.

(* machine.cpp 770-892.  The strings removed from the script code (lines 817-818) are the elements
   1 .. nSigs counted from the bottom of the stack. MAXIMUM_ELEMENT_SIZE is 4 (numbers.hpp). *)
Definition op_checkmultisig (c : counter) (verify : bool) : M unit :=
  need_stack 1 ;;;
  t <- top_at (neg_index 1) ;; nk <- number t minimal 4 ;;
  guard (0 <=? sn_val nk)%Z E_PUBKEY_COUNT ;;;
  (let nkeys := Z.to_N (sn_val nk) in
   guard (nkeys <=? c_max_keys cf) E_PUBKEY_COUNT ;;;
   m <- get ;; set_ops (m_ops m + nkeys) ;;;
   guard (m_ops m + nkeys <=? c_max_ops cf) E_OP_COUNT ;;;
   need_stack (nkeys + 2) ;;;
   u <- top_at (neg_index (nkeys + 2)) ;; ns <- number u minimal 4 ;;
   guard (0 <=? sn_val ns)%Z E_SIG_COUNT ;;;
   (let nsigs := Z.to_N (sn_val ns) in
    guard (nsigs <=? nkeys) E_SIG_COUNT ;;;
    need_stack (nkeys + nsigs + 3) ;;;
    code <- match doc with
            | None => mret None
            | Some d =>
                p <- code_of c ;; st <- get_main ;;
                mret (Some (d, fold_left cleanup_script_code (firstn (N.to_nat nsigs) (skipn 1 (rev st))) p))
            end ;;
    ok <- multisig_loop code (N.to_nat nkeys) (nkeys + 3) 2 nsigs nkeys ;;
    multisig_cleanup (N.to_nat (nkeys + nsigs + 2)) (negb ok) (nkeys + 2) ;;;
    need_stack 1 ;;;
    d <- top_at (-1) ;;
    guard (negb (has_flag FLAG_NULLDUMMY flags) || (len d =? 0)) E_SIG_NULLDUMMY ;;;
    pop ;;; push_stack (sn_bool ok) ;;;
    if verify then
      if ok then pop ;;; mstop (result_of_bool true) else fail E_CHECKMULTISIGVERIFY
    else mret tt)).

(* machine.cpp 897-911 *)
Definition op_cat : M unit :=
  need_stack 2 ;;; v <- top_at (-1) ;; pop ;;; lift (modify_top (fun x => F_ok (x ++ v))).

(* machine.cpp 913-943; resizing to data.size () - position beyond the end throws length_error *)
Definition op_split : M unit :=
  need_stack 2 ;;;
  d <- top_at (-2) ;; t <- top_at (-1) ;; n <- num t ;;
  guard ((0 <=? sn_val n)%Z && (sn_val n <=? Z.of_N (len d))%Z) E_INVALID_SPLIT_RANGE ;;;
  (let p := read_as_uint32 n in
   if len d <? p then mthrow X_other
   else pop ;;; pop ;;; push_stack (firstn (N.to_nat p) d) ;;; push_stack (skipn (N.to_nat p) d)).

(* machine.cpp 948-968 *)
Definition op_num2bin : M unit :=
  need_stack 2 ;;;
  t <- top_at (-1) ;; n <- num t ;;
  guard ((0 <=? sn_val n)%Z && (sn_val n <=? INT32_MAX)%Z) E_PUSH_SIZE ;;;
  (let size := read_as_uint32 n in
   guard (genesis || (size <=? MAX_ELEMENT_BEFORE_GENESIS)) E_PUSH_SIZE ;;;
   pop ;;;
   lift (modify_top (fun x => if size <? len x then F_throw (X_script E_IMPOSSIBLE_ENCODING) x
                              else F_ok (extend_number x size)))).

(* machine.cpp 971-981 *)
Definition op_bin2num : M unit :=
  need_stack 1 ;;;
  lift (modify_top (fun x => let y := trim_number x in
                             if c_max_num cf <? len y then F_throw (X_script E_INVALID_NUMBER_RANGE) y else F_ok y)).

(* machine.cpp 983-1006; copying from outside the string is undefined *)
Definition op_substr : M unit :=
  need_stack 3 ;;;
  d <- top_at (-3) ;; t <- top_at (-1) ;; l <- num t ;; u <- top_at (-2) ;; p <- num u ;;
  guard ((0 <=? sn_val p)%Z && (sn_val p <=? Z.of_N (len d))%Z) E_INVALID_SPLIT_RANGE ;;;
  guard ((0 <=? sn_val l)%Z && (sn_val p + sn_val l <=? Z.of_N (len d))%Z) E_INVALID_SPLIT_RANGE ;;;
  (let pos := read_as_uint32 p in
   let length := read_as_uint32 l in
   if len d <? pos + length then mundef
   else pop ;;; pop ;;; pop ;;; push_stack (firstn (N.to_nat length) (skipn (N.to_nat pos) d))).

(* machine.cpp 1008-1052 *)
Definition op_left (right : bool) : M unit :=
  need_stack 2 ;;;
  d <- top_at (-2) ;; t <- top_at (-1) ;; n <- num t ;;
  guard ((0 <=? sn_val n)%Z && (sn_val n <=? Z.of_N (len d))%Z) E_INVALID_SPLIT_RANGE ;;;
  (let p := read_as_uint32 n in
   if len d <? p then mundef
   else pop ;;; pop ;;;
        push_stack (if right then skipn (N.to_nat (len d - p)) d else firstn (N.to_nat p) d)).

(* the switch, machine.cpp 91-1059, for an executed opcode other than a data push *)
Definition exec_op (c : counter) (o : byte) : M unit :=
  match o with
  | OP_1NEGATE => push_stack (sn_enc (-1))
  | OP_1 | x52 | x53 | x54 | x55 | x56 | x57 | x58 | x59 | x5a | x5b | x5c | x5d | x5e | x5f | OP_16 =>
      push_stack (sn_enc (Z.of_N (b2n o) - 0x50))
  | OP_NOP | OP_CODESEPARATOR => mret tt
  | OP_CHECKLOCKTIMEVERIFY => op_cltv
  | OP_CHECKSEQUENCEVERIFY => op_csv
  | OP_NOP1 | OP_NOP7 | OP_NOP8 | OP_NOP9 | OP_NOP10 => discourage
  | OP_IF => op_if false
  | OP_NOTIF => op_if true
  | OP_ELSE => op_else
  | OP_ENDIF => op_endif
  | OP_VERIFY => op_verify
  | OP_RETURN => op_return
  | OP_TOALTSTACK => need_stack 1 ;;; lift to_alt
  | OP_FROMALTSTACK => (n <- get_alt_size ;; guard (1 <=? n) E_INVALID_ALTSTACK_OPERATION) ;;; lift from_alt
  | OP_2DROP => need_stack 2 ;;; pop ;;; pop
  | OP_2DUP => need_stack 2 ;;; a <- top_at (-2) ;; b <- top_at (-1) ;; push_stack a ;;; push_stack b
  | OP_3DUP => need_stack 3 ;;; a <- top_at (-3) ;; b <- top_at (-2) ;; c <- top_at (-1) ;;
               push_stack a ;;; push_stack b ;;; push_stack c
  | OP_2OVER => need_stack 4 ;;; a <- top_at (-4) ;; b <- top_at (-3) ;; push_stack a ;;; push_stack b
  | OP_2ROT => need_stack 6 ;;; a <- top_at (-6) ;; b <- top_at (-5) ;;
               lift (erase_range (-6) (-4)) ;;; push_stack a ;;; push_stack b
  | OP_2SWAP => need_stack 4 ;;; lift (swap 4 2) ;;; lift (swap 3 1)
  | OP_IFDUP => need_stack 1 ;;; a <- top_at (-1) ;; if nonzero a then push_stack a else mret tt
  | OP_DEPTH => n <- get_size ;; push_stack (sn_enc (Z.of_N n))
  | OP_DROP => need_stack 1 ;;; pop
  | OP_DUP => need_stack 1 ;;; a <- top_at (-1) ;; push_stack a
  | OP_NIP => need_stack 2 ;;; lift (erase (-2))
  | OP_OVER => need_stack 2 ;;; a <- top_at (-2) ;; push_stack a
  | OP_PICK => op_pick false
  | OP_ROLL => op_pick true
  | OP_ROT => need_stack 3 ;;; lift (swap 3 2) ;;; lift (swap 2 1)
  | OP_SWAP => need_stack 2 ;;; lift (swap 2 1)
  | OP_TUCK => need_stack 2 ;;; a <- top_at (-1) ;; lift (insert (-2) a)
  | OP_SIZE => need_stack 1 ;;; a <- top_at (-1) ;; push_stack (sn_enc (Z.of_N (len a)))
  | OP_AND => op_bitwise byte_and
  | OP_OR => op_bitwise byte_or
  | OP_XOR => op_bitwise byte_xor
  | OP_INVERT => op_invert
  | OP_LSHIFT => op_shift left_shift
  | OP_RSHIFT => op_shift right_shift
  | OP_EQUAL => op_equal false
  | OP_EQUALVERIFY => op_equal true
  | OP_1ADD => op_unary (on_value (fun z => z + 1)%Z)
  | OP_1SUB => op_unary (on_value (fun z => z - 1)%Z)
  | OP_2MUL => op_unary (on_value (fun z => Z.shiftl z 1))
  | OP_2DIV => op_unary u_2div
  | OP_NEGATE => op_unary (on_value Z.opp)
  | OP_ABS => op_unary u_abs
  | OP_NOT => op_unary u_not
  | OP_0NOTEQUAL => op_unary u_0notequal
  | OP_ADD => op_binary (b_arith Z.add) false
  | OP_SUB => op_binary (b_arith Z.sub) false
  | OP_MUL => op_binary (b_arith Z.mul) false
  | OP_DIV => op_binary b_div false
  | OP_MOD => op_binary b_mod false
  | OP_BOOLAND => op_binary (b_bool (fun a b => negb (a =? 0)%Z && negb (b =? 0)%Z)) false
  | OP_BOOLOR => op_binary (b_bool (fun a b => negb (a =? 0)%Z || negb (b =? 0)%Z)) false
  | OP_NUMEQUAL => op_binary (b_bool Z.eqb) false
  | OP_NUMEQUALVERIFY => op_binary (b_bool Z.eqb) true
  | OP_NUMNOTEQUAL => op_binary (b_bool (fun a b => negb (Z.eqb a b))) false
  | OP_LESSTHAN => op_binary (b_bool Z.ltb) false
  | OP_GREATERTHAN => op_binary (b_bool Z.gtb) false
  | OP_LESSTHANOREQUAL => op_binary (b_bool Z.leb) false
  | OP_GREATERTHANOREQUAL => op_binary (b_bool Z.geb) false
  | OP_MIN => op_binary b_min false
  | OP_MAX => op_binary b_max false
  | OP_WITHIN => op_within
  | OP_RIPEMD160 => op_hash (x_ripemd160 X)
  | OP_SHA1 => op_hash (x_sha1 X)
  | OP_SHA256 => op_hash (x_sha256 X)
  | OP_HASH160 => op_hash x_hash160
  | OP_HASH256 => op_hash x_hash256
  | OP_CHECKSIG => op_checksig c false
  | OP_CHECKSIGVERIFY => op_checksig c true
  | OP_CHECKMULTISIG => op_checkmultisig c false
  | OP_CHECKMULTISIGVERIFY => op_checkmultisig c true
  | OP_CAT => op_cat
  | OP_SPLIT => op_split
  | OP_NUM2BIN => op_num2bin
  | OP_BIN2NUM => op_bin2num
  | OP_SUBSTR => op_substr
  | OP_LEFT => op_left false
  | OP_RIGHT => op_left true
  | _ => fail E_BAD_OPCODE
  end.

(* machine.cpp 68-72 *)
Definition end_of_script : M unit :=
  n <- get_size ;;
  guard (negb (has_flag FLAG_CLEANSTACK flags) || (n =? 1)) E_CLEANSTACK ;;;
  if n =? 0 then mstop (result_of_bool false)
  else t <- top_at (-1) ;; mstop (result_of_bool (nonzero t)).

(* machine.cpp 19-25 and 80 *)
Definition count_op (o : byte) : M unit :=
  if b2n OP_16 <? b2n o then
    m <- get ;; set_ops (m_ops m + 1) ;;; guard (m_ops m + 1 <=? c_max_ops cf) E_OP_COUNT
  else mret tt.

(* machine.cpp 66-1063.  Config.disabled is constantly false (config.cpp 80-90). *)
Definition step (c : counter) : M unit :=
  match pc_next c with
  | [] => end_of_script
  | o :: _ =>
      count_op o ;;;
      m <- get ;;
      if existsb negb (m_exec m) then mret tt
      else if b2n o <=? b2n OP_PUSHDATA4 then push_stack (get_push_data (pc_next c))
      else exec_op c o
  end.

(* interpreter.cpp 86-103 *)
Definition error_of (e : mexn) : serror :=
  match e with
  | X_script e => e
  | X_range => E_INVALID_STACK_OPERATION
  | X_other => E_UNKNOWN_ERROR
  end.

(* interpreter.hpp 12-28 with the Halt and Result fields of machine *)
Record interp : Type := { in_state : mstate; in_halt : bool; in_result : result; in_counter : counter }.

(* interpreter.cpp 72-76 under catch_all_errors, and 105-112; [None] is undefined behaviour *)
Definition interp_step (i : interp) : option interp :=
  if in_halt i then Some i
  else match step (in_counter i) (in_state i) with
       | Val _ m =>
           match pc_step (in_counter i) with
           | Ret c => Some {| in_state := m; in_halt := false; in_result := in_result i; in_counter := c |}
           | _ => None
           end
       | Stop r m => Some {| in_state := m; in_halt := true; in_result := r; in_counter := in_counter i |}
       | Exc e m => Some {| in_state := m; in_halt := true; in_result := result_of_error (error_of e);
                            in_counter := in_counter i |}
       | UB => None
       end.

(* interpreter.cpp 78-84 under catch_all_errors; [Throw tt]: out of fuel *)
Fixpoint machine_run (fuel : nat) (c : counter) (m : mstate) : outcome unit (result * mstate * counter) :=
  match fuel with
  | O => Throw tt
  | S k =>
      match step c m with
      | Val _ m' =>
          match pc_step c with
          | Ret c' => machine_run k c' m'
          | _ => Undef
          end
      | Stop r m' => Ret (r, m', c)
      | Exc e m' => Ret (result_of_error (error_of e), m', c)
      | UB => Undef
      end
  end.

(* interpreter.cpp 114-121.  The fuel is one more than the number of bytes left. *)
Definition run_fuel (c : counter) : nat := S (length (pc_script c) - N.to_nat (pc_pos c)).
Definition interp_run (i : interp) : outcome unit interp :=
  if in_halt i then Ret i
  else match machine_run (run_fuel (in_counter i)) (in_counter i) (in_state i) with
       | Ret (r, m, c) => Ret {| in_state := m; in_halt := true; in_result := r; in_counter := c |}
       | Throw e => Throw e
       | Undef => Undef
       end.

(* machine.hpp 39-42 and machine.cpp 13-17 *)
Definition machine0 : mstate :=
  {| m_stack := stack0 (if has_flag FLAG_GENESIS_STACK flags then Memory (c_max_memory cf)
                        else Count MAX_ELEMENT_BEFORE_GENESIS MAX_ELEMENTS_BEFORE_GENESIS);
     m_exec := []; m_else := []; m_ops := 0 |}.

(* interpreter.cpp 14-28: the program to run and the initial result.  Only invalid_program is caught. *)
Definition setup_program (neg1 ux lx : bytes) : outcome sexn (program * result) :=
  let caught x := match x with
                  | Throw (X_Invalid e) => Ret ([], result_of_error e)
                  | _ => x
                  end in
  caught
    match decompile ux with
    | Throw e => Throw e
    | Undef => Undef
    | Ret unlock =>
        match decompile lx with
        | Throw e => Throw e
        | Undef => Undef
        | Ret lock =>
            match full neg1 unlock lock (has_flag FLAG_P2SH flags), is_P2SH_program lock with
            | Throw e, _ => Throw e
            | Ret p, Some p2sh =>
                Ret (p, if has_flag FLAG_SIGPUSHONLY flags && negb (is_push_program unlock)
                        then result_of_error E_SIG_PUSHONLY
                        else if has_flag FLAG_P2SH flags && p2sh then
                          match unlock with
                          | [] => result_of_error E_INVALID_STACK_OPERATION
                          | _ => if negb (is_push_program unlock) then result_of_error E_SIG_PUSHONLY
                                 else result_of_bool false
                          end
                        else result_of_error (pre_verify p flags))
            | _, _ => Undef
            end
        end
    end.

(* interpreter.cpp 11-44.  A throw here leaves the constructor of interpreter. *)
Definition interpreter (neg1 ux lx : bytes) : outcome sexn interp :=
  match setup_program neg1 ux lx with
  | Ret (p, r) =>
      match compile p with
      | None => Undef
      | Some s =>
          match pc_start s with
          | Ret c => Ret {| in_state := machine0; in_halt := negb (serror_is_ok (r_error r)); in_result := r;
                            in_counter := c |}
          | _ => Undef
          end
      end
  | Throw e => Throw e
  | Undef => Undef
  end.

(* interpreter.hpp 34-42.  [Throw X_Fuel] from run is proved impossible. *)
Definition evaluate (neg1 ux lx : bytes) : outcome sexn result :=
  match interpreter neg1 ux lx with
  | Ret i => match interp_run i with
             | Ret j => Ret (in_result j)
             | Throw _ => Throw X_Fuel
             | Undef => Undef
             end
  | Throw e => Throw e
  | Undef => Undef
  end.
End Step.
