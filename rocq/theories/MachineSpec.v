(* What each opcode that only moves data does to the two stacks: a table over plain lists of strings
   and mathematical integers.  The head of a list is the top of the stack.  [None]: the opcode fails. *)
From Verif Require Import Base ScriptModel NumModel NumSpec StackModel StackSpec MachineModel.
Local Open Scope N_scope.

Section Table.
Variable X : externals.
Variable cf : config.

(* the integer in a numeric operand, if the operand is acceptable *)
Definition operand (b : bytes) : option Z :=
  if (len b <=? c_max_num cf) && (negb (minimal cf) || is_minimal_number b) then Some (sn_val b) else None.

Definition stacks : Type := (list bytes * list bytes)%type.

Definition with1 (s : list bytes) (f : bytes -> list bytes -> option stacks) : option stacks :=
  match s with x :: r => f x r | _ => None end.
Definition with2 (s : list bytes) (f : bytes -> bytes -> list bytes -> option stacks) : option stacks :=
  match s with y :: x :: r => f x y r | _ => None end.
Definition with3 (s : list bytes) (f : bytes -> bytes -> bytes -> list bytes -> option stacks) : option stacks :=
  match s with z :: y :: x :: r => f x y z r | _ => None end.

Definition unary (s a : list bytes) (f : Z -> Z) : option stacks :=
  with1 s (fun x r => match operand x with Some n => Some (sn_enc (f n) :: r, a) | None => None end).
Definition binary (s a : list bytes) (f : Z -> Z -> option Z) : option stacks :=
  with2 s (fun x y r =>
    match operand x, operand y with
    | Some n, Some m => match f n m with Some k => Some (sn_enc k :: r, a) | None => None end
    | _, _ => None
    end).
Definition compare (s a : list bytes) (f : Z -> Z -> bool) : option stacks :=
  binary s a (fun n m => Some (if f n m then 1 else 0)%Z).
Definition nonzeroZ (z : Z) : bool := negb (z =? 0)%Z.

Definition hash (s a : list bytes) (h : bytes -> bytes) : option stacks := with1 s (fun x r => Some (h x :: r, a)).

Definition bitwise (s a : list bytes) (f : bytes -> bytes -> bytes) : option stacks :=
  with2 s (fun x y r => if len x =? len y then Some (f x y :: r, a) else None).

(* an operand that is used as a length or position *)
Definition index (b : bytes) (max : N) : option N :=
  match operand b with
  | Some z => if (0 <=? z)%Z && (z <=? Z.of_N max)%Z then Some (Z.to_N z) else None
  | None => None
  end.

Definition take (n : N) (b : bytes) : bytes := firstn (N.to_nat n) b.
Definition drop (n : N) (b : bytes) : bytes := skipn (N.to_nat n) b.

(* the bytewise combination described by bits of the numbers the strings spell *)
Definition combine (f : N -> N -> N) (x y : bytes) : bytes := le (length x) (f (le_val x) (le_val y)).
Definition complement (x : bytes) : bytes := le (length x) (pow256 (length x) - 1 - le_val x).

Definition effect (o : byte) (s a : list bytes) : option stacks :=
  match o with
  | OP_1NEGATE => Some (sn_enc (-1) :: s, a)
  | OP_1 | x52 | x53 | x54 | x55 | x56 | x57 | x58 | x59 | x5a | x5b | x5c | x5d | x5e | x5f | OP_16 =>
      Some (sn_enc (Z.of_N (b2n o) - 80) :: s, a)
  | OP_NOP | OP_CODESEPARATOR => Some (s, a)
  | OP_NOP1 | OP_NOP7 | OP_NOP8 | OP_NOP9 | OP_NOP10 =>
      if has_flag FLAG_DISCOURAGE_NOPS (c_flags cf) then None else Some (s, a)
  | OP_VERIFY => with1 s (fun x r => if nonzeroZ (sn_val x) then Some (r, a) else None)
  | OP_TOALTSTACK => with1 s (fun x r => Some (r, x :: a))
  | OP_FROMALTSTACK => match a with x :: a' => Some (x :: s, a') | [] => None end
  | OP_2DROP => with2 s (fun _ _ r => Some (r, a))
  | OP_2DUP => with2 s (fun x y r => Some (y :: x :: y :: x :: r, a))
  | OP_3DUP => with3 s (fun x y z r => Some (z :: y :: x :: z :: y :: x :: r, a))
  | OP_2OVER => match s with x4 :: x3 :: x2 :: x1 :: r => Some (x2 :: x1 :: x4 :: x3 :: x2 :: x1 :: r, a) | _ => None end
  | OP_2ROT => match s with
               | x6 :: x5 :: x4 :: x3 :: x2 :: x1 :: r => Some (x2 :: x1 :: x6 :: x5 :: x4 :: x3 :: r, a)
               | _ => None
               end
  | OP_2SWAP => match s with x4 :: x3 :: x2 :: x1 :: r => Some (x2 :: x1 :: x4 :: x3 :: r, a) | _ => None end
  | OP_IFDUP => with1 s (fun x r => Some (if nonzeroZ (sn_val x) then x :: x :: r else x :: r, a))
  | OP_DEPTH => Some (sn_enc (Z.of_nat (length s)) :: s, a)
  | OP_DROP => with1 s (fun _ r => Some (r, a))
  | OP_DUP => with1 s (fun x r => Some (x :: x :: r, a))
  | OP_NIP => with2 s (fun _ y r => Some (y :: r, a))
  | OP_OVER => with2 s (fun x y r => Some (x :: y :: x :: r, a))
  | OP_PICK => with1 s (fun n r =>
      match index n (N.of_nat (length r)) with
      | Some i => match nth_error r (N.to_nat i) with Some x => Some (x :: r, a) | None => None end
      | None => None
      end)
  | OP_ROLL => with1 s (fun n r =>
      match index n (N.of_nat (length r)) with
      | Some i => match nth_error r (N.to_nat i) with
                  | Some x => Some (x :: firstn (N.to_nat i) r ++ skipn (N.to_nat i + 1) r, a)
                  | None => None
                  end
      | None => None
      end)
  | OP_ROT => with3 s (fun x y z r => Some (x :: z :: y :: r, a))
  | OP_SWAP => with2 s (fun x y r => Some (x :: y :: r, a))
  | OP_TUCK => with2 s (fun x y r => Some (y :: x :: y :: r, a))
  | OP_SIZE => with1 s (fun x r => Some (sn_enc (Z.of_nat (length x)) :: x :: r, a))
  | OP_AND => bitwise s a (combine N.land)
  | OP_OR => bitwise s a (combine N.lor)
  | OP_XOR => bitwise s a (combine N.lxor)
  | OP_INVERT => with1 s (fun x r => Some (complement x :: r, a))
  | OP_LSHIFT => with2 s (fun x n r =>
      match operand n with
      | Some z => if (z <? 0)%Z then None else Some (shl_bits x (Z.to_N z) :: r, a)
      | None => None
      end)
  | OP_RSHIFT => with2 s (fun x n r =>
      match operand n with
      | Some z => if (z <? 0)%Z then None else Some (shr_bits x (Z.to_N z) :: r, a)
      | None => None
      end)
  | OP_EQUAL => with2 s (fun x y r => Some (sn_enc (if bytes_eqb x y then 1 else 0) :: r, a))
  | OP_EQUALVERIFY => with2 s (fun x y r => if bytes_eqb x y then Some (r, a) else None)
  | OP_1ADD => unary s a (fun n => n + 1)%Z
  | OP_1SUB => unary s a (fun n => n - 1)%Z
  | OP_2MUL => unary s a (fun n => n * 2)%Z
  | OP_2DIV => unary s a (fun n => Z.quot n 2)
  | OP_NEGATE => unary s a (fun n => - n)%Z
  | OP_ABS => with1 s (fun x r =>
      match operand x with Some n => Some ((if (n <? 0)%Z then sn_enc (- n) else x) :: r, a) | None => None end)
  | OP_NOT => unary s a (fun n => if (n =? 0)%Z then 1 else 0)%Z
  | OP_0NOTEQUAL => unary s a (fun n => if (n =? 0)%Z then 0 else 1)%Z
  | OP_ADD => binary s a (fun n m => Some (n + m)%Z)
  | OP_SUB => binary s a (fun n m => Some (n - m)%Z)
  | OP_MUL => binary s a (fun n m => Some (n * m)%Z)
  | OP_DIV => binary s a (fun n m => if (m =? 0)%Z then None else Some (Z.quot n m))
  | OP_MOD => binary s a (fun n m => if (m =? 0)%Z then None else Some (Z.rem n m))
  | OP_BOOLAND => compare s a (fun n m => nonzeroZ n && nonzeroZ m)
  | OP_BOOLOR => compare s a (fun n m => nonzeroZ n || nonzeroZ m)
  | OP_NUMEQUAL => compare s a Z.eqb
  | OP_NUMEQUALVERIFY => with2 s (fun x y r =>
      match operand x, operand y with
      | Some n, Some m => if (n =? m)%Z then Some (r, a) else None
      | _, _ => None
      end)
  | OP_NUMNOTEQUAL => compare s a (fun n m => negb (n =? m)%Z)
  | OP_LESSTHAN => compare s a Z.ltb
  | OP_GREATERTHAN => compare s a (fun n m => m <? n)%Z
  | OP_LESSTHANOREQUAL => compare s a Z.leb
  | OP_GREATERTHANOREQUAL => compare s a (fun n m => m <=? n)%Z
  | OP_MIN => with2 s (fun x y r =>
      match operand x, operand y with
      | Some n, Some m => Some ((if (n <? m)%Z then x else y) :: r, a)
      | _, _ => None
      end)
  | OP_MAX => with2 s (fun x y r =>
      match operand x, operand y with
      | Some n, Some m => Some ((if (m <? n)%Z then x else y) :: r, a)
      | _, _ => None
      end)
  | OP_WITHIN => with3 s (fun x lo hi r =>
      match operand x, operand lo, operand hi with
      | Some n, Some l, Some h => Some (sn_enc (if (l <=? n)%Z && (n <? h)%Z then 1 else 0) :: r, a)
      | _, _, _ => None
      end)
  | OP_RIPEMD160 => hash s a (x_ripemd160 X)
  | OP_SHA1 => hash s a (x_sha1 X)
  | OP_SHA256 => hash s a (x_sha256 X)
  | OP_HASH160 => hash s a (fun x => x_ripemd160 X (x_sha256 X x))
  | OP_HASH256 => hash s a (fun x => x_sha256 X (x_sha256 X x))
  | OP_CAT => with2 s (fun x y r => Some ((x ++ y) :: r, a))
  | OP_SPLIT => with2 s (fun x n r =>
      match index n (len x) with Some i => Some (drop i x :: take i x :: r, a) | None => None end)
  | OP_NUM2BIN => with2 s (fun x n r =>
      match index n (if genesis cf then 2 ^ 31 - 1 else 520) with
      | Some k => if len x <=? k then Some (extend_number x k :: r, a) else None
      | None => None
      end)
  | OP_BIN2NUM => with1 s (fun x r =>
      if len (sn_enc (sn_val x)) <=? c_max_num cf then Some (sn_enc (sn_val x) :: r, a) else None)
  | OP_SUBSTR => with3 s (fun x p n r =>
      match index p (len x) with
      | Some i => match index n (len x - i) with Some k => Some (take k (drop i x) :: r, a) | None => None end
      | None => None
      end)
  | OP_LEFT => with2 s (fun x n r => match index n (len x) with Some i => Some (take i x :: r, a) | None => None end)
  | OP_RIGHT => with2 s (fun x n r =>
      match index n (len x) with Some i => Some (drop (len x - i) x :: r, a) | None => None end)
  | _ => None
  end.

(* opcodes that read the transaction or change the flow of control *)
Definition impure (o : byte) : bool :=
  match o with
  | OP_IF | OP_NOTIF | OP_ELSE | OP_ENDIF | OP_RETURN | OP_CHECKSIG | OP_CHECKSIGVERIFY | OP_CHECKMULTISIG
  | OP_CHECKMULTISIGVERIFY | OP_CHECKLOCKTIMEVERIFY | OP_CHECKSEQUENCEVERIFY => true
  | _ => false
  end.

(* zero written with a sign bit, e.g. 0x80 *)
Definition negative_zero (b : bytes) : Prop := sn_val b = 0%Z /\ le_val b <> 0.

(* opcodes whose top operand (top two, for SUBSTR) is a position or a length *)
Definition positional (o : byte) : bool :=
  match o with
  | OP_PICK | OP_ROLL | OP_LSHIFT | OP_RSHIFT | OP_SPLIT | OP_NUM2BIN | OP_SUBSTR | OP_LEFT | OP_RIGHT => true
  | _ => false
  end.
Definition positions (o : byte) : nat := match o with OP_SUBSTR => 2 | _ => 1 end.
Definition no_negative_zero (o : byte) (s : list bytes) : Prop :=
  minimal cf = true \/ Forall (fun b => ~ negative_zero b) (firstn (positions o) s).

(* sizes that fit the 32-bit arithmetic of the code *)
Definition small (s : list bytes) : Prop := N.of_nat (length s) < 2 ^ 31 /\ Forall (fun x => len x < 2 ^ 31) s.

(* division truncates toward zero; hash values are short *)
Definition truncating : Prop :=
  forall n m, m <> 0%Z -> x_div X n m = Z.quot n m /\ x_mod X n m = Z.rem n m.
Definition short_hashes : Prop :=
  forall b, len (x_ripemd160 X b) < 2 ^ 31 /\ len (x_sha1 X b) < 2 ^ 31 /\ len (x_sha256 X b) < 2 ^ 31.

(* the limits admit a one-byte string; every machine of the library has 520 or a memory limit *)
Definition roomy (l : limits) : Prop := match l with Count msize _ => 1 <= msize | Memory _ => True end.

(* the outcome of an opcode against the table *)
Definition agrees (m : mstate) (out : mres mstate unit) (e : option stacks) : Prop :=
  match out with
  | Val _ m' => exists s a, e = Some (s, a) /\ becomes (m_stack m) (m_stack m') s a /\
                            m_exec m' = m_exec m /\ m_else m' = m_else m /\ m_ops m' = m_ops m
  | Stop r m' => r_verify r = false /\ r_error r <> E_OK /\ e = None
  | Exc _ _ => forall s a, e = Some (s, a) -> ~ fits (s_lim (m_stack m)) s a
  | UB => False
  end.
End Table.

(* ---- whole runs ---- *)

(* single-stepping *)
Fixpoint interp_steps (X : externals) (doc : option rdoc) (cf : config) (k : nat) (i : interp) : option interp :=
  match k with
  | O => Some i
  | S k' => match interp_step X doc cf i with Some j => interp_steps X doc cf k' j | None => None end
  end.

(* the state at rest: within the limits, one Else entry for each Exec entry *)
Definition sound (m : mstate) : Prop := good (m_stack m) /\ length (m_exec m) = length (m_else m).

(* limits that keep every string below 2^31 bytes *)
Definition bounded (l : limits) : Prop :=
  match l with Count msize melem => msize < 2 ^ 31 /\ melem < 2 ^ 31 | Memory max => max < 2 ^ 31 end.

(* what is left of the result of a run in which nothing more is executed *)
Definition verdict (cf : config) (stack : list bytes) : result :=
  if has_flag FLAG_CLEANSTACK (c_flags cf) && negb (N.of_nat (length stack) =? 1) then result_of_error E_CLEANSTACK
  else match stack with [] => result_of_bool false | x :: _ => result_of_bool (nonzeroZ (sn_val x)) end.

(* opcodes that count towards the limit on operations *)
Definition counted (l : list byte) : N := N.of_nat (length (filter (fun o => b2n OP_16 <? b2n o) l)).

(* the counter in front of instruction k of a script, the last separator being just before instruction j *)
Definition counter_at (s : list bytes) (j k : nat) : counter :=
  {| pc_next := nth k s []; pc_script := concat s; pc_pos := len (concat (firstn k s)); pc_sep := len (concat (firstn j s)) |}.

(* the outcome when the instructions l are only counted, n having been counted before *)
Definition skipped (cf : config) (n : N) (l : list byte) (stack : list bytes) : result :=
  if n + counted l <=? c_max_ops cf then verdict cf stack else result_of_error E_OP_COUNT.

(* every condition that encloses the current instruction is true *)
Definition running (m : mstate) : bool := forallb (fun b => b) (m_exec m).

(* The conditionals of the script language: while a branch is skipped, IF and NOTIF open a skipped level, ELSE
   and ENDIF act on the innermost level, and everything else is ignored. *)
Section Reference.
Variable X : externals.
Variable doc : option rdoc.
Variable cf : config.
Definition ref_step (c : counter) : M unit :=
  match pc_next c with
  | [] => end_of_script cf
  | o :: _ =>
      count_op cf o ;;;
      m <- get ;;
      if running m then
        if b2n o <=? b2n OP_PUSHDATA4 then push_stack (get_push_data (pc_next c)) else exec_op X doc cf c o
      else if byte_eqb o OP_IF || byte_eqb o OP_NOTIF then set_control (false :: m_exec m) (false :: m_else m)
      else if byte_eqb o OP_ELSE then op_else cf
      else if byte_eqb o OP_ENDIF then op_endif
      else mret tt
  end.
Fixpoint ref_run (fuel : nat) (c : counter) (m : mstate) : outcome unit (result * mstate * counter) :=
  match fuel with
  | O => Throw tt
  | S k =>
      match ref_step c m with
      | Val _ m' => match pc_step c with Ret c' => ref_run k c' m' | _ => Undef end
      | Stop r m' => Ret (r, m', c)
      | Exc e m' => Ret (result_of_error (error_of e), m', c)
      | UB => Undef
      end
  end.
(* no branch is ever skipped in the reference run *)
Fixpoint all_taken (fuel : nat) (c : counter) (m : mstate) : Prop :=
  running m = true /\
  match fuel with
  | O => True
  | S k => match ref_step c m with
           | Val _ m' => match pc_step c with Ret c' => all_taken k c' m' | _ => True end
           | _ => True
           end
  end.
End Reference.

(* a signature check succeeds *)
Definition accepts (doc : option rdoc) (c : counter) (sig pub : bytes) : Prop :=
  match doc with
  | None => True
  | Some d => exists p, script_code c = Ret p /\ d_verify d (cleanup_script_code p sig) sig pub = result_of_bool true
  end.

(* the operand of a lock-time check *)
Definition locktime_outcome (cf : config) (m : mstate) (k : bytes -> mres mstate unit) : mres mstate unit :=
  match s_main (m_stack m) with
  | [] => Stop (result_of_error E_INVALID_STACK_OPERATION) m
  | x :: _ =>
      if 5 <? len x then Exc (X_script E_SCRIPTNUM_OVERFLOW) m
      else if minimal cf && negb (is_minimal_number x) then Exc (X_script E_SCRIPTNUM_MINENCODE) m
      else if (sn_val x <? 0)%Z then Stop (result_of_error E_NEGATIVE_LOCKTIME) m
      else k x
  end.

(* BIP 65 and BIP 112, for an operand n *)
Definition locktime_met (tx_locktime sequence : N) (n : Z) : Prop :=
  (n <= Z.of_N tx_locktime)%Z /\ (n < 500000000 <-> Z.of_N tx_locktime < 500000000)%Z /\ sequence <> 0xffffffff.
Definition sequence_met (version : Z) (sequence n : N) : Prop :=
  (version < 0 \/ 2 <= version)%Z /\ N.testbit sequence 31 = false /\ N.testbit n 22 = N.testbit sequence 22 /\
  n mod 2 ^ 16 <= sequence mod 2 ^ 16.

(* every signature that a multisignature check looks at either matches or is an error; NULLFAIL makes every
   verification with a nonempty signature so *)
Definition strict (d : rdoc) : Prop := forall p sig pub, d_verify d p sig pub = result_of_bool true \/
  r_error (d_verify d p sig pub) <> E_OK.

(* what one executed instruction does to the two stacks *)
Definition instr_effect (X : externals) (cf : config) (i : instr) (s a : list bytes) : option stacks :=
  if b2n (i_op i) <=? b2n OP_PUSHDATA4 then Some (i_data i :: s, a) else effect X cf (i_op i) s a.
Definition counting (o : byte) (m : mstate) : mstate :=
  {| m_stack := m_stack m; m_exec := m_exec m; m_else := m_else m;
     m_ops := if b2n OP_16 <? b2n o then m_ops m + 1 else m_ops m |}.

(* the limits leave room for two short strings *)
Definition some_room (cf : config) : Prop :=
  has_flag FLAG_GENESIS_STACK (c_flags cf) = false \/ 65 <= c_max_memory cf < 2 ^ 63.

(* a redemption document of the library: script.cpp, with flags f *)
Definition document (K : sig_checks) (f : flag) (version : Z) (tx_locktime sequence : N) : rdoc :=
  {| d_verify := verify_signature K f; d_locktime := check_locktime tx_locktime sequence;
     d_sequence := check_sequence version sequence |}.

(* every test that the flags ask for is passed and the signature verifies *)
Definition signature_fine (K : sig_checks) (f : flag) (code : program) (sig pub : bytes) : Prop :=
  (has_flag FLAG_COMPRESSED f = true -> k_compressed K pub = true) /\
  (has_flag FLAG_STRICTENC f = true -> k_valid K pub = true) /\
  N.land (b2n (last sig x00)) 0x3c = 0 /\
  (N.testbit (b2n (last sig x00)) 6 = true -> has_flag FLAG_FORKID f = true) /\
  (has_flag FLAG_REQUIRE_FORKID f = true -> N.testbit (b2n (last sig x00)) 6 = true) /\
  (has_flag FLAG_DERSIG f = true \/ has_flag FLAG_LOW_S f = true \/ has_flag FLAG_STRICTENC f = true -> k_der K sig = true) /\
  (has_flag FLAG_LOW_S f = true -> k_normalized K (removelast sig) = true) /\
  k_verify K code sig pub = true.

(* the operands of a multisignature check: nk, the keys, ns, the signatures and one element that is not used;
   the topmost key and the topmost signature come first *)
Definition multisig_stack (s pubs sigs : list bytes) : Prop := exists nk ns dummy r,
  s = nk :: pubs ++ ns :: sigs ++ dummy :: r /\ sn_val nk = Z.of_nat (length pubs) /\ sn_val ns = Z.of_nat (length sigs).
