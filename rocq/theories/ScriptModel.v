(* Script instructions, programs and the program counter.
   /repo/src/gigamonkey/script/instruction.cpp, include/gigamonkey/script/instruction.hpp,
   script/counter.cpp, include/gigamonkey/script/counter.hpp, include/gigamonkey/script/error.h.
   An opcode is its byte (script/opcodes.h gives every opcode its byte value). *)
From Verif Require Import Base.
Local Open Scope N_scope.

(* include/gigamonkey/script/error.h 12-91: the ScriptError enumeration. *)
Inductive serror : Type :=
| E_OK | E_UNKNOWN_ERROR | E_EVAL_FALSE | E_OP_RETURN | E_SCRIPT_SIZE | E_PUSH_SIZE | E_OP_COUNT
| E_STACK_SIZE | E_SIG_COUNT | E_PUBKEY_COUNT | E_INVALID_OPERAND_SIZE | E_INVALID_NUMBER_RANGE
| E_IMPOSSIBLE_ENCODING | E_INVALID_SPLIT_RANGE | E_SCRIPTNUM_OVERFLOW | E_SCRIPTNUM_MINENCODE
| E_VERIFY | E_EQUALVERIFY | E_CHECKMULTISIGVERIFY | E_CHECKSIGVERIFY | E_NUMEQUALVERIFY
| E_BAD_OPCODE | E_DISABLED_OPCODE | E_INVALID_STACK_OPERATION | E_INVALID_ALTSTACK_OPERATION
| E_UNBALANCED_CONDITIONAL | E_DIV_BY_ZERO | E_MOD_BY_ZERO | E_NEGATIVE_LOCKTIME
| E_UNSATISFIED_LOCKTIME | E_SIG_HASHTYPE | E_SIG_DER | E_MINIMALDATA | E_SIG_PUSHONLY
| E_SIG_HIGH_S | E_SIG_NULLDUMMY | E_PUBKEYTYPE | E_CLEANSTACK | E_MINIMALIF | E_SIG_NULLFAIL
| E_DISCOURAGE_UPGRADABLE_NOPS | E_NONCOMPRESSED_PUBKEY | E_ILLEGAL_FORKID | E_MUST_USE_FORKID
| E_BIG_INT | E_INVALID_SCRIPT_CODE.

Definition serror_is_ok (e : serror) : bool := match e with E_OK => true | _ => false end.

(* include/gigamonkey/script/opcodes.h 13-256 (those named by the code modelled here) *)
Notation OP_0 := x00. Notation OP_PUSHDATA1 := x4c. Notation OP_PUSHDATA2 := x4d. Notation OP_PUSHDATA4 := x4e.
Notation OP_1NEGATE := x4f. Notation OP_RESERVED := x50. Notation OP_1 := x51. Notation OP_16 := x60.
Notation OP_NOP := x61. Notation OP_IF := x63. Notation OP_NOTIF := x64. Notation OP_ELSE := x67.
Notation OP_ENDIF := x68. Notation OP_VERIFY := x69. Notation OP_RETURN := x6a.
Notation OP_EQUAL := x87. Notation OP_HASH160 := xa9. Notation OP_CODESEPARATOR := xab.

(* include/gigamonkey/script/config.hpp 21-117: flags are bits of a uint32; the accessors
   of the form [P & flag::X] (config.hpp 223-304) are [has_flag]. *)
Definition flag := N.
Definition FLAG_P2SH := 0. Definition FLAG_STRICTENC := 1. Definition FLAG_DERSIG := 2.
Definition FLAG_LOW_S := 3. Definition FLAG_NULLDUMMY := 4. Definition FLAG_SIGPUSHONLY := 5.
Definition FLAG_MINIMALDATA := 6. Definition FLAG_DISCOURAGE_NOPS := 7. Definition FLAG_CLEANSTACK := 8.
Definition FLAG_CLTV := 9. Definition FLAG_CSV := 10. Definition FLAG_MINIMALIF := 13.
Definition FLAG_NULLFAIL := 14. Definition FLAG_COMPRESSED := 15. Definition FLAG_FORKID := 16.
Definition FLAG_REQUIRE_FORKID := 17. Definition FLAG_CUSTOMIZE_LIMITS := 18. Definition FLAG_SAFE_RETURN := 19.
Definition FLAG_GENESIS_STACK := 21. Definition FLAG_CUSTOM_LIMITS := 22. Definition FLAG_GENESIS_OPCODES := 24. Definition FLAG_CHRONICLE_OPCODES := 25.
Definition has_flag (k : N) (f : flag) : bool := N.testbit f k.

(* include/gigamonkey/script/instruction.hpp 19-25 *)
Definition is_push_op (o : byte) : bool := (b2n o <=? 0x60) && negb (byte_eqb o OP_RESERVED).
Definition is_push_data (o : byte) : bool := b2n o <=? 0x4e.

(* instruction.hpp 55-90.  [integer Data] is kept as its raw bytes. *)
Record instr : Type := { i_op : byte; i_data : bytes }.
Definition op_instr (o : byte) : instr := {| i_op := o; i_data := [] |}.

(* instruction.hpp 162-164 *)
Definition instr_eqb (a b : instr) : bool := byte_eqb (i_op a) (i_op b) && bytes_eqb (i_data a) (i_data b).

Definition program := list instr.

(* instruction.cpp 9-19 *)
Definition instr_write (i : instr) : bytes :=
  if is_push_data (i_op i) then
    (if b2n (i_op i) <=? 75 then [i_op i]
     else if byte_eqb (i_op i) OP_PUSHDATA1 then OP_PUSHDATA1 :: [n2b (len (i_data i))]
     else if byte_eqb (i_op i) OP_PUSHDATA2 then OP_PUSHDATA2 :: le 2 (len (i_data i))
     else OP_PUSHDATA4 :: le 4 (len (i_data i))) ++ i_data i
  else [i_op i].

(* instruction.cpp 23-42.  FIRST_UNDEFINED_OP_VALUE is 0xba (opcodes.h 256). The fourth size test is
   vacuous for a 64-bit size_t and is left out. *)
Definition verify_instruction (i : instr) : serror :=
  let o := b2n (i_op i) in
  if (o =? 0xff) || (o =? 0x50) || (o =? 0x89) || (o =? 0x8a) || (0xba <=? o) then E_BAD_OPCODE
  else
    let size := len (i_data i) in
    if negb (is_push_data (i_op i)) then (if 0 <? size then E_PUSH_SIZE else E_OK)
    else if ((o <=? 75) && negb (o =? size))
         || ((o =? 0x4c) && (0xffff <? size))
         || ((o =? 0x4d) && (0xffffffff <? size)) then E_PUSH_SIZE
    else E_OK.

(* the data that have an opcode of their own: -1 and 1..16 (instruction.cpp 46, 159-162) *)
Definition small_push (d : bytes) : bool :=
  match d with
  | [x] => (b2n x =? 0x81) || ((1 <=? b2n x) && (b2n x <=? 16))
  | _ => false
  end.

(* instruction.cpp 44-51 *)
Definition is_minimal_push (o : byte) (d : bytes) : bool :=
  if negb (is_push_data o) then len d =? 0
  else if small_push d then false
  else if byte_eqb o OP_PUSHDATA1 then 75 <? len d
  else if byte_eqb o OP_PUSHDATA2 then 256 <? len d
  else if byte_eqb o OP_PUSHDATA4 then 65536 <? len d
  else true.

(* instruction.cpp 136-143 *)
Definition instr_verify (f : flag) (i : instr) : serror :=
  match verify_instruction i with
  | E_OK => if has_flag FLAG_MINIMALDATA f && negb (is_minimal_push (i_op i) (i_data i)) then E_MINIMALDATA else E_OK
  | e => e
  end.

(* instruction.cpp 145-147 *)
Definition is_minimal_instruction (i : instr) : bool :=
  serror_is_ok (verify_instruction i) && is_minimal_push (i_op i) (i_data i).

(* Exceptions of the parsing functions: invalid_program {err} (instruction.hpp 125-130) and the
   reader's end-of-stream exception, which is a different type. [X_Fuel] marks an exhausted
   recursion bound and is proved never to be returned. *)
Inductive sexn : Type := X_Invalid (e : serror) | X_EndOfStream | X_Fuel.

(* instruction.cpp 71-100: [r >> x] past the end throws end-of-stream; too little data throws
   invalid_program {PUSH_SIZE}. *)
Definition read_push (o : byte) (r : bytes) : outcome sexn (instr * bytes) :=
  let size_then (m : option (N * bytes)) :=
    match m with
    | None => Throw X_EndOfStream
    | Some (size, r) =>
        if len r <? size then Throw (X_Invalid E_PUSH_SIZE)
        else Ret ({| i_op := o; i_data := firstn (N.to_nat size) r |}, skipn (N.to_nat size) r)
    end in
  if b2n o <=? 75 then size_then (Some (b2n o, r))
  else if byte_eqb o OP_PUSHDATA1 then size_then (rd_le 1 r)
  else if byte_eqb o OP_PUSHDATA2 then size_then (rd_le 2 r)
  else size_then (rd_le 4 r).

(* instruction.cpp 106-115 *)
Definition read_instr (b : bytes) : outcome sexn (instr * bytes) :=
  match b with
  | [] => Throw (X_Invalid E_UNKNOWN_ERROR)
  | o :: r => if is_push_data o then read_push o r else Ret (op_instr o, r)
  end.

(* instruction.cpp 149-153 *)
Definition instr_read (b : bytes) : outcome sexn instr :=
  match read_instr b with Ret (i, _) => Ret i | Throw e => Throw e | Undef => Undef end.

(* conversion of a size_t to a 32-bit int: reduction modulo 2^32 into [-2^31, 2^31) *)
Definition int32_of (n : N) : Z :=
  let m := n mod 2 ^ 32 in if m <? 2 ^ 31 then Z.of_N m else (Z.of_N m - 2 ^ 32)%Z.

(* instruction.cpp 155-168: [int size = data.size ()] *)
Definition push (d : bytes) : instr :=
  let size := int32_of (len d) in
  if (size =? 0)%Z then op_instr OP_0
  else match d with
       | [x] => if b2n x =? 0x81 then op_instr OP_1NEGATE
                else if (1 <=? b2n x) && (b2n x <=? 0x10) then op_instr (n2b (b2n x + 0x50))
                else {| i_op := x01; i_data := d |}
       | _ => if (size <=? 0x4b)%Z then {| i_op := n2b (Z.to_N (size mod 256)); i_data := d |}
              else if (size <=? 0xff)%Z then {| i_op := OP_PUSHDATA1; i_data := d |}
              else if (size <=? 0xffff)%Z then {| i_op := OP_PUSHDATA2; i_data := d |}
              else {| i_op := OP_PUSHDATA4; i_data := d |}
       end.

(* instruction.cpp 170-175.  [neg1] is the byte string of the expression [integer {0x81}] at line
   173: whether the external class reads the braces as a list of one byte (81) or as the number 129
   (81 00) is not visible in /repo, so it is a parameter. [integer {int64 (Op - 0x50)}] for 1..16 is
   the one byte. *)
Definition push_value (neg1 : bytes) (i : instr) : bytes :=
  if is_push_data (i_op i) || byte_eqb (i_op i) OP_RETURN then i_data i
  else if negb (is_push_op (i_op i)) then []
  else if byte_eqb (i_op i) OP_1NEGATE then neg1
  else [n2b (b2n (i_op i) - 0x50)].

(* instruction.cpp 177-186: the result is a uint32 *)
Definition instr_size (i : instr) : N :=
  (if byte_eqb (i_op i) OP_RETURN then len (i_data i) + 1
   else if negb (is_push_data (i_op i)) then 1
   else if b2n (i_op i) <=? 75 then len (i_data i) + 1
   else if byte_eqb (i_op i) OP_PUSHDATA1 then len (i_data i) + 2
   else if byte_eqb (i_op i) OP_PUSHDATA2 then len (i_data i) + 3
   else len (i_data i) + 5) mod 2 ^ 32.

(* instruction.hpp 80-84 *)
Definition min_push_size (b : bytes) : N :=
  let x := len b in
  if (x =? 0) || small_push b then 1
  else if x <? 75 then x + 1 else if x <? 0xff then x + 2 else if x <? 0xffff then x + 3 else x + 5.

(* instruction.hpp 143-146 *)
Definition program_size (p : program) : N := fold_right (fun i n => instr_size i + n) 0 p.

(* instruction.cpp 54-66 *)
Definition program_write (p : program) : bytes := concat (map instr_write p).

(* instruction.cpp 302-314; [None]: the iterator writer runs off the end of the buffer. *)
Definition compile (p : program) : option bytes := buffer_write (program_size p) (program_write p).
Definition compile_instr (i : instr) : option bytes := buffer_write (instr_size i) (instr_write i).

(* the control-flow tracking of decompile, instruction.cpp 329-341: the second check
   (line 340) constructs an exception without throwing it, so it has no effect. *)
Definition control_decompile (o : byte) (c : list byte) : option (list byte) :=
  if byte_eqb o OP_ENDIF then
    match c with
    | [] => None
    | prev :: c1 =>
        if byte_eqb prev OP_ELSE then match c1 with [] => None | _ :: c2 => Some c2 end
        else Some c1
    end
  else if byte_eqb o OP_ELSE || byte_eqb o OP_IF || byte_eqb o OP_NOTIF then Some (o :: c)
  else Some c.

(* instruction.cpp 316-347, the while loop. [fuel] bounds the number of instructions; every
   instruction consumes a byte. *)
Fixpoint decompile_loop (fuel : nat) (c : list byte) (b : bytes) : outcome sexn program :=
  match b with
  | [] => Ret []
  | _ =>
      match fuel with
      | O => Throw X_Fuel
      | S k =>
          match read_instr b with
          | Ret (i, r) =>
              match instr_verify 0 i with
              | E_OK =>
                  match control_decompile (i_op i) c with
                  | None => Throw (X_Invalid E_UNBALANCED_CONDITIONAL)
                  | Some c' =>
                      match decompile_loop k c' r with
                      | Ret p => Ret (i :: p)
                      | Throw e => Throw e
                      | Undef => Undef
                      end
                  end
              | e => Throw (X_Invalid e)
              end
          | Throw e => Throw e
          | Undef => Undef
          end
      end
  end.
Definition decompile (b : bytes) : outcome sexn program := decompile_loop (length b) [] b.

(* instruction.cpp 375-387 *)
Definition control_valid (o : byte) (c : list byte) : option (list byte) :=
  if byte_eqb o OP_ENDIF then
    match c with
    | [] => None
    | prev :: c1 =>
        let opener p := byte_eqb p OP_IF || byte_eqb p OP_NOTIF in
        if byte_eqb prev OP_ELSE then
          match c1 with [] => None | p :: c2 => if opener p then Some c2 else None end
        else if opener prev then Some c1 else None
    end
  else if byte_eqb o OP_ELSE || byte_eqb o OP_IF || byte_eqb o OP_NOTIF then Some (o :: c)
  else Some c.

(* instruction.cpp 350-390 *)
Fixpoint valid_program (p : program) (c : list byte) (f : flag) : serror :=
  match p with
  | [] => match c with [] => E_OK | _ => E_UNBALANCED_CONDITIONAL end
  | i :: rest =>
      match instr_verify f i with
      | E_OK =>
          if has_flag FLAG_MINIMALDATA f && negb (is_minimal_instruction i) then E_MINIMALDATA
          else
            let go := match control_valid (i_op i) c with
                      | None => E_UNBALANCED_CONDITIONAL
                      | Some c' => valid_program rest c' f
                      end in
            if byte_eqb (i_op i) OP_RETURN then
              (if negb (has_flag FLAG_SAFE_RETURN f) then E_OP_RETURN
               else match c, rest with
                    | [], [] => E_OK
                    | _, _ => match i_data i with [] => go | _ => E_OP_RETURN end
                    end)
            else go
      | e => e
      end
  end.

(* config.hpp 332-364: the flag profiles *)
Definition flags_of (l : list N) : flag := fold_right (fun k n => N.lor (2 ^ k) n) 0 l.
Definition pre_genesis_profile : flag := flags_of
  [FLAG_P2SH; FLAG_STRICTENC; FLAG_FORKID; FLAG_LOW_S; FLAG_NULLFAIL; FLAG_DERSIG; FLAG_MINIMALDATA;
   FLAG_NULLDUMMY; FLAG_DISCOURAGE_NOPS; FLAG_CLEANSTACK; FLAG_CLTV; FLAG_CSV; FLAG_REQUIRE_FORKID].
Definition genesis_profile : flag := flags_of
  [FLAG_FORKID; FLAG_REQUIRE_FORKID; FLAG_STRICTENC; FLAG_LOW_S; FLAG_NULLFAIL; FLAG_DERSIG;
   FLAG_MINIMALDATA; FLAG_NULLDUMMY; FLAG_DISCOURAGE_NOPS; FLAG_CLEANSTACK; FLAG_CUSTOMIZE_LIMITS;
   FLAG_SAFE_RETURN; FLAG_GENESIS_OPCODES; FLAG_GENESIS_STACK; FLAG_CUSTOM_LIMITS; FLAG_SIGPUSHONLY].
Definition chronicle_profile : flag := flags_of
  [FLAG_FORKID; FLAG_CUSTOMIZE_LIMITS; FLAG_SAFE_RETURN; FLAG_GENESIS_OPCODES; FLAG_GENESIS_STACK;
   FLAG_CHRONICLE_OPCODES].

(* instruction.cpp 392-402 *)
Definition pre_verify (p : program) (f : flag) : serror :=
  match p with
  | [] => E_OK
  | _ =>
      let plain := valid_program p [] f in
      if has_flag FLAG_SAFE_RETURN f then
        match p with
        | [i; j] =>
            if byte_eqb (i_op i) OP_0 && serror_is_ok (instr_verify genesis_profile i) && byte_eqb (i_op j) OP_RETURN
            then E_OK else plain
        | _ => plain
        end
      else
        match p with
        | [i] => if byte_eqb (i_op i) OP_RETURN then E_OK else plain
        | _ => plain
        end
  end.

(* instruction.hpp 134-141 *)
Definition is_P2SH (script : bytes) : bool :=
  (len script =? 23) && byte_eqb (nth 0 script x00) OP_HASH160 &&
  byte_eqb (nth 1 script x00) x14 && byte_eqb (nth 22 script x00) OP_EQUAL.
Definition is_P2SH_program (p : program) : option bool := option_map is_P2SH (compile p).

(* instruction.hpp 148-151 *)
Definition is_push_program (p : program) : bool := forallb (fun i => is_push_op (i_op i)) p.

(* instruction.hpp 157-160 *)
Definition provably_unspendable (script : bytes) (after_genesis : bool) : bool :=
  if after_genesis then
    (2 <=? len script) && byte_eqb (nth 0 script x00) OP_0 && byte_eqb (nth 1 script x00) OP_RETURN
  else (1 <=? len script) && byte_eqb (nth 0 script x00) OP_RETURN.

(* instruction.cpp 405-417.  [None] from compile is the buffer overrun. *)
Definition full (neg1 : bytes) (unlock lock : program) (support_p2sh : bool) : outcome sexn program :=
  let plain := Ret (unlock ++ [op_instr OP_CODESEPARATOR] ++ lock) in
  if negb support_p2sh then plain
  else match is_P2SH_program lock with
       | None => Undef
       | Some false => plain
       | Some true =>
           match rev unlock with
           | [] => plain
           | push_redeem :: others =>
               match decompile (push_value neg1 push_redeem) with
               | Ret redeem => Ret (rev others ++ [op_instr OP_CODESEPARATOR] ++
                                    (redeem ++ [op_instr OP_VERIFY; push_redeem]) ++ lock)
               | Throw e => Throw e
               | Undef => Undef
               end
           end
       end.

(* instruction.cpp 419-423 *)
Definition find_and_delete (p : program) (sig : instr) : program := filter (fun i => negb (instr_eqb i sig)) p.

(* instruction.hpp 205-208 *)
Definition is_minimal_script (b : bytes) : outcome sexn bool :=
  match decompile b with
  | Ret p => Ret (forallb is_minimal_instruction p)
  | Throw e => Throw e
  | Undef => Undef
  end.

(* counter.cpp 8-53: the slice of the next instruction. The sum [5 + size] at line 45 is computed in
   32 bits; line 47 then uses a 64-bit sum, so a size close to 2^32 passes the test and gives a slice
   that reaches outside the script: [Undef]. *)
Definition pc_read (s : bytes) : outcome unit bytes :=
  let clamp (n : N) := Ret (firstn (N.to_nat n) s) in
  match s with
  | [] => Ret []
  | o :: r =>
      if negb (is_push_data o) then Ret [o]
      else if b2n o <=? 75 then clamp (N.min (b2n o + 1) (len s))
      else if byte_eqb o OP_PUSHDATA1 then
        match rd_le 1 r with
        | None => Ret s
        | Some (size, _) => if len s <? 2 + size then Ret s else clamp (2 + size)
        end
      else if byte_eqb o OP_PUSHDATA2 then
        match rd_le 2 r with
        | None => Ret s
        | Some (size, _) => if len s <? 3 + size then Ret s else clamp (3 + size)
        end
      else
        match rd_le 4 r with
        | None => Ret s
        | Some (size, _) =>
            if len s <? (5 + size) mod 2 ^ 32 then Ret s
            else if len s <? 5 + size then Undef
            else clamp (5 + size)
        end
  end.

(* counter.hpp 14-22. The slices are represented by their contents. *)
Record counter : Type := { pc_next : bytes; pc_script : bytes; pc_pos : N; pc_sep : N }.

(* counter.hpp 49-50 *)
Definition pc_start (s : bytes) : outcome unit counter :=
  match pc_read s with
  | Ret n => Ret {| pc_next := n; pc_script := s; pc_pos := 0; pc_sep := 0 |}
  | Throw e => Throw e
  | Undef => Undef
  end.

(* counter.hpp 52-57. [Script.drop (int32 (n))] with n beyond 2^31 is a negative argument to an
   external function: [Undef]. *)
Definition pc_step (c : counter) : outcome unit counter :=
  let n := pc_pos c + len (pc_next c) in
  if 2 ^ 31 <=? n then Undef
  else match pc_read (skipn (N.to_nat n) (pc_script c)) with
       | Ret x => Ret {| pc_next := x; pc_script := pc_script c; pc_pos := n;
                         pc_sep := match pc_next c with
                                   | o :: _ => if byte_eqb o OP_CODESEPARATOR then n else pc_sep c
                                   | [] => pc_sep c
                                   end |}
       | Throw e => Throw e
       | Undef => Undef
       end.

Fixpoint pc_steps (k : nat) (c : counter) : outcome unit counter :=
  match k with
  | O => Ret c
  | S k' => match pc_step c with Ret c' => pc_steps k' c' | Throw e => Throw e | Undef => Undef end
  end.

(* counter.hpp 59-61 *)
Definition script_code (c : counter) : outcome sexn program :=
  decompile (skipn (N.to_nat (pc_sep c)) (pc_script c)).
