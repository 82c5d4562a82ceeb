(* Patterns of scripts, and the standard templates.
   Source: script/pattern.cpp 9-158, include/gigamonkey/script/pattern.hpp, and
   include/gigamonkey/script/pattern/pay_to_{address,pubkey,hash,script_hash}.hpp.
   The variables that a pattern writes to are numbered; they keep what was written when a scan fails later, as
   references do.  Parameters: [neg1] as in ScriptModel; [fuel], the number of rounds a repetition may take.
   pattern/op_return.hpp is not modelled: nothing includes it and it names a function that does not exist. *)
From Verif Require Import Base ScriptModel NumModel.
Local Open Scope N_scope.

Notation OP_DUP := x76.
Notation OP_EQUALVERIFY := x88.
Notation OP_CHECKSIG := xac.

Definition vars := list bytes.
Fixpoint put (k : nat) (d : bytes) (v : vars) : vars :=
  match v, k with
  | [], _ => []
  | _ :: r, O => d :: r
  | x :: r, S k => x :: put k d r
  end.
Definition get (k : nat) (v : vars) : bytes := nth k v [].

(* pattern.cpp 9-33: the result is a uint32 *)
Definition next_size (o : bytes) : N :=
  match o with
  | [] => 0
  | c :: r =>
    if byte_eqb c xff then 0
    else if negb (is_push_data c) then 1
    else if b2n c <=? 75 then b2n c + 1
    else if byte_eqb c OP_PUSHDATA1 then (if len o <? 2 then 0 else le_val (firstn 1 r) + 2)
    else if byte_eqb c OP_PUSHDATA2 then (if len o <? 3 then 0 else le_val (firstn 2 r) + 3)
    else if len o <? 5 then 0 else (le_val (firstn 4 r) + 5) mod 2 ^ 32
  end.

(* what push matches: pattern.hpp 88-110 *)
Inductive push_type := PushAny | PushValue (z : Z) | PushIs (d : bytes) | PushRead (k : nat).
(* pattern.hpp 136-138 *)
Inductive directive := Exactly | OrMore | OrLess.
(* Patterns as scan sees them.  An object of class pattern stands for the pattern it points to, and the null
   pointer for PEmpty. *)
Inductive pat :=
| PEmpty
| PAny
| PAtom (i : instr)
| PString (b : bytes)
| PPush (t : push_type)
| PPushSize (n : N) (var : option nat)
| PSeq (l : list pat)
| POptional (p : pat)
| PAlt (l : list pat)
| PRepeat (p : pat) (first : N) (second : Z) (d : directive)
| PReturn (p : pat).

(* Rest: what is left.  Fail: pattern::fail is thrown.  Escape: another exception.  Beyond: a slice is taken
   past the end of its parent, whose effect is not in this repository.  Endless: out of rounds. *)
Inductive sres := Rest (r : bytes) | Fail | Escape (e : sexn) | Beyond | Endless.

Section Patterns.
Variable neg1 : bytes.
Variable fuel : nat.

(* instruction::read (p.range (0, size)) *)
Definition read_front (size : N) (p : bytes) (found : instr -> vars * sres) (v : vars) : vars * sres :=
  if len p <? size then (v, Beyond)
  else match instr_read (firstn (N.to_nat size) p) with
       | Ret i => found i
       | Throw e => (v, Escape e)
       | Undef => (v, Beyond)
       end.
Definition after (size : N) (p : bytes) : sres := Rest (skipn (N.to_nat size) p).

(* pattern.cpp 35-44 *)
Definition scan_atom (i : instr) (p : bytes) (v : vars) : vars * sres :=
  match p with
  | [] => (v, Fail)
  | c :: _ =>
    if negb (byte_eqb c (i_op i)) then (v, Fail)
    else let size := next_size p in
    if len p <? size then (v, Fail)
    else read_front size p (fun j => if instr_eqb i j then (v, after size p) else (v, Fail)) v
  end.
(* pattern.cpp 46-50 *)
Definition scan_string (s p : bytes) (v : vars) : vars * sres :=
  if (length p <? length s)%nat then (v, Fail)
  else if bytes_eqb (firstn (length s) p) s then (v, Rest (skipn (length s) p)) else (v, Fail).
(* pattern.cpp 52-57 *)
Definition scan_any (p : bytes) (v : vars) : vars * sres :=
  match p with
  | [] => (v, Fail)
  | _ => let size := next_size p in if len p <? size then (v, Fail) else (v, after size p)
  end.
(* pattern.cpp 87-103 *)
Definition push_match (t : push_type) (i : instr) (v : vars) : option vars :=
  if negb (is_push_op (i_op i)) then None
  else match t with
       | PushAny => Some v
       | PushValue z => if Z.eqb z (sn_val (push_value neg1 i)) then Some v else None
       | PushIs d => if bytes_eqb d (push_value neg1 i) then Some v else None
       | PushRead k => Some (put k (push_value neg1 i) v)
       end.
(* pattern.cpp 59-69 *)
Definition scan_push (t : push_type) (p : bytes) (v : vars) : vars * sres :=
  match p with
  | [] => (v, Fail)
  | _ => let size := next_size p in
         if size =? 0 then (v, Fail)
         else read_front size p (fun i => match push_match t i v with Some w => (w, after size p) | None => (v, Fail) end) v
  end.
(* pattern.cpp 105-110, 71-79 *)
Definition scan_push_size (n : N) (var : option nat) (p : bytes) (v : vars) : vars * sres :=
  match p with
  | [] => (v, Fail)
  | _ => let size := next_size p in
         read_front size p (fun i => if len (push_value neg1 i) =? n
                                     then (match var with Some k => put k (push_value neg1 i) v | None => v end, after size p)
                                     else (v, Fail)) v
  end.
(* pattern.cpp 127-144.  matches is a uint32, max an int64 *)
Fixpoint repeat_loop (step : bytes -> vars -> vars * sres) (min : N) (max : Z) (rounds : nat) (matches : N) (p : bytes) (v : vars) : vars * sres :=
  match rounds with
  | O => (v, Endless)
  | S rounds =>
    match step p v with
    | (w, Rest r) =>
      let matches := (matches + 1) mod 2 ^ 32 in
      if (Z.of_N matches =? max)%Z then (w, Rest r) else repeat_loop step min max rounds matches r w
    | (w, Fail) => if matches <? min then (w, Fail) else (w, Rest p)
    | x => x
    end
  end.
Definition repeat_min (first : N) (second : Z) (d : directive) : N :=
  match d with OrLess => if Z.eqb second (-1) then 0 else first | _ => first end.
Definition repeat_max (first : N) (second : Z) (d : directive) : Z :=
  if negb (Z.eqb second (-1)) then second else match d with OrMore => -1 | _ => Z.of_N first end.

(* pattern.cpp 112-158, pattern.hpp 46-49 *)
Fixpoint scan (q : pat) (p : bytes) (v : vars) {struct q} : vars * sres :=
  match q with
  | PEmpty => (v, Rest p)
  | PAny => scan_any p v
  | PAtom i => scan_atom i p v
  | PString s => scan_string s p v
  | PPush t => scan_push t p v
  | PPushSize n var => scan_push_size n var p v
  | PSeq l =>
    (fix seq (l : list pat) (p : bytes) (v : vars) : vars * sres :=
       match l with
       | [] => (v, Rest p)
       | x :: l => match scan x p v with (w, Rest r) => seq l r w | y => y end
       end) l p v
  | POptional x => match scan x p v with (w, Fail) => (w, Rest p) | y => y end
  | PAlt l =>
    (fix alt (l : list pat) (v : vars) : vars * sres :=
       match l with
       | [] => (v, Fail)
       | x :: l => match scan x p v with (w, Fail) => alt l w | y => y end
       end) l v
  | PRepeat x first second d => repeat_loop (scan x) (repeat_min first second d) (repeat_max first second d) fuel 0 p v
  | PReturn x =>
    match p with
    | [] => (v, Fail)
    | c :: r => if byte_eqb c OP_RETURN then scan x r v else (v, Fail)
    end
  end.

(* pattern.hpp 23-30: what match gives, or how it ends without giving anything *)
Inductive mres := Matched (b : bool) | MEscape (e : sexn) | MBeyond | MEndless.
Definition pmatch (q : pat) (p : bytes) (v : vars) : vars * mres :=
  match scan q p v with
  | (w, Rest r) => (w, Matched (len r =? 0))
  | (w, Fail) => (w, Matched false)
  | (w, Escape e) => (w, MEscape e)
  | (w, Beyond) => (w, MBeyond)
  | (w, Endless) => (w, MEndless)
  end.
End Patterns.

(* ---- building patterns ---- *)
(* The arguments of pattern {...}, pattern.hpp 180-187.  Classes without a construct of their own go to the one
   for pattern, by value: what is left of them is the pattern they point to. *)
Inductive parg :=
| AOp (o : byte)
| AInstr (i : instr)
| AProgram (p : program)
| APush (t : push_type)
| APushSize (n : N) (var : option nat)
| AAlt (l : list pat)
| AOptional (p : pat)
| APattern (p : pat)
| AAny
| ARepeat (p : pat) (first : N) (second : Z) (d : directive)
| AReturn (p : pat).
(* pattern.hpp 272-302; compile of the program is its bytes *)
Definition construct (a : parg) : pat :=
  match a with
  | AOp o => PAtom (op_instr o)
  | AInstr i => PAtom i
  | AProgram p => PString (program_write p)
  | APush t => PPush t
  | APushSize n var => PPushSize n var
  | AAlt l => PAlt l
  | AOptional p => POptional p
  | APattern p => p
  | AAny => PEmpty
  | ARepeat p _ _ _ => p
  | AReturn p => p
  end.
Definition pattern_of (l : list parg) : pat := PSeq (map construct l).
Definition alternatives_of (l : list parg) : pat := PAlt (map construct l).
(* pattern.hpp 246-274: repeated, whose bounds are uint32 *)
Definition repeated_of (p : pat) (n : N) (d : directive) : pat := PRepeat p n (-1) d.
Definition repeated_between (p : pat) (first second : N) : pat := PRepeat p first (int32_of second) Exactly.
(* pattern.hpp 215-225: of op_return_data {d}, pattern {string {d}} keeps nothing *)
Definition return_any : pat := PReturn PEmpty.
Definition return_data (d : bytes) : pat := PReturn (pattern_of [APattern PEmpty]).

(* ---- templates ---- *)
(* pattern.hpp 229-231 *)
Definition pubkey_pattern (k : nat) : pat :=
  pattern_of [AAlt (map construct [APushSize 33 (Some k); APushSize 65 (Some k)])].
(* pay_to_address.hpp 12-20 *)
Definition p2a_pattern : pat := pattern_of [AOp OP_DUP; AOp OP_HASH160; APushSize 20 (Some 0%nat); AOp OP_EQUALVERIFY; AOp OP_CHECKSIG].
Definition p2a_script (a : bytes) : option bytes :=
  compile [op_instr OP_DUP; op_instr OP_HASH160; push a; op_instr OP_EQUALVERIFY; op_instr OP_CHECKSIG].
(* pay_to_hash.hpp 11-18 *)
Definition p2h_pattern : pat := pattern_of [AOp OP_HASH160; APushSize 20 (Some 0%nat); AOp OP_EQUALVERIFY].
Definition p2h_script (a : bytes) : option bytes := compile [op_instr OP_HASH160; push a; op_instr OP_EQUALVERIFY].
(* pay_to_script_hash.hpp 12-20 *)
Definition p2sh_pattern : pat := pattern_of [AOp OP_HASH160; APushSize 20 (Some 0%nat); AOp OP_EQUAL].
Definition p2sh_script (a : bytes) : option bytes := compile [op_instr OP_HASH160; push a; op_instr OP_EQUAL].
(* pay_to_pubkey.hpp 11-18 *)
Definition p2p_pattern : pat := pattern_of [APattern (pubkey_pattern 0); AOp OP_CHECKSIG].
Definition p2p_script (k : bytes) : option bytes := compile [push k; op_instr OP_CHECKSIG].

(* the constructors from scripts: pay_to_address.hpp 32-37, pay_to_hash.hpp 31-35, pay_to_script_hash.hpp 33-38
   with 20 zeros as the digest that stays when nothing matches; pay_to_pubkey.hpp 31-36 with no bytes *)
Definition template_read (neg1 : bytes) (q : pat) (none : bytes) (script : bytes) : outcome sexn bytes :=
  match pmatch neg1 0 q script [none] with
  | (v, Matched true) => Ret (get 0 v)
  | (_, Matched false) => Ret none
  | (_, MEscape e) => Throw e
  | (_, MBeyond) | (_, MEndless) => Undef
  end.
Definition zero20 : bytes := repeat x00 20.

(* pay_to_address.hpp 39-47, pay_to_pubkey.hpp 38-45 *)
Definition signature_max : N := 73.
Definition p2a_redeem (sig key : bytes) : option bytes := compile [push sig; push key].
Definition p2a_redeem_size (compressed : bool) : N := 2 + signature_max + (if compressed then 33 else 65).
Definition p2p_redeem (sig : bytes) : option bytes := compile_instr (push sig).
Definition p2p_redeem_size : N := 1 + signature_max.
