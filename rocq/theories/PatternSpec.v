(* What the front of a script is, and which scripts the templates stand for. *)
From Verif Require Import Base ScriptModel ScriptSpec PatternModel.
Local Open Scope N_scope.

(* h announces a push of n bytes *)
Inductive push_header : bytes -> N -> Prop :=
| ph_direct n : n <= 75 -> push_header [n2b n] n
| ph_data1 n : n < 2 ^ 8 -> push_header (x4c :: le 1 n) n
| ph_data2 n : n < 2 ^ 16 -> push_header (x4d :: le 2 n) n
| ph_data4 n : n < 2 ^ 32 -> push_header (x4e :: le 4 n) n.

(* an instruction whose size is a uint32, other than 0xff *)
Definition whole (i : instr) (c : bytes) : Prop := is_inst i c /\ i_op i <> xff /\ len c < 2 ^ 32.
(* a push that announces more bytes than there are *)
Definition cut (b : bytes) : Prop := exists h n d, push_header h n /\ b = h ++ d /\ len d < n /\ len h + n < 2 ^ 32.
(* no size can be computed for the front: 0xff, or the length of a push is incomplete, or the size is 0 modulo 2^32 *)
Definition sizeless (b : bytes) : Prop :=
  (exists r, b = xff :: r) \/
  b = [x4c] \/
  (exists r, b = x4d :: r /\ len r < 2) \/
  (exists r, b = x4e :: r /\ len r < 4) \/
  (exists r, b = x4e :: le 4 (2 ^ 32 - 5) ++ r).
(* the size of the front is more than 2^32 *)
Definition oversize (b : bytes) : Prop := exists n r, b = x4e :: le 4 n ++ r /\ 2 ^ 32 - 5 < n < 2 ^ 32.

(* c pushes d, and has d in it *)
Inductive data_push (d : bytes) : bytes -> Prop :=
| dp_direct : len d <= 75 -> data_push d (n2b (len d) :: d)
| dp_data1 : len d < 2 ^ 8 -> data_push d (x4c :: le 1 (len d) ++ d)
| dp_data2 : len d < 2 ^ 16 -> data_push d (x4d :: le 2 (len d) ++ d)
| dp_data4 : len d < 2 ^ 32 -> data_push d (x4e :: le 4 (len d) ++ d).

(* the scripts that the templates stand for *)
Definition address_script (d s : bytes) : Prop := exists c, data_push d c /\ len d = 20 /\ s = [x76; xa9] ++ c ++ [x88; xac].
Definition hash_script (d s : bytes) : Prop := exists c, data_push d c /\ len d = 20 /\ s = [xa9] ++ c ++ [x88].
Definition script_hash_script (d s : bytes) : Prop := exists c, data_push d c /\ len d = 20 /\ s = [xa9] ++ c ++ [x87].
Definition pubkey_script (d s : bytes) : Prop := exists c, data_push d c /\ (len d = 33 \/ len d = 65) /\ s = c ++ [xac].

(* patterns without repetition *)
Fixpoint plain (q : pat) : bool :=
  match q with
  | PSeq l | PAlt l => (fix all (l : list pat) : bool := match l with [] => true | x :: l => plain x && all l end) l
  | POptional x | PReturn x => plain x
  | PRepeat _ _ _ _ => false
  | _ => true
  end.

(* b starts with o *)
Definition starts (o : byte) (b : bytes) : Prop := exists r, b = o :: r.

Definition put_opt (var : option nat) (d : bytes) (v : vars) : vars := match var with Some k => put k d v | None => v end.

(* nothing can be done with the front of b *)
Definition unreadable (b : bytes) : Prop := cut b \/ sizeless b \/ oversize b.

(* how many times b starts with o *)
Fixpoint lead (o : byte) (b : bytes) : N :=
  match b with c :: r => if byte_eqb c o then 1 + lead o r else 0 | [] => 0 end.
(* what repetition of an opcode between min and max times leaves; no bound if max is not positive *)
Definition repeat_result (o : byte) (min : N) (max : Z) (b : bytes) : sres :=
  let k := lead o b in
  if (0 <? max)%Z && (max <=? Z.of_N k)%Z then Rest (skipn (Z.to_nat max) b)
  else if k <? min then Fail
  else Rest (skipn (N.to_nat k) b).
