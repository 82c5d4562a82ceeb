(* Scripts that check signatures, first without conditions and then with them: what the tables say about the whole of them, and when outputs
   with such scripts can be spent, directly or by the hash of the script. *)
From Verif Require Import Base ScriptModel ScriptSpec NumModel StackModel StackSpec MachineModel MachineSpec StraightSpec MultiSpec.
Local Open Scope N_scope.

Section Checks.
Variable X : externals.
Variable doc : option rdoc.
Variable cf : config.
(* the script code *)
Variable code : program.

(* the script goes on with other stacks, or it has failed, or it has ended and is satisfied; with the operations
   that were counted *)
Inductive progress : Type := Goes (s a : list bytes) (ops : N) | Refused | Satisfied (ops : N).

Definition check_one (sig pub : bytes) : result :=
  match doc with None => result_of_bool true | Some d => d_verify d (cleanup_script_code code sig) sig pub end.
Definition layout (s pubs sigs : list bytes) (dummy : bytes) (r : list bytes) : Prop :=
  exists nk ns, s = nk :: pubs ++ ns :: sigs ++ dummy :: r /\
    count_of (minimal cf) nk = inr (Z.of_nat (length pubs)) /\ count_of (minimal cf) ns = inr (Z.of_nat (length sigs)) /\
    N.of_nat (length pubs) <= c_max_keys cf /\ (length sigs <= length pubs)%nat.
(* what may be wrong after the trial *)
Definition nulls_wrong (sigs : list bytes) (dummy : bytes) (ok : bool) : bool :=
  (negb ok && has_flag FLAG_NULLFAIL (c_flags cf) && existsb (fun s => negb (len s =? 0)) sigs) ||
  (has_flag FLAG_NULLDUMMY (c_flags cf) && negb (len dummy =? 0)).

(* lock times are asked for when the flag is not set; the operand is read modulo 2^32 *)
Definition lock_op (o : byte) : Prop := o = OP_CHECKLOCKTIMEVERIFY \/ o = OP_CHECKSEQUENCEVERIFY.
Definition lock_flag (o : byte) : N := if byte_eqb o OP_CHECKLOCKTIMEVERIFY then FLAG_CLTV else FLAG_CSV.
Definition lock_met (o : byte) (x : bytes) : bool :=
  let n := Z.to_N (sn_val x mod 2 ^ 32) in
  if byte_eqb o OP_CHECKLOCKTIMEVERIFY then match doc with None => true | Some d => d_locktime d n end
  else negb (N.testbit n 31) && match doc with None => true | Some d => d_sequence d n end.
Definition lock_good (o : byte) (x : bytes) : bool :=
  (len x <=? 5) && (negb (minimal cf) || is_minimal_number x) && (0 <=? sn_val x)%Z && lock_met o x.

(* one instruction. The opcodes that check and verify end the script when the check is good. *)
Inductive check_step : instr -> list bytes -> list bytes -> progress -> Prop :=
| step_table i s a s' a' : direct cf i s -> instr_effect X cf i s a = Some (s', a') -> check_step i s a (Goes s' a' (counted [i_op i]))
| step_wrong i s a : direct cf i s -> instr_effect X cf i s a = None -> check_step i s a Refused
| step_short o s a : o = OP_CHECKSIG \/ o = OP_CHECKSIGVERIFY -> (length s < 2)%nat -> check_step (op_instr o) s a Refused
| step_error o pub sig r a : o = OP_CHECKSIG \/ o = OP_CHECKSIGVERIFY -> r_error (check_one sig pub) <> E_OK ->
    check_step (op_instr o) (pub :: sig :: r) a Refused
| step_sig pub sig r a : r_error (check_one sig pub) = E_OK ->
    check_step (op_instr OP_CHECKSIG) (pub :: sig :: r) a (Goes (sn_bool (r_success (check_one sig pub)) :: r) a 1)
| step_sig_verify pub sig r a : r_error (check_one sig pub) = E_OK ->
    check_step (op_instr OP_CHECKSIGVERIFY) (pub :: sig :: r) a (if r_success (check_one sig pub) then Satisfied 1 else Refused)
| step_refused o s a : o = OP_CHECKMULTISIG \/ o = OP_CHECKMULTISIGVERIFY -> multi_refused cf 0 s <> None -> check_step (op_instr o) s a Refused
| step_multi_error o s a pubs sigs dummy r e : o = OP_CHECKMULTISIG \/ o = OP_CHECKMULTISIGVERIFY -> layout s pubs sigs dummy r ->
    tried (multi_check doc code s (length sigs)) sigs pubs (inl e) -> check_step (op_instr o) s a Refused
| step_nulls o s a pubs sigs dummy r ok : o = OP_CHECKMULTISIG \/ o = OP_CHECKMULTISIGVERIFY -> layout s pubs sigs dummy r ->
    tried (multi_check doc code s (length sigs)) sigs pubs (inr ok) -> nulls_wrong sigs dummy ok = true -> check_step (op_instr o) s a Refused
| step_multi s a pubs sigs dummy r ok : layout s pubs sigs dummy r ->
    tried (multi_check doc code s (length sigs)) sigs pubs (inr ok) -> nulls_wrong sigs dummy ok = false ->
    check_step (op_instr OP_CHECKMULTISIG) s a (Goes (sn_bool ok :: r) a (1 + N.of_nat (length pubs)))
| step_multi_verify s a pubs sigs dummy r ok : layout s pubs sigs dummy r ->
    tried (multi_check doc code s (length sigs)) sigs pubs (inr ok) -> nulls_wrong sigs dummy ok = false ->
    check_step (op_instr OP_CHECKMULTISIGVERIFY) s a (if ok then Satisfied (1 + N.of_nat (length pubs)) else Refused)
| step_no_lock o s a : lock_op o -> has_flag (lock_flag o) (c_flags cf) = true ->
    check_step (op_instr o) s a (if has_flag FLAG_DISCOURAGE_NOPS (c_flags cf) then Refused else Goes s a 1)
| step_lock_short o a : lock_op o -> has_flag (lock_flag o) (c_flags cf) = false -> check_step (op_instr o) [] a Refused
| step_lock o x r a : lock_op o -> has_flag (lock_flag o) (c_flags cf) = false ->
    minimal cf = true \/ ~ negative_zero x ->
    check_step (op_instr o) (x :: r) a (if lock_good o x then Goes (x :: r) a 1 else Refused).

Definition after (k : N) (e : progress) : progress :=
  match e with Goes s a n => Goes s a (k + n) | Refused => Refused | Satisfied n => Satisfied (k + n) end.
(* the instructions one after the other; no more than B is needed on the way *)
Inductive check_runs (B : N) : program -> list bytes -> list bytes -> progress -> Prop :=
| check_end s a : room s a <= B -> check_runs B [] s a (Goes s a 0)
| check_on i q s a s' a' k e : room s a <= B -> check_step i s a (Goes s' a' k) -> check_runs B q s' a' e -> check_runs B (i :: q) s a (after k e)
| check_refused i q s a : room s a <= B -> check_step i s a Refused -> check_runs B (i :: q) s a Refused
| check_satisfied i q s a k : room s a <= B -> check_step i s a (Satisfied k) -> check_runs B (i :: q) s a (Satisfied k).

(* the script has been satisfied, with so many operations *)
Definition satisfied (e : progress) (ops : N) : Prop :=
  e = Satisfied ops \/ exists top rest a, e = Goes (top :: rest) a ops /\ nonzeroZ (sn_val top) = true /\ clean cf rest.
End Checks.

(* the instructions that follow a script which is given by its hash *)
Definition by_hash (redeem : program) (pushes : instr) (d : bytes) : program :=
  redeem ++ [op_instr OP_VERIFY; pushes; op_instr OP_HASH160; push d; op_instr OP_EQUAL].
(* neither conditions nor OP_RETURN *)
Definition plain_ops (q : program) : Prop := Forall (fun o => ~ control_op o /\ o <> OP_RETURN) (map i_op q).
(* what these instructions make of the stack that the script leaves *)
Definition hash_end (X : externals) (pushes : instr) (d : bytes) (st a : list bytes) : progress :=
  match st with
  | [] => Refused
  | top :: rest => if nonzeroZ (sn_val top) then Goes (sn_bool (bytes_eqb (x_ripemd160 X (x_sha256 X (pushed_by pushes))) d) :: rest) a 3 else Refused
  end.
(* the script has ended early and is satisfied, or it leaves what is asked for and has the hash; with so many operations *)
Definition hash_satisfied (X : externals) (cf : config) (pushes : instr) (d : bytes) (e : progress) (ops : N) : Prop :=
  e = Satisfied ops \/ exists top rest a n, e = Goes (top :: rest) a n /\ ops = n + 3 /\ nonzeroZ (sn_val top) = true /\
    x_ripemd160 X (x_sha256 X (pushed_by pushes)) = d /\ clean cf rest.
(* a key whose signature is verified, and whatever comes then *)
Definition verify_then (key : bytes) (rest : program) : program := push key :: op_instr OP_CHECKSIGVERIFY :: rest.
(* a key that can sign only when the lock o with the operand t is met *)
Definition locked_program (o : byte) (t : Z) (key : bytes) : program :=
  [push (sn_enc t); op_instr o; op_instr OP_DROP; push key; op_instr OP_CHECKSIG].
(* BIP 65 and BIP 112 *)
Definition lock_kept (o : byte) (version : Z) (locktime sequence : N) (t : Z) : Prop :=
  if byte_eqb o OP_CHECKLOCKTIMEVERIFY then locktime_met locktime sequence t
  else (t < 2 ^ 31)%Z /\ sequence_met version sequence (Z.to_N t).
(* what the program makes of it: with the flag the lock is not looked at, and the instruction may be discouraged *)
Definition lock_opens (cf : config) (o : byte) (version : Z) (locktime sequence : N) (t : Z) : Prop :=
  if has_flag (lock_flag o) (c_flags cf) then has_flag FLAG_DISCOURAGE_NOPS (c_flags cf) = false
  else lock_kept o version locktime sequence t.
Definition lock_document (verify : program -> bytes -> bytes -> result) (version : Z) (locktime sequence : N) : option rdoc :=
  Some {| d_verify := verify; d_locktime := check_locktime locktime sequence; d_sequence := check_sequence version sequence |}.
(* a condition with the value v that is not met *)
Definition falls (cf : config) (o : byte) (v : bytes) : Prop :=
  (o = OP_IF \/ o = OP_NOTIF) /\ (has_flag FLAG_MINIMALIF (c_flags cf) = false \/ v = [] \/ v = [x01]) /\
  nonzeroZ (sn_val v) = byte_eqb o OP_NOTIF.
(* conditions are closed, and OP_RETURN is where it may be *)
Definition well_formed (cf : config) (l : program) : Prop :=
  balanced (ops l) /\ (In OP_RETURN (ops l) -> has_flag FLAG_SAFE_RETURN (c_flags cf) = true).
(* a stack with which a script can end *)
Definition good_end (cf : config) (st : list bytes) : Prop :=
  exists top rest, st = top :: rest /\ nonzeroZ (sn_val top) = true /\ clean cf rest.
Definition condition_fine (cf : config) (v : bytes) : Prop := has_flag FLAG_MINIMALIF (c_flags cf) = false \/ v = [] \/ v = [x01].
(* a condition with the value v that is met *)
Definition meets (cf : config) (o : byte) (v : bytes) : Prop :=
  (o = OP_IF \/ o = OP_NOTIF) /\ condition_fine cf v /\ nonzeroZ (sn_val v) = negb (byte_eqb o OP_NOTIF).

(* the opcodes that check signatures *)
Definition checking (o : byte) : Prop := o = OP_CHECKSIG \/ o = OP_CHECKSIGVERIFY \/ o = OP_CHECKMULTISIG \/ o = OP_CHECKMULTISIGVERIFY.

(* Scripts with conditions, d of them being open and met. A condition that is not met and the end of a branch that was
   run both skip all that is left. *)
Section Conditions.
Variable X : externals.
Variable doc : option rdoc.
Variable cf : config.
Inductive cond_runs (B : N) (code : program) : nat -> program -> list bytes -> list bytes -> progress -> Prop :=
| cond_end d s a : room s a <= B -> cond_runs B code d [] s a (Goes s a 0)
| cond_on d i q s a s' a' k e : room s a <= B -> check_step X doc cf code i s a (Goes s' a' k) -> cond_runs B code d q s' a' e ->
    cond_runs B code d (i :: q) s a (after k e)
| cond_refused d i q s a : room s a <= B -> check_step X doc cf code i s a Refused -> cond_runs B code d (i :: q) s a Refused
| cond_satisfied d i q s a k : room s a <= B -> check_step X doc cf code i s a (Satisfied k) -> cond_runs B code d (i :: q) s a (Satisfied k)
| cond_meets d o q v s a e : room (v :: s) a <= B -> meets cf o v -> cond_runs B code (S d) q s a e ->
    cond_runs B code d (op_instr o :: q) (v :: s) a (after 1 e)
| cond_falls d o q v s a : room (v :: s) a <= B -> falls cf o v ->
    cond_runs B code d (op_instr o :: q) (v :: s) a (Goes s a (counted (o :: ops q)))
| cond_none d o q a : o = OP_IF \/ o = OP_NOTIF -> room [] a <= B -> cond_runs B code d (op_instr o :: q) [] a Refused
| cond_odd d o q v s a : o = OP_IF \/ o = OP_NOTIF -> ~ condition_fine cf v -> room (v :: s) a <= B -> cond_runs B code d (op_instr o :: q) (v :: s) a Refused
| cond_else d q s a : room s a <= B -> cond_runs B code (S d) (op_instr OP_ELSE :: q) s a (Goes s a (counted (OP_ELSE :: ops q)))
| cond_endif d q s a e : room s a <= B -> cond_runs B code d q s a e -> cond_runs B code (S d) (op_instr OP_ENDIF :: q) s a (after 1 e)
| cond_return i q s a : room s a <= B -> genesis cf = true -> i_op i = OP_RETURN -> cond_runs B code 0 (i :: q) s a (Satisfied 1)
| cond_no_return d i q s a e : room s a <= B -> genesis cf = true -> i_op i = OP_RETURN -> cond_runs B code (S d) q s a e ->
    cond_runs B code (S d) (i :: q) s a (after 1 e)
| cond_bad_return d i q s a : room s a <= B -> genesis cf = false -> i_op i = OP_RETURN -> cond_runs B code d (i :: q) s a Refused
| cond_separator d q s a e : room s a <= B -> decompile (program_write q) = Ret q -> cond_runs B q d q s a e ->
    cond_runs B code d (op_instr OP_CODESEPARATOR :: q) s a (after 1 e)
| cond_unread d q o rest s a R : room s a <= B -> doc <> None -> (forall l, decompile (program_write (q ++ op_instr o :: rest)) <> Ret l) ->
    runs X cf B q s a R -> checking o ->
    cond_runs B code d (op_instr OP_CODESEPARATOR :: q ++ op_instr o :: rest) s a Refused.
End Conditions.
