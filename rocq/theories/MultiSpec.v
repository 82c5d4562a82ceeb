(* OP_CHECKMULTISIG, stated on lists of signatures and keys. *)
From Verif Require Import Base ScriptModel NumModel StackModel StackSpec MachineModel.
Local Open Scope N_scope.

Section Trial.
(* the result for a signature and a key *)
Variable ver : bytes -> bytes -> result.

(* the signatures go with some of the keys, in order *)
Inductive matching : list bytes -> list bytes -> Prop :=
| match_none pubs : matching [] pubs
| match_this s sigs k pubs : r_success (ver s k) = true -> matching sigs pubs -> matching (s :: sigs) (k :: pubs)
| match_later sigs k pubs : matching sigs pubs -> matching sigs (k :: pubs).

(* keys are tried one after the other, as long as there are enough of them; an error ends it *)
Inductive tried : list bytes -> list bytes -> serror + bool -> Prop :=
| tried_all pubs : tried [] pubs (inr true)
| tried_few sigs pubs : (length pubs < length sigs)%nat -> tried sigs pubs (inr false)
| tried_error s sigs k pubs : (length sigs <= length pubs)%nat -> r_error (ver s k) <> E_OK -> tried (s :: sigs) (k :: pubs) (inl (r_error (ver s k)))
| tried_good s sigs k pubs o : (length sigs <= length pubs)%nat -> r_error (ver s k) = E_OK -> r_success (ver s k) = true ->
    tried sigs pubs o -> tried (s :: sigs) (k :: pubs) o
| tried_bad s sigs k pubs o : (length sigs <= length pubs)%nat -> r_error (ver s k) = E_OK -> r_success (ver s k) = false ->
    tried (s :: sigs) pubs o -> tried (s :: sigs) (k :: pubs) o.
End Trial.

(* the arguments on the stack, topmost first: how many keys, the keys, how many signatures, the signatures
   and one element more *)
Record multi_args (cf : config) (m : mstate) (pubs sigs : list bytes) (dummy : bytes) (r : list bytes) : Prop := {
  ma_stack : exists nk ns, s_main (m_stack m) = nk :: pubs ++ ns :: sigs ++ dummy :: r /\
    (sn_val nk = Z.of_nat (length pubs) /\ len nk <= 4 /\ (minimal cf = true -> is_minimal_number nk = true)) /\
    (sn_val ns = Z.of_nat (length sigs) /\ len ns <= 4 /\ (minimal cf = true -> is_minimal_number ns = true));
  ma_keys : N.of_nat (length pubs) <= c_max_keys cf;
  ma_ops : m_ops m + N.of_nat (length pubs) <= c_max_ops cf;
  ma_sigs : (length sigs <= length pubs)%nat }.

(* the elements that are removed from the script code: as many as there are signatures, from the second
   lowest on *)
Definition removed (stack : list bytes) (n : nat) : list bytes := firstn n (skipn 1 (rev stack)).
(* how signatures are checked; without a document, all are good *)
Definition multi_check (doc : option rdoc) (code : program) (stack : list bytes) (n : nat) : bytes -> bytes -> result :=
  match doc with
  | None => fun _ _ => result_of_bool true
  | Some d => d_verify d (fold_left cleanup_script_code (removed stack n) code)
  end.

(* what happens after the trial *)
Definition multi_end (cf : config) (verify : bool) (m : mstate) (pubs sigs : list bytes) (dummy : bytes) (r : list bytes) (ok : bool) (out : mres mstate unit) : Prop :=
  if negb ok && has_flag FLAG_NULLFAIL (c_flags cf) && existsb (fun s => negb (len s =? 0)) sigs
  then exists m', out = Stop (result_of_error E_SIG_NULLFAIL) m'
  else if has_flag FLAG_NULLDUMMY (c_flags cf) && negb (len dummy =? 0) then exists m', out = Stop (result_of_error E_SIG_NULLDUMMY) m'
  else if verify then exists m', out = Stop (if ok then result_of_bool true else result_of_error E_CHECKMULTISIGVERIFY) m'
  else exists m', out = Val tt m' /\ becomes (m_stack m) (m_stack m') ((if ok then [x01] else []) :: r) (s_alt (m_stack m)) /\
         m_exec m' = m_exec m /\ m_else m' = m_else m /\ m_ops m' = m_ops m + N.of_nat (length pubs).

(* a count on the stack: at most four bytes, and minimal if that is required *)
Definition count_of (mi : bool) (b : bytes) : serror + Z :=
  if 4 <? len b then inl E_SCRIPTNUM_OVERFLOW
  else if mi && negb (is_minimal_number b) then inl E_SCRIPTNUM_MINENCODE
  else inr (sn_val b).
(* why the arguments are refused before anything is tried, and whether the error is thrown *)
Definition multi_refused (cf : config) (ops : N) (stack : list bytes) : option (bool * serror) :=
  match stack with
  | [] => Some (false, E_INVALID_STACK_OPERATION)
  | nk :: rest =>
    match count_of (minimal cf) nk with
    | inl e => Some (true, e)
    | inr k =>
      if (k <? 0)%Z || (Z.of_N (c_max_keys cf) <? k)%Z then Some (false, E_PUBKEY_COUNT)
      else if (Z.of_N (c_max_ops cf) <? Z.of_N ops + k)%Z then Some (false, E_OP_COUNT)
      else match nth_error rest (Z.to_nat k) with
           | None => Some (false, E_INVALID_STACK_OPERATION)
           | Some ns =>
             match count_of (minimal cf) ns with
             | inl e => Some (true, e)
             | inr n =>
               if (n <? 0)%Z || (k <? n)%Z then Some (false, E_SIG_COUNT)
               else if (Z.of_nat (length rest) <? k + n + 2)%Z then Some (false, E_INVALID_STACK_OPERATION)
               else None
             end
           end
    end
  end.
