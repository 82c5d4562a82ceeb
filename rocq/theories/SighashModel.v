(* Incomplete transactions, signature-hash documents and the two signature-hash preimages.
   Source: sighash.cpp, include/gigamonkey/sighash.hpp, signature.cpp, incomplete.hpp, incomplete.cpp.
   Hash256 is the parameter H of every definition that hashes. *)
From Verif Require Import Base WireModel ScriptModel MachineModel.
Local Open Scope N_scope.

(* ---------------------------------------------------------------- directives *)
(* sighash.hpp 42-44 *)
Definition sh_base (d : byte) : N := N.land (b2n d) 0x1f.
(* sighash.hpp 46-48; has_fork_id and valid (50-56) are in MachineModel *)
Definition is_anyone_can_pay (d : byte) : bool := negb (N.land (b2n d) 0x80 =? 0).
(* sighash.hpp 21-40 *)
Definition SH_ALL : N := 1. Definition SH_NONE : N := 2. Definition SH_SINGLE : N := 3.
(* sighash.hpp 64-66: the sum is reduced to a byte *)
Definition directive (t : N) (acp fork : bool) : byte :=
  n2b (t + 0x40 * N.b2n fork + 0x80 * N.b2n acp).
(* d & ~sighash::fork_id (sighash.cpp 40, sighash.hpp 146) *)
Definition clear_fork_id (d : byte) : byte := n2b (N.land (b2n d) (N.lxor 0xff 0x40)).

(* ---------------------------------------------------------------- incomplete transactions *)
(* incomplete.hpp 15-28 *)
Record iinput := { ii_ref : outpoint; ii_seq : N }.
(* incomplete.hpp 32-56; the cache is modelled separately below *)
Record itx := { it_version : Z; it_inputs : list iinput; it_outputs : list output; it_locktime : N }.

(* incomplete.hpp 22 *)
Definition iinput_of (i : input) : iinput := {| ii_ref := in_ref i; ii_seq := in_seq i |}.
(* incomplete.hpp 24-26 *)
Definition iinput_complete (i : iinput) (s : bytes) : input := {| in_ref := ii_ref i; in_script := s; in_seq := ii_seq i |}.
(* incomplete.hpp 44-48 *)
Definition itx_of (t : tx) : itx :=
  {| it_version := tx_version t; it_inputs := map iinput_of (tx_inputs t);
     it_outputs := tx_outputs t; it_locktime := tx_locktime t |}.

(* data::map_thread on lists of equal length *)
Fixpoint map2 {A B C} (f : A -> B -> C) (l : list A) (m : list B) : list C :=
  match l, m with a :: l', b :: m' => f a b :: map2 f l' m' | _, _ => [] end.

Inductive ixn : Type := X_logic_error | X_invalid_argument | X_bad_script (e : sexn).

(* incomplete.cpp 8-13 *)
Definition itx_complete (t : itx) (scripts : list bytes) : outcome ixn tx :=
  if Nat.eqb (length scripts) (length (it_inputs t)) then
    Ret {| tx_version := it_version t; tx_inputs := map2 iinput_complete (it_inputs t) scripts;
           tx_outputs := it_outputs t; tx_locktime := it_locktime t |}
  else Throw X_logic_error.

(* incomplete.cpp 15-21: operator bytes.  [Undef] if the buffer sized by serialized_size is too short. *)
Definition itx_bytes (t : itx) : outcome ixn bytes :=
  match tx_bytes {| tx_version := it_version t; tx_inputs := map (fun i => iinput_complete i []) (it_inputs t);
                    tx_outputs := it_outputs t; tx_locktime := it_locktime t |} with
  | Some b => Ret b
  | None => Undef
  end.

(* timechain.cpp 56-58: input::valid; decompile may throw *)
Definition input_valid (i : input) : outcome ixn bool :=
  match decompile (in_script i) with
  | Ret p => Ret (match p with [] => false | _ => true end)
  | Throw e => Throw (X_bad_script e)
  | Undef => Undef
  end.

(* timechain.cpp 60-62: output::valid *)
Definition output_valid (o : output) : bool :=
  (out_value o <? 2100000000000000)%Z && ((0 <? out_value o)%Z || provably_unspendable (out_script o) true).

(* data::valid on a list: all elements are valid, tested from the front *)
Fixpoint inputs_valid (l : list input) : outcome ixn bool :=
  match l with
  | [] => Ret true
  | i :: r => match input_valid i with Ret true => inputs_valid r | x => x end
  end.

Definition outpoint_zero : outpoint := {| op_digest := repeat x00 32; op_index := 0 |}.

(* timechain.hpp 479-484: transaction::valid *)
Definition tx_valid (t : tx) : outcome ixn bool :=
  match tx_inputs t, tx_outputs t with
  | [], _ => Ret false
  | _, [] => Ret false
  | i :: r, outs =>
      match inputs_valid (i :: r) with
      | Ret v =>
          Ret ((v || (match r with [] => outpoint_eqb (in_ref i) outpoint_zero | _ => false end))
               && forallb output_valid outs)
      | x => x
      end
  end.

(* incomplete.cpp 23-31: incomplete::transaction (byte_slice) *)
Definition itx_of_bytes (b : bytes) : outcome ixn itx :=
  let t := tx_of_slice b in
  match tx_valid t with
  | Ret true => Ret (itx_of t)
  | Ret false => Throw X_invalid_argument
  | Throw e => Throw e
  | Undef => Undef
  end.

(* ---------------------------------------------------------------- documents *)
(* sighash.hpp 71-95 *)
Record sdoc := { sd_tx : itx; sd_index : N; sd_value : Z; sd_code : program }.

(* list::operator [] of the external library: [None] is an index out of range *)
Definition at_index {A} (l : list A) (i : N) : option A := nth_error l (N.to_nat i).

(* sighash.hpp 88-90 *)
Definition sdoc_valid (doc : sdoc) : bool :=
  (0 <=? sd_value doc)%Z && (sd_index doc <? N.of_nat (length (it_inputs (sd_tx doc)))).

(* sighash.cpp 9-13 *)
Definition remove_code_separators (p : program) : option bytes :=
  compile (filter (fun i => negb (byte_eqb (i_op i) OP_CODESEPARATOR)) p).

(* sighash.cpp 23-26: the loop over the inputs from number i on, [code] being the stripped script code *)
Fixpoint original_inputs (all : bool) (index : N) (code : bytes) (i : N) (l : list iinput) : list input :=
  match l with
  | [] => []
  | x :: r =>
      {| in_ref := ii_ref x;
         in_script := if i =? index then code else [];
         in_seq := if all || (i =? index) then ii_seq x else 0 |}
      :: original_inputs all index code (i + 1) r
  end.

(* sighash.cpp 15-36; [None]: index out of range, or the buffer of compile overrun.  The loop calls
   remove_code_separators only when it reaches the index; with the index out of range nothing is
   evaluated there, and the model's result is then stricter only if the code does not compile. *)
Definition reconstruct (doc : sdoc) (d : byte) : option tx :=
  let t := sd_tx doc in
  match remove_code_separators (sd_code doc) with
  | None => None
  | Some code =>
    match (if is_anyone_can_pay d then
             match at_index (it_inputs t) (sd_index doc) with
             | Some x => Some [iinput_complete x code]
             | None => None
             end
           else Some (original_inputs (sh_base d =? SH_ALL) (sd_index doc) code 0 (it_inputs t))),
          (if sh_base d =? SH_SINGLE then
             match at_index (it_outputs t) (sd_index doc) with Some o => Some [o] | None => None end
           else if sh_base d =? SH_ALL then Some (it_outputs t)
           else Some []) with
    | Some ins, Some outs =>
        Some {| tx_version := it_version t; tx_inputs := ins; tx_outputs := outs; tx_locktime := it_locktime t |}
    | _, _ => None
    end
  end.

(* sighash.hpp 133-135: uint32_little {d} holds the byte *)
Definition write_original (doc : sdoc) (d : byte) : option bytes :=
  match reconstruct doc d with
  | Some t => Some (tx_write t ++ le 4 (b2n d))
  | None => None
  end.

(* incomplete.hpp 73-76 *)
Definition zero32 : bytes := repeat x00 32.

Section Preimage.
Variable H : bytes -> bytes. (* Hash256 *)

(* sighash.hpp 157-173 *)
Definition hash_prevouts (t : itx) : bytes := H (concat (map (fun i => outpoint_write (ii_ref i)) (it_inputs t))).
Definition hash_sequence (t : itx) : bytes := H (concat (map (fun i => le 4 (ii_seq i)) (it_inputs t))).
Definition hash_outputs (t : itx) : bytes := H (concat (map output_write (it_outputs t))).

(* incomplete.hpp 58-88: the three lazily filled hashes *)
Record cache := { c_prevouts : option bytes; c_sequence : option bytes; c_outputs : option bytes }.
Definition empty_cache : cache := {| c_prevouts := None; c_sequence := None; c_outputs := None |}.

(* sighash.hpp 179-192 *)
Definition cached_prevouts (t : itx) (c : cache) : bytes * cache :=
  match c_prevouts c with
  | Some h => (h, c)
  | None => let h := hash_prevouts t in (h, {| c_prevouts := Some h; c_sequence := c_sequence c; c_outputs := c_outputs c |})
  end.
Definition cached_sequence (t : itx) (c : cache) : bytes * cache :=
  match c_sequence c with
  | Some h => (h, c)
  | None => let h := hash_sequence t in (h, {| c_prevouts := c_prevouts c; c_sequence := Some h; c_outputs := c_outputs c |})
  end.
Definition cached_outputs (t : itx) (c : cache) : bytes * cache :=
  match c_outputs c with
  | Some h => (h, c)
  | None => let h := hash_outputs t in (h, {| c_prevouts := c_prevouts c; c_sequence := c_sequence c; c_outputs := Some h |})
  end.

(* sighash.cpp 42-72: Amaury::write when the directive has the fork id.  operator << evaluates its
   left operand first (C++17), so the caches are consulted in the order written. *)
Definition amaury (doc : sdoc) (d : byte) (c : cache) : option (bytes * cache) :=
  let t := sd_tx doc in
  let '(prevouts, c1) := if negb (is_anyone_can_pay d) then cached_prevouts t c else (zero32, c) in
  let '(sequence, c2) :=
    if negb (is_anyone_can_pay d) && negb (sh_base d =? SH_SINGLE) && negb (sh_base d =? SH_NONE)
    then cached_sequence t c1 else (zero32, c1) in
  match at_index (it_inputs t) (sd_index doc), compile (sd_code doc) with
  | Some x, Some code =>
      match (if sh_base d =? SH_ALL then Some (cached_outputs t c2)
             else if (sh_base d =? SH_SINGLE) && (sd_index doc <? N.of_nat (length (it_inputs t))) then
               match at_index (it_outputs t) (sd_index doc) with
               | Some o => match output_bytes o with Some b => Some (H b, c2) | None => None end
               | None => None
               end
             else Some (zero32, c2)) with
      | Some (outputs, c3) =>
          Some (sle 4 (it_version t) ++ prevouts ++ sequence ++ outpoint_write (ii_ref x) ++
                var_string_write code ++ sle 8 (sd_value doc) ++ le 4 (ii_seq x) ++ outputs ++
                le 4 (it_locktime t) ++ le 4 (b2n d), c3)
      | None => None
      end
  | _, _ => None
  end.

(* sighash.hpp 126-128, 145-147 and sighash.cpp 38-40: write = write_Bitcoin_Cash; [None] is
   undefined behaviour *)
Definition sighash_write_cached (doc : sdoc) (d : byte) (c : cache) : option (bytes * cache) :=
  if has_fork_id d then amaury doc d c
  else match write_original doc (clear_fork_id d) with Some b => Some (b, c) | None => None end.

(* the same starting from a fresh transaction *)
Definition sighash_write (doc : sdoc) (d : byte) : option bytes :=
  option_map fst (sighash_write_cached doc d empty_cache).

(* signature.cpp 8-14 *)
Definition signature_hash (doc : sdoc) (d : byte) : option bytes :=
  if negb (sdoc_valid doc)
     || ((sh_base d =? SH_SINGLE) && (N.of_nat (length (it_outputs (sd_tx doc))) <=? sd_index doc)) then Some zero32
  else option_map H (sighash_write doc d).

(* a sequence of preimages computed from one transaction object, as when signing every input *)
Fixpoint sighash_session (t : itx) (l : list (N * Z * program * byte)) (c : cache) : option (list bytes * cache) :=
  match l with
  | [] => Some ([], c)
  | (i, v, p, d) :: r =>
      match sighash_write_cached {| sd_tx := t; sd_index := i; sd_value := v; sd_code := p |} d c with
      | None => None
      | Some (b, c') => match sighash_session t r c' with Some (bs, c'') => Some (b :: bs, c'') | None => None end
      end
  end.
End Preimage.

(* ---------------------------------------------------------------- ownership of the cache *)
(* incomplete.hpp 61-72: [cached] holds three owning raw pointers, has a destructor and no copy
   operations of its own, so copying an incomplete::transaction copies the pointers.  Objects are
   numbered; each holds an optional pointer (one of the three; they behave alike). *)
Record heap := { hp_objects : list (option nat); hp_live : list nat; hp_fresh : nat }.
Inductive hop : Type := HNew | HFill (i : nat) | HCopy (i : nat) | HDestroy (i : nat).

Fixpoint hp_set (l : list (option nat)) (i : nat) (x : option nat) : list (option nat) :=
  match l, i with
  | [], _ => []
  | _ :: r, O => x :: r
  | y :: r, S j => y :: hp_set r j x
  end.

(* [None] is undefined behaviour: freeing what is not live, reading a freed cache, or using an object
   that does not exist *)
Definition hstep (h : heap) (o : hop) : option heap :=
  match o with
  | HNew => Some {| hp_objects := hp_objects h ++ [None]; hp_live := hp_live h; hp_fresh := hp_fresh h |}
  | HFill i => (* hash_prevouts () on object i *)
      match nth_error (hp_objects h) i with
      | Some (Some p) => if existsb (Nat.eqb p) (hp_live h) then Some h else None
      | Some None => Some {| hp_objects := hp_set (hp_objects h) i (Some (hp_fresh h));
                             hp_live := hp_fresh h :: hp_live h; hp_fresh := S (hp_fresh h) |}
      | None => None
      end
  | HCopy i =>
      match nth_error (hp_objects h) i with
      | Some x => Some {| hp_objects := hp_objects h ++ [x]; hp_live := hp_live h; hp_fresh := hp_fresh h |}
      | None => None
      end
  | HDestroy i =>
      match nth_error (hp_objects h) i with
      | Some None => Some h
      | Some (Some p) => if existsb (Nat.eqb p) (hp_live h)
                  then Some {| hp_objects := hp_set (hp_objects h) i None;
                               hp_live := filter (fun q => negb (Nat.eqb p q)) (hp_live h); hp_fresh := hp_fresh h |}
                  else None
      | None => None
      end
  end.

Fixpoint hrun (h : heap) (l : list hop) : option heap :=
  match l with [] => Some h | o :: r => match hstep h o with Some h' => hrun h' r | None => None end end.
Definition empty_heap : heap := {| hp_objects := []; hp_live := []; hp_fresh := 0 |}.
