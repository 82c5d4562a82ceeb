(* Boost candidates and puzzles: the outputs that one solution redeems, and the transaction that redeems them.
   Source: include/gigamonkey/boost/boost.hpp 299-373, 722-724, 734-770, boost/boost.cpp 388-428, fees.hpp 18-32. *)
From Verif Require Import Base WireModel TextModel SecpModel ScriptModel MerkleModel SighashModel ExtModel RedeemModel WorkModel BoostModel.
Local Open Scope N_scope.

(* boost.hpp 301-316 *)
Record bprevout := { bv_ref : outpoint; bv_value : Z }.
(* fees.hpp 18-32: an outpoint and the output there *)
Record utxo := { ut_ref : outpoint; ut_output : WireModel.output }.
Definition prevout_of (u : utxo) : bprevout := {| bv_ref := ut_ref u; bv_value := out_value (ut_output u) |}.
(* boost.hpp 299-340. The set of prevouts is kept as the list of its elements, in the order in which the set is gone through. *)
Record bcand := { bn_script : bytes; bn_prevouts : list bprevout }.

Section Candidate.
(* inserting into the external set, whose elements are compared by their outpoints (boost.hpp 311-313) *)
Variable ins : list bprevout -> bprevout -> list bprevout.
(* boost.hpp 734-738. The first element of an empty list is undefined. *)
Definition candidate_of (l : list utxo) : outcome unit bcand :=
  match l with
  | [] => Undef
  | u :: _ => Ret {| bn_script := out_script (ut_output u); bn_prevouts := fold_left (fun s v => ins s (prevout_of v)) l [] |}
  end.
(* boost.hpp 752-756: the script is taken from the first prevout only *)
Definition candidate_add (c : bcand) (u : utxo) : bcand :=
  match bn_prevouts c with
  | [] => {| bn_script := out_script (ut_output u); bn_prevouts := ins [] (prevout_of u) |}
  | l => if existsb (fun v => outpoint_eqb (bv_ref v) (ut_ref u)) l then c
         else {| bn_script := bn_script c; bn_prevouts := ins l (prevout_of u) |}
  end.
End Candidate.
(* boost.hpp 762-766 *)
Definition candidate_value (ovf : Z -> Z) (c : bcand) : Z := fold_left (fun s v => satoshi_add ovf s (bv_value v)) (bn_prevouts c) 0%Z.

Section Puzzle.
(* everything outside of the library, as in RedeemModel.v *)
Variable H hash160 : bytes -> bytes.
Variable parse : bytes -> option N.
Variable ser : bool -> N -> bytes.
Variable sign : bytes -> bytes -> bytes.
Variable neg1 : bytes.

(* boost.hpp 768-770: an outpoint is valid when its digest is (timechain.hpp 160-162) *)
Definition candidate_valid (c : bcand) : outcome sexn bool :=
  match bn_prevouts c with
  | [] => Ret false
  | l => if forallb (fun v => digest_valid (op_digest (bv_ref v))) l
         then match output_read neg1 (bn_script c) with Ret o => Ret (output_valid o) | Throw e => Throw e | Undef => Undef end
         else Ret false
  end.
(* boost.hpp 722-724 *)
Definition miner_address (key : secret) : bytes := hash160 (to_public parse ser key).
(* boost.cpp 388-396 *)
Definition bpuzzle_valid (c : bcand) (key : secret) : outcome sexn bool :=
  match candidate_valid c with
  | Ret true =>
      if negb (secret_valid key) then Ret false
      else match output_read neg1 (bn_script c) with
           | Ret o => Ret (output_valid o && (btype_eqb (bo_type o) Bounty || bytes_eqb (bo_hash o) (miner_address key)))
           | Throw e => Throw e
           | Undef => Undef
           end
  | x => x
  end.
(* boost.hpp 363-365 *)
Definition bpuzzle_work (c : bcand) (key : secret) : outcome sexn puzzle :=
  match output_read neg1 (bn_script c) with Ret o => Ret (work_puzzle o (miner_address key)) | Throw e => Throw e | Undef => Undef end.

(* boost.cpp 400-404, 412 *)
Definition bincomplete (c : bcand) (outs : list WireModel.output) : itx :=
  {| it_version := 1; it_inputs := map (fun v => {| ii_ref := bv_ref v; ii_seq := 0xffffffff |}) (bn_prevouts c); it_outputs := outs; it_locktime := 0 |}.
(* boost.cpp 417-426: an input for every prevout, in their order; index is a uint32 *)
Fixpoint binputs (t : itx) (script : bytes) (key : secret) (o : output) (x : solution) (index : N) (l : list bprevout) : outcome sexn (list WireModel.input) :=
  match l with
  | [] => Ret []
  | v :: r =>
      match decompile script with
      | Ret code =>
          match signature_sign H sign key {| sd_tx := t; sd_index := index; sd_value := bv_value v; sd_code := code |} (directive 1 false true) with
          | Some sig =>
              match input_write (from_solution hash160 sig (to_public parse ser key) x (bo_type o) (bo_bits o)) with
              | Some s =>
                  match binputs t script key o x ((index + 1) mod 2 ^ 32) r with
                  | Ret q => Ret ({| in_ref := bv_ref v; in_script := s; in_seq := 0xffffffff |} :: q)
                  | e => e
                  end
              | None => Undef
              end
          | None => Undef
          end
      | Throw e => Throw e
      | Undef => Undef
      end
  end.
(* boost.cpp 398-428. The sum of the amounts is not used. *)
Definition bredeem (c : bcand) (key : secret) (x : solution) (outs : list WireModel.output) : outcome sexn bytes :=
  match output_read neg1 (bn_script c) with
  | Ret o =>
      match binputs (bincomplete c outs) (bn_script c) key o x 0 (bn_prevouts c) with
      | Ret q => match tx_bytes {| tx_version := 1; tx_inputs := q; tx_outputs := outs; tx_locktime := 0 |} with Some b => Ret b | None => Undef end
      | Throw e => Throw e
      | Undef => Undef
      end
  | Throw e => Throw e
  | Undef => Undef
  end.
End Puzzle.
