(* Boost output and input scripts, and the proofs of work they stand for.
   Source: boost/boost.cpp, include/gigamonkey/boost/boost.hpp.
   Numbers are kept as in the other models: signed fields in Z, unsigned fields in N, digests as bytes.
   Candidates, puzzles and redeeming are in BoostRedeemModel.v, difficulty and profitability in DifficultyModel.v.
   Not modelled: the conversions to text, check_positive_zero and check_negative_zero (used nowhere), and
   proof::output_script, which is declared and not defined. *)
From Verif Require Import Base ScriptModel NumModel MerkleModel WireModel WorkModel MachineModel PatternModel.
Local Open Scope N_scope.

(* boost.hpp 15 *)
Inductive btype := Invalid | Bounty | Contract.

(* boost.hpp 35-63 *)
Record output := {
  bo_type : btype; bo_hash : bytes; bo_category : Z; bo_bits : bool; bo_content : bytes; bo_target : N;
  bo_tag : bytes; bo_nonce : N; bo_data : bytes }.
(* boost.hpp 403-406 *)
Definition no_output : output :=
  {| bo_type := Invalid; bo_hash := zero20; bo_category := 0; bo_bits := false; bo_content := repeat x00 32; bo_target := 0;
     bo_tag := []; bo_nonce := 0; bo_data := [] |}.
(* boost.hpp 421-431, 498-512 *)
Definition bounty_output (category : Z) (content : bytes) (target : N) (tag : bytes) (nonce : N) (data : bytes) (bits : bool) : output :=
  if 20 <? len tag then no_output
  else {| bo_type := Bounty; bo_hash := zero20; bo_category := category; bo_bits := bits; bo_content := content; bo_target := target;
          bo_tag := tag; bo_nonce := nonce; bo_data := data |}.
(* boost.hpp 433-445, 514-530: the tag is not tested *)
Definition contract_output (category : Z) (content : bytes) (target : N) (tag : bytes) (nonce : N) (data hash : bytes) (bits : bool) : output :=
  {| bo_type := Contract; bo_hash := hash; bo_category := category; bo_bits := bits; bo_content := content; bo_target := target;
     bo_tag := tag; bo_nonce := nonce; bo_data := data |}.
Definition is_invalid (t : btype) : bool := match t with Invalid => true | _ => false end.
(* boost.hpp 447-449 *)
Definition output_valid (o : output) : bool := negb (is_invalid (bo_type o)).

(* push_data (int), instruction.hpp 188-190 *)
Definition push_int (z : Z) : instr := push (sn_enc z).

(* "boostpow" *)
Definition boost_word : bytes := [x62; x6f; x6f; x73; x74; x70; x6f; x77].
(* boost.cpp 10-15 *)
Definition expand_target : program :=
  [op_instr OP_SIZE; push_int 4; op_instr OP_EQUALVERIFY; push_int 3; op_instr OP_SPLIT;
   op_instr OP_DUP; op_instr OP_BIN2NUM; push_int 3; push_int 33; op_instr OP_WITHIN; op_instr OP_VERIFY; op_instr OP_TOALTSTACK;
   op_instr OP_DUP; op_instr OP_BIN2NUM; op_instr OP_0; op_instr OP_GREATERTHAN; op_instr OP_VERIFY;
   push (repeat x00 29);
   op_instr OP_CAT; op_instr OP_FROMALTSTACK; push_int 3; op_instr OP_SUB; push_int 8; op_instr OP_MUL; op_instr OP_RSHIFT].
(* boost.cpp 25 *)
Definition ensure_positive : program := [push [x00]; op_instr OP_CAT; op_instr OP_BIN2NUM].
(* push_data (work::ASICBoost::Mask) *)
Definition push_mask : instr := push (sle 4 boost_mask).

(* ---- output scripts ---- *)
(* the part of the script that is the same for every output, boost.cpp 230-257 and 264-285; OP_2, OP_4, OP_5, OP_6
   and OP_8 are bytes 52, 54, 55, 56 and 58 *)
Definition start_code : program :=
  [op_instr OP_CAT; op_instr OP_SWAP;
   op_instr x55; op_instr OP_ROLL; op_instr OP_DUP; op_instr OP_TOALTSTACK; op_instr OP_CAT;
   op_instr x52; op_instr OP_PICK; op_instr OP_TOALTSTACK].
Definition bits_code : program :=
  [op_instr x56; op_instr OP_ROLL; op_instr OP_SIZE; op_instr x54; op_instr OP_EQUALVERIFY; op_instr OP_CAT;
   op_instr x56; op_instr OP_ROLL; op_instr OP_SIZE; push_int 32; op_instr OP_LESSTHANOREQUAL; op_instr OP_VERIFY; op_instr OP_CAT;
   op_instr OP_SWAP; op_instr OP_CAT; op_instr OP_HASH256;
   op_instr OP_SWAP; op_instr OP_TOALTSTACK; op_instr OP_CAT; op_instr OP_TOALTSTACK;
   push_mask; op_instr OP_DUP; op_instr OP_INVERT; op_instr OP_TOALTSTACK; op_instr OP_AND;
   op_instr OP_SWAP; op_instr OP_FROMALTSTACK; op_instr OP_AND; op_instr OP_OR;
   op_instr OP_FROMALTSTACK; op_instr OP_CAT].
Definition plain_code : program :=
  [op_instr x55; op_instr OP_ROLL; op_instr OP_SIZE; op_instr x54; op_instr OP_EQUALVERIFY; op_instr OP_CAT;
   op_instr x55; op_instr OP_ROLL; op_instr OP_SIZE; op_instr x58; op_instr OP_EQUALVERIFY; op_instr OP_CAT;
   op_instr OP_SWAP; op_instr OP_CAT; op_instr OP_HASH256;
   op_instr OP_SWAP; op_instr OP_TOALTSTACK; op_instr OP_CAT; op_instr OP_CAT].
Definition end_code : program :=
  [op_instr OP_SWAP; op_instr OP_SIZE; op_instr x54; op_instr OP_EQUALVERIFY; op_instr OP_CAT;
   op_instr OP_FROMALTSTACK; op_instr OP_CAT;
   op_instr OP_SWAP; op_instr OP_SIZE; op_instr x54; op_instr OP_EQUALVERIFY; op_instr OP_CAT;
   op_instr OP_HASH256] ++ ensure_positive ++
  [op_instr OP_FROMALTSTACK] ++ expand_target ++ ensure_positive ++
  [op_instr OP_LESSTHAN; op_instr OP_VERIFY;
   op_instr OP_DUP; op_instr OP_HASH160; op_instr OP_FROMALTSTACK; op_instr OP_EQUALVERIFY; op_instr OP_CHECKSIG].
Definition code (bits : bool) : program := start_code ++ (if bits then bits_code else plain_code) ++ end_code.

(* boost.cpp 216-289 *)
Definition output_program (o : output) : program :=
  [push boost_word; op_instr OP_DROP] ++
  (match bo_type o with Contract => [push (bo_hash o)] | _ => [] end) ++
  [push (sle 4 (bo_category o)); push (bo_content o); push (le 4 (bo_target o)); push (bo_tag o); push (le 4 (bo_nonce o)); push (bo_data o)] ++
  code (bo_bits o).
Definition output_write (o : output) : option bytes :=
  match bo_type o with Invalid => Some [] | _ => compile (output_program o) end.
(* boost.hpp 453-460 *)
Definition output_size (o : output) : N :=
  match bo_type o with
  | Invalid => 0
  | t => min_push_size (bo_tag o) + min_push_size (bo_data o) + (match t with Contract => 21 | _ => 0 end) + 112 + (if bo_bits o then 76 else 59)
  end.

(* boost.cpp 85-172.  The variables: 0 MinerPubkeyHash, 1 Category, 2 Content, 3 Target, 4 Tag, 5 UserNonce,
   6 AdditionalData.  A literal number is push {n}, which matches every push of that number. *)
Definition number (z : Z) : parg := APush (PushValue z).
Definition fields_pattern : list parg :=
  [APush (PushIs boost_word); AOp OP_DROP;
   AOptional (PPushSize 20 (Some 0%nat));
   APushSize 4 (Some 1%nat);
   APushSize 32 (Some 2%nat);
   APushSize 4 (Some 3%nat);
   APush (PushRead 4);
   APushSize 4 (Some 5%nat);
   APush (PushRead 6)].
Definition start_pattern : list parg :=
  [AOp OP_CAT; AOp OP_SWAP;
   number 5; AOp OP_ROLL; AOp OP_DUP; AOp OP_TOALTSTACK; AOp OP_CAT;
   number 2; AOp OP_PICK; AOp OP_TOALTSTACK].
Definition bits_pattern : list parg :=
  [number 6; AOp OP_ROLL; AOp OP_SIZE; number 4; AOp OP_EQUALVERIFY; AOp OP_CAT;
   number 6; AOp OP_ROLL; AOp OP_SIZE; number 32; AOp OP_LESSTHANOREQUAL; AOp OP_VERIFY; AOp OP_CAT;
   AOp OP_SWAP; AOp OP_CAT; AOp OP_HASH256;
   AOp OP_SWAP; AOp OP_TOALTSTACK; AOp OP_CAT; AOp OP_TOALTSTACK;
   AInstr push_mask; AOp OP_DUP; AOp OP_INVERT; AOp OP_TOALTSTACK; AOp OP_AND;
   AOp OP_SWAP; AOp OP_FROMALTSTACK; AOp OP_AND; AOp OP_OR;
   AOp OP_FROMALTSTACK; AOp OP_CAT].
Definition plain_pattern : list parg :=
  [number 5; AOp OP_ROLL; AOp OP_SIZE; number 4; AOp OP_EQUALVERIFY; AOp OP_CAT;
   number 5; AOp OP_ROLL; AOp OP_SIZE; number 8; AOp OP_EQUALVERIFY; AOp OP_CAT;
   AOp OP_SWAP; AOp OP_CAT; AOp OP_HASH256;
   AOp OP_SWAP; AOp OP_TOALTSTACK; AOp OP_CAT; AOp OP_CAT].
Definition end_pattern : list parg :=
  [AOp OP_SWAP; AOp OP_SIZE; number 4; AOp OP_EQUALVERIFY; AOp OP_CAT;
   AOp OP_FROMALTSTACK; AOp OP_CAT;
   AOp OP_SWAP; AOp OP_SIZE; number 4; AOp OP_EQUALVERIFY; AOp OP_CAT;
   AOp OP_HASH256; AProgram ensure_positive;
   AOp OP_FROMALTSTACK; AProgram expand_target; AProgram ensure_positive;
   AOp OP_LESSTHAN; AOp OP_VERIFY;
   AOp OP_DUP; AOp OP_HASH160; AOp OP_FROMALTSTACK; AOp OP_EQUALVERIFY; AOp OP_CHECKSIG].
Definition code_pattern (bits : bool) : list parg := start_pattern ++ (if bits then bits_pattern else plain_pattern) ++ end_pattern.
Definition output_pattern (bits : bool) : pat := pattern_of (fields_pattern ++ code_pattern bits).

(* boost.cpp 180-212 *)
Definition output_of (bits : bool) (v : vars) : output :=
  if 20 <? len (get 4 v) then no_output
  else
    let hashed := negb (len (get 0 v) =? 0) in
    {| bo_type := if hashed then Contract else Bounty;
       bo_hash := if hashed then get 0 v else zero20;
       bo_category := sle_val (get 1 v); bo_bits := bits; bo_content := get 2 v; bo_target := le_val (get 3 v);
       bo_tag := get 4 v; bo_nonce := le_val (get 5 v); bo_data := get 6 v |}.
Definition output_vars : vars := repeat [] 7.

Section Read.
Variable neg1 : bytes.

(* how a match ends for the caller *)
Definition matched {A} (r : vars * mres) (yes no : vars -> outcome sexn A) : outcome sexn A :=
  match r with
  | (v, Matched true) => yes v
  | (v, Matched false) => no v
  | (_, MEscape e) => Throw e
  | (_, MBeyond) | (_, MEndless) => Undef
  end.
(* boost.cpp 174-178: the second pattern starts with what the first one has written *)
Definition output_read (b : bytes) : outcome sexn output :=
  matched (pmatch neg1 0 (output_pattern true) b output_vars)
    (fun v => Ret (output_of true v))
    (fun v => matched (pmatch neg1 0 (output_pattern false) b v)
       (fun v => Ret (output_of false v))
       (fun _ => Ret no_output)).
(* boost.hpp 470-472: the type, as a number *)
Definition btype_number (t : btype) : Z := match t with Invalid => 0 | Bounty => 1 | Contract => 2 end.
Definition output_version (b : bytes) : outcome sexn Z :=
  match output_read b with Ret o => Ret (btype_number (bo_type o)) | Throw e => Throw e | Undef => Undef end.
End Read.

(* ---- input scripts ---- *)
(* boost.hpp 145-155; ExtraNonce1 is a big-endian uint32 *)
Record input := {
  bi_type : btype; bi_sig : bytes; bi_key : bytes; bi_nonce : N; bi_timestamp : N; bi_extra2 : bytes; bi_extra1 : N;
  bi_bits : option Z; bi_hash : bytes }.
(* boost.hpp 199: the members of input_script {} are zero *)
Definition no_input : input :=
  {| bi_type := Invalid; bi_sig := []; bi_key := []; bi_nonce := 0; bi_timestamp := 0; bi_extra2 := []; bi_extra1 := 0;
     bi_bits := None; bi_hash := zero20 |}.
(* boost.hpp 532-598, 619-664 *)
Definition bounty_input (sig key : bytes) (nonce timestamp : N) (extra2 : bytes) (extra1 : N) (bits : option Z) (hash : bytes) : input :=
  {| bi_type := Bounty; bi_sig := sig; bi_key := key; bi_nonce := nonce; bi_timestamp := timestamp; bi_extra2 := extra2;
     bi_extra1 := extra1; bi_bits := bits; bi_hash := hash |}.
Definition contract_input (sig key : bytes) (nonce timestamp : N) (extra2 : bytes) (extra1 : N) (bits : option Z) : input :=
  {| bi_type := Contract; bi_sig := sig; bi_key := key; bi_nonce := nonce; bi_timestamp := timestamp; bi_extra2 := extra2;
     bi_extra1 := extra1; bi_bits := bits; bi_hash := zero20 |}.
Definition has_bits (i : input) : bool := match bi_bits i with Some _ => true | None => false end.
(* boost.hpp 600-603 *)
Definition input_valid (i : input) : bool :=
  negb (is_invalid (bi_type i)) && ((len (bi_extra2 i) =? 8) || (has_bits i && (len (bi_extra2 i) <=? 32))).
(* boost.cpp 201-214 *)
Definition input_program (i : input) : program :=
  match bi_type i with
  | Invalid => []
  | t => [push (bi_sig i); push (bi_key i); push (le 4 (bi_nonce i)); push (le 4 (bi_timestamp i)); push (bi_extra2 i); push (be 4 (bi_extra1 i))] ++
         (match bi_bits i with Some g => [push (sle 4 g)] | None => [] end) ++
         (match t with Bounty => [push (bi_hash i)] | _ => [] end)
  end.
(* boost.hpp 605-607 *)
Definition input_write (i : input) : option bytes := compile (input_program i).
(* boost.hpp 609-617 *)
Definition input_size (i : input) : N :=
  match bi_type i with
  | Invalid => 0
  | t => min_push_size (bi_sig i) + min_push_size (bi_key i) + min_push_size (bi_extra2 i) +
         (match t with Bounty => 21 | _ => 0 end) + (if has_bits i then 5 else 0) + 15
  end.
(* boost.hpp 696-702 *)
Definition input_expected_size (t : btype) (bits compressed : bool) : N :=
  match t with
  | Invalid => 0
  | _ => signature_max + (if compressed then 34 else 66) + (match t with Bounty => 21 | _ => 0 end) + (if bits then 5 else 0) + 24
  end.

(* boost.cpp 33-50.  The variables: 0 Signature, 1 MinerPubkey, 2 Nonce, 3 Timestamp, 4 ExtraNonce2, 5 ExtraNonce1,
   6 GeneralPurposeBits, 7 MinerPubkeyHash *)
Definition input_pattern : pat :=
  pattern_of [APush (PushRead 0); APattern (pubkey_pattern 1); APushSize 4 (Some 2%nat); APushSize 4 (Some 3%nat); APush (PushRead 4);
              APushSize 4 (Some 5%nat); AOptional (PPushSize 4 (Some 6%nat)); AOptional (PPushSize 20 (Some 7%nat))].
Definition input_vars : vars := repeat [] 8.
(* boost.cpp 52-82 *)
Definition input_of (v : vars) : input :=
  let masked := negb (len (get 6 v) =? 0) in
  let hashed := negb (len (get 7 v) =? 0) in
  if (if masked then 32 <? len (get 4 v) else negb (len (get 4 v) =? 8)) then no_input
  else {| bi_type := if hashed then Bounty else Contract; bi_sig := get 0 v; bi_key := get 1 v; bi_nonce := le_val (get 2 v);
          bi_timestamp := le_val (get 3 v); bi_extra2 := get 4 v; bi_extra1 := be_val (get 5 v);
          bi_bits := if masked then Some (sle_val (get 6 v)) else None;
          bi_hash := if hashed then get 7 v else zero20 |}.
Definition input_read (neg1 b : bytes) : outcome sexn input :=
  matched (pmatch neg1 0 input_pattern b input_vars) (fun v => Ret (input_of v)) (fun _ => Ret no_input).

(* ---- work ---- *)
(* boost.hpp 772-778 *)
Definition boost_header (tag hash : bytes) : bytes := tag ++ hash.
Definition boost_body (nonce : N) (data : bytes) : bytes := le 4 nonce ++ data.
(* boost.cpp 393-401; digest160::valid is not zero *)
Definition puzzle_of (o : output) (hash : bytes) : puzzle :=
  {| pz_candidate := {| ca_category := bo_category o; ca_digest := bo_content o; ca_target := bo_target o; ca_path := mkpath 0 [] |};
     pz_header := boost_header (bo_tag o) hash; pz_body := boost_body (bo_nonce o) (bo_data o);
     pz_mask := if bo_bits o then boost_mask else (-1)%Z |}.
Definition work_puzzle (o : output) (address : bytes) : puzzle :=
  if negb (output_valid o) then empty_puzzle
  else
    let hash := match bo_type o with Contract => bo_hash o | _ => address end in
    if bytes_eqb hash zero20 then empty_puzzle else puzzle_of o hash.

(* boost.hpp 278-297 *)
Record bproof := { bp_work : wproof; bp_type : btype; bp_sig : bytes; bp_key : bytes }.
Definition no_proof : bproof := {| bp_work := empty_wproof; bp_type := Invalid; bp_sig := []; bp_key := [] |}.
Definition btype_eqb (a b : btype) : bool :=
  match a, b with Invalid, Invalid | Bounty, Bounty | Contract, Contract => true | _, _ => false end.
(* boost.cpp 365-391 *)
Definition proof_of (o : output) (i : input) : bproof :=
  if is_invalid (bo_type o) || negb (btype_eqb (bi_type i) (bo_type o)) then no_proof
  else
    let hash := match bo_type o with Bounty => bi_hash i | _ => bo_hash o end in
    let make bits :=
      {| bp_work := proof_of_job {| jb_puzzle := puzzle_of o hash; jb_extra1 := bi_extra1 i |}
           {| sh_timestamp := bi_timestamp i; sh_nonce := bi_nonce i; sh_extra2 := bi_extra2 i; sh_bits := bits |};
         bp_type := bo_type o; bp_sig := bi_sig i; bp_key := bi_key i |} in
    match bo_bits o, bi_bits i with
    | true, Some g => make (Some g)
    | false, None => make None
    | _, _ => no_proof
    end.
(* boost.hpp 708-710: the bits are left out *)
Definition input_solution (i : input) : solution :=
  {| so_share := {| sh_timestamp := bi_timestamp i; sh_nonce := bi_nonce i; sh_extra2 := bi_extra2 i; sh_bits := None |}; so_extra1 := bi_extra1 i |}.

Section Hashes.
Variable H : bytes -> bytes.
Variable H160 : bytes -> bytes.
(* boost.cpp 295-320; solution::valid is a timestamp that is not zero (proof.hpp 117-119, 218-220) *)
Definition from_solution (sig key : bytes) (x : solution) (t : btype) (masked : bool) : input :=
  let s := so_share x in
  if is_invalid t || (sh_timestamp s =? 0) || (negb masked && match sh_bits s with Some _ => true | None => false end) then no_input
  else
    let bits := if masked then Some (match sh_bits s with Some g => g | None => 0%Z end) else None in
    match t with
    | Bounty => bounty_input sig key (sh_nonce s) (sh_timestamp s) (sh_extra2 s) (so_extra1 x) bits (H160 key)
    | _ => contract_input sig key (sh_nonce s) (sh_timestamp s) (sh_extra2 s) (so_extra1 x) bits
    end.
(* boost.hpp 726-728 *)
Definition proof_input (p : bproof) : input :=
  from_solution (bp_sig p) (bp_key p) (wp_solution (bp_work p)) (bp_type p) (negb (pz_mask (wp_puzzle (bp_work p)) =? 0)%Z).
(* boost.hpp 730-732 *)
Definition bproof_valid (p : bproof) : bool :=
  let m := pz_mask (wp_puzzle (bp_work p)) in ((m =? -1)%Z || (m =? boost_mask)%Z) && wproof_valid H (bp_work p).
End Hashes.

(* boost.hpp 748-750: the second comparison is of b.Prevouts with itself *)
Record bcandidate := { bc_script : bytes; bc_prevouts : list (bytes * Z) }.
Definition bcandidate_eqb (a b : bcandidate) : bool := bytes_eqb (bc_script a) (bc_script b).

(* boost.cpp 430-435 *)
Definition puzzle_expected_size (o : output) (compressed : bool) (prevouts : N) : N :=
  let s := input_expected_size (bo_type o) (bo_bits o) compressed in
  var_int_size prevouts + prevouts * (s + var_int_size s + 40).
