(* Which scripts boost scripts are, byte by byte. *)
From Verif Require Import Base ScriptModel ScriptSpec NumModel NumSpec WireSpec WorkModel PatternModel PatternSpec BoostModel.
Local Open Scope N_scope.

Section Forms.
Variable neg1 : bytes.

(* one instruction that pushes d, however it is written *)
Definition pushes (d c : bytes) : Prop := exists i, whole i c /\ is_push_op (i_op i) = true /\ push_value neg1 i = d.

(* pieces of a script: fixed bytes, and pushes of a given number *)
Inductive token := Exact (b : bytes) | Num (z : Z).
Definition token_form (t : token) (c : bytes) : Prop :=
  match t with
  | Exact b => c = b
  | Num z => exists d, pushes d c /\ number_of d z
  end.
Inductive formed : list token -> bytes -> Prop :=
| formed_nil : formed [] []
| formed_cons t l c r : token_form t c -> formed l r -> formed (t :: l) (c ++ r).
End Forms.

(* the check of a boost output, with and without version bits *)
Definition final_bytes : bytes :=
  [x88; x7e; xaa; x01; x00; x7e; x81; x6c; x82; x54; x88; x53; x7f; x76; x81; x53; x01; x21; xa5; x69; x6b; x76; x81; x00; xa0; x69; x1d] ++
  repeat x00 29 ++
  [x7e; x6c; x53; x94; x58; x95; x99; x01; x00; x7e; x81; x9f; x69; x76; xa9; x6c; x88; xac].
Definition bits_tokens : list token :=
  [Exact [x7e; x7c]; Num 5; Exact [x7a; x76; x6b; x7e]; Num 2; Exact [x79; x6b];
   Num 6; Exact [x7a; x82]; Num 4; Exact [x88; x7e];
   Num 6; Exact [x7a; x82]; Num 32;
   Exact [xa1; x69; x7e; x7c; x7e; xaa; x7c; x6b; x7e; x6b; x04; xff; x1f; x00; xe0; x76; x83; x6b; x84; x7c; x6c; x84; x85; x6c; x7e; x7c; x82]; Num 4;
   Exact [x88; x7e; x6c; x7e; x7c; x82]; Num 4; Exact final_bytes].
Definition plain_tokens : list token :=
  [Exact [x7e; x7c]; Num 5; Exact [x7a; x76; x6b; x7e]; Num 2; Exact [x79; x6b];
   Num 5; Exact [x7a; x82]; Num 4; Exact [x88; x7e];
   Num 5; Exact [x7a; x82]; Num 8;
   Exact [x88; x7e; x7c; x7e; xaa; x7c; x6b; x7e; x7e; x7c; x82]; Num 4;
   Exact [x88; x7e; x6c; x7e; x7c; x82]; Num 4; Exact final_bytes].
Definition tokens (bits : bool) : list token := if bits then bits_tokens else plain_tokens.
(* the same with every number written as an opcode or, for 32, as a one-byte push *)
Definition token_bytes (t : token) : bytes :=
  match t with Exact b => b | Num z => if (z <=? 16)%Z then [n2b (0x50 + Z.to_N z)] else [x01; n2b (Z.to_N z)] end.
Definition check_bytes (bits : bool) : bytes := concat (map token_bytes (tokens bits)).

(* what fields hold *)
Definition output_fields (o : output) : Prop :=
  len (bo_hash o) = 20 /\ i32 (bo_category o) /\ len (bo_content o) = 32 /\ u32 (bo_target o) /\ u32 (bo_nonce o).
(* an output of one of the two kinds *)
Definition sound_output (o : output) : Prop :=
  output_fields o /\ len (bo_tag o) <= 20 /\
  match bo_type o with Invalid => False | Bounty => bo_hash o = zero20 | Contract => True end.
Definition input_fields (i : input) : Prop :=
  len (bi_hash i) = 20 /\ (len (bi_key i) = 33 \/ len (bi_key i) = 65) /\ u32 (bi_nonce i) /\ u32 (bi_timestamp i) /\ u32 (bi_extra1 i) /\
  match bi_bits i with Some g => i32 g | None => True end.
Definition extra2_fits (i : input) : Prop :=
  match bi_bits i with Some _ => len (bi_extra2 i) <= 32 | None => len (bi_extra2 i) = 8 end.
Definition sound_input (i : input) : Prop :=
  input_fields i /\ extra2_fits i /\
  match bi_type i with Invalid => False | Bounty => True | Contract => bi_hash i = zero20 end.

Section Scripts.
Variable neg1 : bytes.
(* the data of a boost output: h is the address of a contract *)
Definition fields_form (h : option bytes) (category content target tag nonce data c : bytes) : Prop :=
  exists w ch c1 c2 c3 c4 c5 c6,
    c = w ++ [x75] ++ ch ++ c1 ++ c2 ++ c3 ++ c4 ++ c5 ++ c6 /\
    data_push boost_word w /\
    match h with Some d => data_push d ch /\ len d = 20 | None => ch = [] end /\
    (data_push category c1 /\ len category = 4) /\ (data_push content c2 /\ len content = 32) /\ (data_push target c3 /\ len target = 4) /\
    pushes neg1 tag c4 /\ (data_push nonce c5 /\ len nonce = 4) /\ pushes neg1 data c6.
(* s is a boost script for o *)
Definition output_form (o : output) (s : bytes) : Prop := exists c e,
  s = c ++ e /\
  fields_form (match bo_type o with Contract => Some (bo_hash o) | _ => None end)
    (sle 4 (bo_category o)) (bo_content o) (le 4 (bo_target o)) (bo_tag o) (le 4 (bo_nonce o)) (bo_data o) c /\
  formed neg1 (tokens (bo_bits o)) e.

Definition input_form (i : input) (s : bytes) : Prop := exists cs ck cn ct c2 c1 cb ch,
  s = cs ++ ck ++ cn ++ ct ++ c2 ++ c1 ++ cb ++ ch /\
  pushes neg1 (bi_sig i) cs /\ data_push (bi_key i) ck /\ data_push (le 4 (bi_nonce i)) cn /\ data_push (le 4 (bi_timestamp i)) ct /\
  pushes neg1 (bi_extra2 i) c2 /\ data_push (be 4 (bi_extra1 i)) c1 /\
  match bi_bits i with Some g => data_push (sle 4 g) cb | None => cb = [] end /\
  match bi_type i with Bounty => data_push (bi_hash i) ch | _ => ch = [] end.
End Scripts.

(* data that push_data reads back as they are *)
Definition kept (neg1 d : bytes) : Prop := d = [x81] -> neg1 = [x81].

(* the work of a boost: the document that is hashed into the merkle root, and the header *)
Definition boost_document (o : output) (i : input) (hash : bytes) : bytes :=
  bo_tag o ++ hash ++ be 4 (bi_extra1 i) ++ bi_extra2 i ++ le 4 (bo_nonce o) ++ bo_data o.
Definition boost_version_field (o : output) (i : input) : Z :=
  match bi_bits i with
  | Some g => Z.lor (Z.land (bo_category o) boost_mask) (Z.land g (Z.lnot boost_mask))
  | None => bo_category o
  end.
Definition boost_header_bytes (H : bytes -> bytes) (o : output) (i : input) (hash : bytes) : bytes :=
  sle 4 (boost_version_field o i) ++ bo_content o ++ H (boost_document o i hash) ++ le 4 (bi_timestamp i) ++ le 4 (bo_target o) ++ le 4 (bi_nonce i).
(* the two scripts belong together *)
Definition paired (o : output) (i : input) : Prop :=
  bo_type o <> Invalid /\ bi_type i = bo_type o /\ bo_bits o = has_bits i.
Definition miner_hash (o : output) (i : input) : bytes := match bo_type o with Bounty => bi_hash i | _ => bo_hash o end.

(* ---- how scripts are written ---- *)
Definition shortest_push (d c : bytes) : Prop := push_form d c /\ forall e, push_form d e -> len c <= len e.
(* a push of 2 to 75 bytes *)
Definition plain_push (d : bytes) : bytes := n2b (len d) :: d.
Definition output_bytes (o : output) (tag data : bytes) : bytes :=
  plain_push boost_word ++ [x75] ++
  (match bo_type o with Contract => plain_push (bo_hash o) | _ => [] end) ++
  plain_push (sle 4 (bo_category o)) ++ plain_push (bo_content o) ++ plain_push (le 4 (bo_target o)) ++ tag ++
  plain_push (le 4 (bo_nonce o)) ++ data ++ check_bytes (bo_bits o).
Definition input_bytes (i : input) (sig extra2 : bytes) : bytes :=
  sig ++ plain_push (bi_key i) ++ plain_push (le 4 (bi_nonce i)) ++ plain_push (le 4 (bi_timestamp i)) ++ extra2 ++
  plain_push (be 4 (bi_extra1 i)) ++
  (match bi_bits i with Some g => plain_push (sle 4 g) | None => [] end) ++
  (match bi_type i with Bounty => plain_push (bi_hash i) | _ => [] end).
(* what a push of d is read back as *)
Definition back (neg1 d : bytes) : bytes := if bytes_eqb d [x81] then neg1 else d.
Definition output_back (neg1 : bytes) (o : output) : output :=
  {| bo_type := bo_type o; bo_hash := bo_hash o; bo_category := bo_category o; bo_bits := bo_bits o; bo_content := bo_content o;
     bo_target := bo_target o; bo_tag := back neg1 (bo_tag o); bo_nonce := bo_nonce o; bo_data := back neg1 (bo_data o) |}.
Definition input_back (neg1 : bytes) (i : input) : input :=
  {| bi_type := bi_type i; bi_sig := back neg1 (bi_sig i); bi_key := bi_key i; bi_nonce := bi_nonce i; bi_timestamp := bi_timestamp i;
     bi_extra2 := back neg1 (bi_extra2 i); bi_extra1 := bi_extra1 i; bi_bits := bi_bits i; bi_hash := bi_hash i |}.
(* the size min_push_size counts too many bytes for *)
Definition miscounted (d : bytes) : N := if (len d =? 75) || (len d =? 255) then 1 else if len d =? 65535 then 2 else 0.

(* a script made of instructions *)
Inductive instructions : bytes -> Prop :=
| ins_nil : instructions []
| ins_cons i c r : whole i c -> instructions r -> instructions (c ++ r).

(* what can be written *)
Definition writable_output (o : output) : Prop :=
  output_fields o /\ len (bo_tag o) < 2 ^ 31 /\ len (bo_data o) < 2 ^ 31 /\ bo_type o <> Invalid.
Definition writable_input (i : input) : Prop :=
  input_fields i /\ len (bi_sig i) < 2 ^ 31 /\ len (bi_extra2 i) < 2 ^ 31 /\ bi_type i <> Invalid.

(* the input is one that the proof of the two scripts can give back *)
Definition agreed (H160 : bytes -> bytes) (o : output) (i : input) : Prop :=
  paired o i /\ bi_timestamp i <> 0 /\ match bi_type i with Bounty => bi_hash i = H160 (bi_key i) | _ => bi_hash i = zero20 end.
Definition with_bits (i : input) (g : Z) : input :=
  {| bi_type := bi_type i; bi_sig := bi_sig i; bi_key := bi_key i; bi_nonce := bi_nonce i; bi_timestamp := bi_timestamp i; bi_extra2 := bi_extra2 i;
     bi_extra1 := bi_extra1 i; bi_bits := Some g; bi_hash := bi_hash i |}.
