(* The model run on the values of /repo/test/testExpandCompact.cpp, testDifficulty.cpp, testTimestamp.cpp,
   testWorkString.cpp, testPush.cpp, testGenesis.cpp and testWork.cpp. *)
From Coq Require Import String.
From Verif Require Import Base WireModel TextModel ScriptModel MerkleModel WorkModel ExtModel DifficultyModel TimeModel RawModel Sha256Spec.
Local Open Scope N_scope.

(* testExpandCompact.cpp *)
Definition cpt (e d : N) : N := encode (n2b e) (le 3 d).
Succeed Example expand_vectors :
  map expand [cpt 2 0xabcd; cpt 3 0xabcd; cpt 4 0xabcd; cpt 5 0xabcd; cpt 33 0xabcd; success_half; success_quarter;
              success_eighth; success_sixteenth]
  = [0xab; 0xabcd; 0xabcd00; 0xabcd0000; 0xabcd * 2 ^ 240; 2 ^ 255; 2 ^ 254; 2 ^ 253; 2 ^ 252] :=
  ltac:(vm_compute; reflexivity).
Succeed Example expand_negative : compact_valid (cpt 32 0x800000) = false :=
  ltac:(vm_compute; reflexivity).

(* testDifficulty.cpp *)
Definition df (n d : N) : float := Num (double n d).
Succeed Example difficulty_unit_vector : number_of_difficulty (df 1 1) = Some difficulty_unit :=
  ltac:(vm_compute; reflexivity).
Definition increasing : list float :=
  [difficulty_of success_half; difficulty_of success_quarter; difficulty_of success_eighth; difficulty_of success_sixteenth;
   df 1 1; df 2 1].
Fixpoint increases (l : list float) : bool :=
  match l with a :: (b :: _) as r => float_ltb a b && negb (float_ltb b a) && increases r | _ => true end.
Succeed Example difficulty_order_vectors : increases increasing = true :=
  ltac:(vm_compute; reflexivity).
Definition comes_back (f : float) : bool :=
  match compact_of_difficulty f with
  | Some c => match compact_of_difficulty (difficulty_of c) with Some d => c =? d | None => false end
              && match number_of_difficulty f with Some n => expand (compact_of x00 n) =? expand c | None => false end
  | None => false
  end.
Succeed Example difficulty_vectors : map comes_back [df 1 10000; df 1000 1; df 1 1; df 120000 1] = [true; true; true; true] :=
  ltac:(vm_compute; reflexivity).
Succeed Example difficulty_zero : expand (compact_of x00 0) = expand 0 :=
  ltac:(vm_compute; reflexivity).

(* testTimestamp.cpp *)
Succeed Example timestamp_vector :
  of_time_t 1601529910 = Ret 1601529910 /\ time_text 1601529910 = Ret (text "2020-10-01 05:25:10")
  /\ d_year (t_date (gmtime 1601529910)) = 2020%Z
  /\ read_time (text "2020-10-01 05:25:10") [] = Ret 1601529910 :=
  ltac:(vm_compute; repeat split; reflexivity).

(* testWorkString.cpp *)
Definition genesis_header : bytes := firstn 80 (match hex_read genesis_text with Some b => b | None => [] end).
Definition genesis_hash : N := 0x000000000019d6689c085ae165831e934ff763ae46a2a6c172b3f1b60a8ce26f.
Succeed Example work_string_vectors :
  let w := header_of_slice genesis_header in
  header_write w = genesis_header /\ string_hash sha256d w = genesis_hash /\ le_val (sha256d genesis_header) = genesis_hash
  /\ string_valid sha256d w = true /\ header_valid sha256d w = true :=
  ltac:(vm_compute; repeat split; reflexivity).
Definition combined : Z := i32_of 0x63E2BC85.
Succeed Example asicboost_vectors :
  (Z.land combined (i32_of 0xE0001FFF) = boost_version combined
   /\ Z.shiftr (Z.land combined (Z.lnot (i32_of 0xE0001FFF))) 13 = Z.of_N (general_bits combined)
   /\ Z.shiftr (Z.land combined (i32_of 0xE0000000)) 16 + Z.land combined 0x1FFF = Z.of_N (magic_number combined)
   /\ category (magic_number combined) (general_bits combined) = combined)%Z :=
  ltac:(vm_compute; repeat split; reflexivity).

(* testGenesis.cpp *)
Succeed Example genesis_vectors :
  match genesis with
  | Some g => block_write g = match hex_read genesis_text with Some b => b | None => [] end
              /\ le_val (sha256d (header_write (bl_header g))) = genesis_hash
  | None => False
  end :=
  ltac:(vm_compute; split; reflexivity).

(* testPush.cpp *)
Definition minimal_of (b : bytes) : option bool :=
  match decompile b with Ret [i] => if serror_is_ok (verify_instruction i) then Some (is_minimal_instruction i) else None | _ => None end.
Definition hex (s : string) : bytes := match hex_read (text s) with Some b => b | None => [] end.
Succeed Example push_minimal_vectors :
  map (fun c => minimal_of (hex c))
    ["00"; "51"; "0100"; "0101"; "52"; "0102"; "60"; "0110"; "0111"; "020101"; "4c00"; "4d0000"; "4e00000000"; "4c0100";
     "4c020001"]%string
  = map Some [true; true; true; false; true; false; true; false; true; true; false; false; false; false; false]
  /\ minimal_of (hex "4c4c" ++ repeat x00 76) = Some true :=
  ltac:(vm_compute; split; reflexivity).
Definition size_of (i : instr) : N := match compile [i] with Some b => len b | None => 0 end.
Succeed Example push_size_vectors :
  map size_of [op_instr x00; push []; push [x00]; op_instr x4f; push [x81]; op_instr x51; push [x01]; op_instr x60;
               push [x10]; push [x11]; push [x82]; push [x11; x00]] = [1; 1; 2; 1; 1; 1; 1; 1; 1; 2; 2; 3] :=
  ltac:(vm_compute; reflexivity).

(* testWork.cpp: the first puzzle without and with a mask, solved; of the 224 turns from nonce 0 the last three *)
Definition work_puzzle (target : N) (mask : Z) : puzzle :=
  let m := text "Capitalists can spend more energy than socialists." in
  {| pz_candidate := {| ca_category := category 0x21e8 0xffff; ca_digest := sha256 m; ca_target := target; ca_path := mkpath 0 [] |};
     pz_header := []; pz_body := m; pz_mask := mask |}.
Definition work_start (b : option Z) : solution :=
  {| so_share := {| sh_timestamp := 1; sh_nonce := 221; sh_extra2 := be 8 90984; sh_bits := b |}; so_extra1 := 353 |}.
Definition solved (p : puzzle) (s : solution) : bool :=
  match cpu_solve sha256d 2000 p s with
  | Done (Ret q) => wproof_valid sha256d q && negb (wproof_valid sha256d {| wp_puzzle := wp_puzzle q; wp_solution := s |})
                    && (magic_number (h_version (wproof_string sha256d q)) =? 0x21e8)
                    && (general_bits (h_version (wproof_string sha256d q)) =? 0xffff)
  | _ => false
  end.
Succeed Example work_vectors :
  solved (work_puzzle (cpt 32 0x010000) (-1)) (work_start None) = true
  /\ solved (work_puzzle (cpt 32 0x010000) boost_mask) (work_start (Some (-1)%Z)) = true :=
  ltac:(vm_compute; split; reflexivity).
