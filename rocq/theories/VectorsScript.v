(* The model run on the values of /repo/test/testScript.cpp. *)
From Coq Require Import String.
From Verif Require Import Base WireModel TextModel ScriptModel NumModel StackModel MachineModel Sha1Spec Sha256Spec Ripemd160Spec.
Local Open Scope N_scope.

Definition real_externals : externals :=
  {| x_ripemd160 := ripemd160; x_sha1 := sha1; x_sha256 := sha256; x_div := Z.quot; x_mod := Z.rem |}.
Definition run_script (ux lx : bytes) (f : flag) : outcome sexn result :=
  evaluate real_externals None (script_config f false) [x81] ux lx.

(* testScript.cpp 59-72 *)
Inductive verdict := Yes | No | Err.
Definition verdict_of (r : result) : verdict :=
  if serror_is_ok (r_error r) then if r_success r then Yes else No else Err.
Definition same_verdict (a b : verdict) : bool :=
  match a, b with Yes, Yes | No, No | Err, Err => true | _, _ => false end.
Definition case : Type := verdict * bytes * bytes * flag.
Definition case_ok (c : case) : bool :=
  match c with (v, ux, lx, f) => match run_script ux lx f with Ret r => same_verdict v (verdict_of r) | _ => false end end.

(* testScript.cpp 430-466 *)
Definition compiled (p : program) : bytes := match compile p with Some b => b | None => [] end.
Definition stack_initialize (l : list bytes) : program := map push l.
Definition stack_equal (l : list bytes) : program :=
  flat_map (fun b => [push b; op_instr x88]) (rev l) ++ [op_instr x74; op_instr x00; op_instr x87].
Definition op_case (o : byte) (start expected : list bytes) : case :=
  (Yes, compiled (stack_initialize start ++ [op_instr o]), compiled (stack_equal expected), 0).
Definition op_error (o : byte) (start : list bytes) : case := (Err, compiled (stack_initialize start), [o], 0).

(* testScript.cpp 19-57 *)
Definition program_ok (c : bytes * bool) : bool :=
  match decompile (fst c) with
  | Ret p => snd c && match compile p with Some b => bytes_eqb b (fst c) | None => false end
  | Throw (X_Invalid _) => negb (snd c)
  | _ => false
  end.

(* testScript.cpp 518-536 *)
Definition hash_case (o : byte) (input result : bytes) : case :=
  (Yes, compiled [push input], compiled [op_instr o; push result; op_instr x87], 0).
Definition v_TestHashOps : list case :=
  [hash_case xa7 [] (be 20 0xda39a3ee5e6b4b0d3255bfef95601890afd80709);
   hash_case xa8 [] (be 32 0xe3b0c44298fc1c149afbf4c8996fb92427ae41e4649b934ca495991b7852b855);
   hash_case xa6 [] (be 20 0x9c1185a5c5e9fc54612808977ee8f548b2258d31);
   hash_case xa9 [] (ripemd160 (sha256 []));
   hash_case xaa [] (sha256 (sha256 []))].

(* testScript.cpp 737-810; 9c NUMEQUAL, 9e NUMNOTEQUAL, 9f LESSTHAN, a0 GREATERTHAN, a1 LESSTHANOREQUAL,
   a2 GREATERTHANOREQUAL *)
Definition compare_case (v : bool) (o : byte) (a b : bytes) : case :=
  (if v then Yes else No, compiled (stack_initialize [a; b]), [o], 0).
Definition compare_cases (i j : N) (a b : bytes) : list case :=
  [compare_case (i =? j) x9c a b; compare_case (negb (i =? j)) x9e a b; compare_case (i <? j) x9f a b;
   compare_case (j <? i) xa0 a b; compare_case (i <=? j) xa1 a b; compare_case (j <=? i) xa2 a b].
Definition compare_numbers : list (N * bytes) :=
  [(0, [xf0; x80]); (0, [xf0; x00; x80]); (1, [x81]); (1, [x01; x80]); (1, [x01; x00; x80]);
   (2, []); (2, [x00]); (2, [x80]); (2, [x00; x00]); (2, [x00; x80]);
   (3, [x01]); (3, [x01; x00]); (3, [x01; x00; x00]); (4, [xf0; x00]); (4, [xf0; x00; x00])].
Definition v_TestNumberCompare : list case :=
  flat_map (fun p => flat_map (fun q => compare_cases (fst p) (fst q) (snd p) (snd q)) compare_numbers) compare_numbers.


(* testScript.cpp 915-1005, with a signature that is a hash of the key and the script code instead of ECDSA *)
Definition toy_pub (k : byte) : bytes := x02 :: repeat k 32.
Definition toy_sign (code : program) (k : byte) : bytes := sha256 (k :: compiled code) ++ [x01].
Definition toy_checks : sig_checks :=
  {| k_compressed := fun _ => true; k_valid := fun _ => true; k_der := fun _ => true; k_normalized := fun _ => true;
     k_verify := fun code sig pub => bytes_eqb sig (toy_sign code (nth 1 pub x00)) |}.
Definition toy_doc (f : flag) : rdoc :=
  {| d_verify := verify_signature toy_checks f; d_locktime := fun _ => true; d_sequence := fun _ => true |}.
Definition multisig_script (s p : list byte) : bytes :=
  let mp := [push (sn_enc (Z.of_nat (length s)))] ++ map (fun k => push (toy_pub k)) p
            ++ [push (sn_enc (Z.of_nat (length p))); op_instr xaf] in
  compiled ([op_instr x00] ++ map (fun k => push (toy_sign mp k)) s ++ [op_instr xab] ++ mp).
Definition multisig_ok (c : bool * list byte * list byte) : bool :=
  match c with (v, s, p) =>
    match evaluate real_externals (Some (toy_doc 0)) (script_config 0 false) [x81] [] (multisig_script s p) with
    | Ret r => Bool.eqb v (serror_is_ok (r_error r) && r_success r)
    | _ => false
    end
  end.
Definition v_TestMultisig : list (bool * list byte * list byte) :=
  [(true, [], []); (false, [x01], []); (true, [], [x01]); (true, [x01], [x01]); (false, [x02], [x01]);
   (true, [], [x01; x02]); (true, [x01], [x01; x02]); (false, [x03], [x01; x02]); (true, [x01; x02], [x01; x02]);
   (false, [x02; x01], [x01; x02]); (false, [x01; x03], [x01; x02]); (false, [x02; x03], [x01; x02]);
   (true, [], [x01; x02; x03]); (true, [x01], [x01; x02; x03]); (true, [x02], [x01; x02; x03]);
   (true, [x03], [x01; x02; x03]); (true, [x01; x03], [x01; x02; x03]); (false, [x03; x01], [x01; x02; x03]);
   (true, [x01; x02; x03], [x01; x02; x03]); (false, [x03; x02; x01], [x01; x02; x03]);
   (false, [x02; x03; x01], [x01; x02; x03])].

Definition v_TestProgram : list (bytes * bool) :=
  [([], true);
   ([x00; x4f; x51; x61; x6b; x75; x88; x8b; xaf; xb9], true);
   ([x50], false);
   ([x89], false);
   ([x8a], false);
   ([xba], false);
   ([xff], false);
   ([x01], false);
   ([x02; x23], false);
   ([x4c; x02; x11], false);
   ([x4d; x02; x00; x12], false);
   ([x4e; x02; x00; x00; x00; x13], false);
   ([x6a], true);
   ([x00; x6a], true);
   ([x6a; x01], false);
   ([x00; x6a; x01], false)].
Definition v_TestCleanStack : list case :=
  [(Yes, [], [x51], 2 ^ FLAG_CLEANSTACK);
   (Yes, [], [x52], 2 ^ FLAG_CLEANSTACK);
   (Yes, [], [x53], 2 ^ FLAG_CLEANSTACK);
   (Yes, [x00], [x51], 0);
   (Yes, [x00], [x52], 0);
   (Yes, [x00], [x53], 0);
   (Err, [], [], 2 ^ FLAG_CLEANSTACK);
   (Err, [x00], [x51], 2 ^ FLAG_CLEANSTACK);
   (Err, [x00], [x52], 2 ^ FLAG_CLEANSTACK);
   (Err, [x00], [x53], 2 ^ FLAG_CLEANSTACK)].
Definition v_TestMinimalPush : list case :=
  [(No, [x00], [], 2 ^ FLAG_MINIMALDATA);
   (No, [x00], [], 0);
   (Err, [x4c; x00], [], 2 ^ FLAG_MINIMALDATA);
   (Err, [x4d; x00; x00], [], 2 ^ FLAG_MINIMALDATA);
   (Err, [x4e; x00; x00; x00; x00], [], 2 ^ FLAG_MINIMALDATA);
   (No, [x4c; x00], [], 0);
   (No, [x4d; x00; x00], [], 0);
   (No, [x4e; x00; x00; x00; x00], [], 0);
   (Yes, [x4f], [], 2 ^ FLAG_MINIMALDATA);
   (Yes, [x51], [], 2 ^ FLAG_MINIMALDATA);
   (Yes, [x60], [], 2 ^ FLAG_MINIMALDATA);
   (Yes, [x4f], [], 0);
   (Yes, [x51], [], 0);
   (Yes, [x60], [], 0);
   (Err, [x01; x81], [], 2 ^ FLAG_MINIMALDATA);
   (Err, [x01; x01], [], 2 ^ FLAG_MINIMALDATA);
   (Err, [x01; x10], [], 2 ^ FLAG_MINIMALDATA);
   (Err, [x4c; x01; x81], [], 2 ^ FLAG_MINIMALDATA);
   (Err, [x4c; x01; x01], [], 2 ^ FLAG_MINIMALDATA);
   (Err, [x4c; x01; x10], [], 2 ^ FLAG_MINIMALDATA);
   (Err, [x4d; x01; x00; x81], [], 2 ^ FLAG_MINIMALDATA);
   (Err, [x4d; x01; x00; x01], [], 2 ^ FLAG_MINIMALDATA);
   (Err, [x4d; x01; x00; x10], [], 2 ^ FLAG_MINIMALDATA);
   (Err, [x4e; x01; x00; x00; x00; x81], [], 2 ^ FLAG_MINIMALDATA);
   (Err, [x4e; x01; x00; x00; x00; x01], [], 2 ^ FLAG_MINIMALDATA);
   (Err, [x4e; x01; x00; x00; x00; x10], [], 2 ^ FLAG_MINIMALDATA);
   (Yes, [x01; x81], [], 0);
   (Yes, [x01; x01], [], 0);
   (Yes, [x01; x10], [], 0);
   (Yes, [x4c; x01; x81], [], 0);
   (Yes, [x4c; x01; x01], [], 0);
   (Yes, [x4c; x01; x10], [], 0);
   (Yes, [x4d; x01; x00; x81], [], 0);
   (Yes, [x4d; x01; x00; x01], [], 0);
   (Yes, [x4d; x01; x00; x10], [], 0);
   (Yes, [x4e; x01; x00; x00; x00; x81], [], 0);
   (Yes, [x4e; x01; x00; x00; x00; x01], [], 0);
   (Yes, [x4e; x01; x00; x00; x00; x10], [], 0);
   (Yes, [x01; x20], [], 2 ^ FLAG_MINIMALDATA);
   (Yes, [x01; x20], [], 0);
   (Err, [x4c; x01; x20], [], 2 ^ FLAG_MINIMALDATA);
   (Yes, [x4c; x01; x20], [], 0);
   (Err, [x4d; x01; x00; x20], [], 2 ^ FLAG_MINIMALDATA);
   (Yes, [x4d; x01; x00; x20], [], 0);
   (Err, [x4e; x01; x00; x00; x00; x20], [], 2 ^ FLAG_MINIMALDATA);
   (Yes, [x4e; x01; x00; x00; x00; x20], [], 0)].
Definition v_TestPush : list case :=
  [(Err, [], [], genesis_profile);
   (Yes, [x51], [], 0);
   (Yes, [x57], [], 0);
   (Yes, [x01; x01], [], 0);
   (No, [x01; x00], [], 0);
   (No, [x01; x80], [], 0);
   (Yes, [x02; x01; x00], [], 0);
   (Yes, [x03; x01; x00; x00], [], 0);
   (No, [x01; x00], [], 0);
   (No, [x02; x00; x00], [], 0);
   (No, [x03; x00; x00; x00], [], genesis_profile);
   (Err, [x01], [], 0);
   (Err, [x02; x01], [], 0);
   (Err, [x03; x01; x00], [], 0);
   (No, [x4c; x00], [], 0);
   (Yes, [x4c; x01; x01], [], 0);
   (Yes, [x4c; x02; x00; x01], [], 0);
   (Yes, [x4c; x03; x00; x00; x01], [], 0);
   (Err, [x4c; x01], [], 0);
   (Err, [x4c; x02; x01], [], 0);
   (Err, [x4c; x03; x00; x01], [], 0);
   (No, [x4d; x00; x00], [], 0);
   (Yes, [x4d; x01; x00; x01], [], 0);
   (Yes, [x4d; x02; x00; x00; x01], [], 0);
   (Yes, [x4d; x03; x00; x00; x00; x01], [], 0);
   (Err, [x4d; x01; x00], [], 0);
   (No, [x4e; x00; x00; x00; x00], [], 0);
   (Yes, [x4e; x01; x00; x00; x00; x01], [], 0);
   (Yes, [x4e; x02; x00; x00; x00; x02; x00], [], 0);
   (Yes, [x4e; x03; x00; x00; x00; x03; x00; x00], [], 0);
   (Err, [x4e; x01; x00; x00; x00], [], 0)].
Definition v_TestUnlockPushOnly : list case :=
  [(Yes, [], [x51], 0);
   (Yes, [], [x51], 2 ^ FLAG_SIGPUSHONLY);
   (Yes, [x51], [], 0);
   (Yes, [x51], [], 2 ^ FLAG_SIGPUSHONLY);
   (Yes, [x00; x00; x87], [], 0);
   (Err, [x00; x00; x87], [], 2 ^ FLAG_SIGPUSHONLY);
   (Yes, [x00; x00], [x87], 0);
   (Yes, [x00; x00], [x87], 2 ^ FLAG_SIGPUSHONLY)].
Definition v_TestInvalidStack : list case :=
  [(Err, [x63], [], 0);
   (Err, [x64], [], 0);
   (Err, [x65], [], 0);
   (Err, [x62], [], 0);
   (Err, [x66], [], 0);
   (Err, [x67], [], 0);
   (Err, [x68], [], 0);
   (Err, [x6b], [], 0);
   (Err, [x6c], [], 0);
   (Err, [x69], [], 0);
   (Err, [x73], [], 0);
   (Err, [x75], [], 0);
   (Err, [x76], [], 0);
   (Err, [x77], [], 0);
   (Err, [x78], [], 0);
   (Err, [x79], [], 0);
   (Err, [x7a], [], 0);
   (Err, [x7b], [], 0);
   (Err, [x7c], [], 0);
   (Err, [x7d], [], 0);
   (Err, [x6d], [], 0);
   (Err, [x6e], [], 0);
   (Err, [x6f], [], 0);
   (Err, [x70], [], 0);
   (Err, [x71], [], 0);
   (Err, [x72], [], 0);
   (Err, [x7e], [], 0);
   (Err, [x7f], [], 0);
   (Err, [x80], [], 0);
   (Err, [x81], [], 0);
   (Err, [x82], [], 0);
   (Err, [x83], [], 0);
   (Err, [x84], [], 0);
   (Err, [x85], [], 0);
   (Err, [x86], [], 0);
   (Err, [x87], [], 0);
   (Err, [x88], [], 0);
   (Err, [x8b], [], 0);
   (Err, [x8c], [], 0);
   (Err, [x8d], [], 0);
   (Err, [x8e], [], 0);
   (Err, [x8f], [], 0);
   (Err, [x90], [], 0);
   (Err, [x91], [], 0);
   (Err, [x92], [], 0);
   (Err, [x93], [], 0);
   (Err, [x94], [], 0);
   (Err, [x95], [], 0);
   (Err, [x96], [], 0);
   (Err, [x97], [], 0);
   (Err, [x98], [], 0);
   (Err, [x99], [], 0);
   (Err, [x9a], [], 0);
   (Err, [x9b], [], 0);
   (Err, [x9c], [], 0);
   (Err, [x9d], [], 0);
   (Err, [x9e], [], 0);
   (Err, [x9f], [], 0);
   (Err, [xa0], [], 0);
   (Err, [xa1], [], 0);
   (Err, [xa2], [], 0);
   (Err, [xa3], [], 0);
   (Err, [xa4], [], 0);
   (Err, [xa5], [], 0);
   (Err, [xa7], [], 0);
   (Err, [xa6], [], 0);
   (Err, [xa8], [], 0);
   (Err, [xa9], [], 0);
   (Err, [xaa], [], 0);
   (Err, [xac], [], 0);
   (Err, [xad], [], 0);
   (Err, [xae], [], 0);
   (Err, [xaf], [], 0);
   (Err, [xb3], [], 0);
   (Err, [xb4], [], 0);
   (Err, [xb5], [], 0);
   (Err, [x56], [x77], 0);
   (Err, [x57], [x78], 0);
   (Err, [x5a], [x7b], 0);
   (Err, [x5b], [x7c], 0);
   (Err, [x5c], [x7d], 0);
   (Err, [x00], [x6d], 0);
   (Err, [x51], [x6e], 0);
   (Err, [x52], [x6f], 0);
   (Err, [x53], [x70], 0);
   (Err, [x54], [x71], 0);
   (Err, [x55], [x72], 0);
   (Err, [x58], [x7e], 0);
   (Err, [x59], [x7f], 0);
   (Err, [x53], [xb3], 0);
   (Err, [x54], [xb4], 0);
   (Err, [x55], [xb5], 0);
   (Err, [x5d], [x84], 0);
   (Err, [x5e], [x85], 0);
   (Err, [x5f], [x86], 0);
   (Err, [x60], [x87], 0);
   (Err, [x00], [x88], 0);
   (Err, [x51], [x93], 0);
   (Err, [x52], [x94], 0);
   (Err, [x53], [x95], 0);
   (Err, [x54], [x96], 0);
   (Err, [x55], [x97], 0);
   (Err, [x56], [x98], 0);
   (Err, [x57], [x99], 0);
   (Err, [x58], [x9a], 0);
   (Err, [x59], [x9b], 0);
   (Err, [x5a], [x9c], 0);
   (Err, [x5b], [x9d], 0);
   (Err, [x5c], [x9e], 0);
   (Err, [x5d], [x9f], 0);
   (Err, [x5e], [xa0], 0);
   (Err, [x5f], [xa1], 0);
   (Err, [x60], [xa2], 0);
   (Err, [x00], [xa3], 0);
   (Err, [x51], [xa4], 0);
   (Err, [x52], [xa5], 0);
   (Err, [x58], [x80], 0);
   (Err, [x56], [xac], 0);
   (Err, [x57], [xad], 0);
   (Err, [x58], [xae], 0);
   (Err, [x59], [xaf], 0);
   (Err, [x5a; x5b], [x7b], 0);
   (Err, [x5c; x5d], [x6f], 0);
   (Err, [x5e; x5f], [x70], 0);
   (Err, [x60; x00], [x71], 0);
   (Err, [x51; x52], [x72], 0);
   (Err, [x53; x54], [xa5], 0);
   (Err, [x56; x57], [xb3], 0);
   (Err, [x55; x56; x57], [x70], 0);
   (Err, [x58; x59; x5a], [x71], 0);
   (Err, [x5b; x5c; x5d], [x72], 0);
   (Err, [x5e; x5f; x60; x00], [x71], 0);
   (Err, [x51; x52; x53; x54; x55], [x71], 0)].
Definition v_TestOpcodes : list case :=
  [(No, [x61], [], 0);
   (Yes, [x51; x61], [], 0);
   (No, [x00; x61], [], 0);
   (Err, [x00], [x69], 0);
   (No, [x51], [x69], 0);
   (No, [], [x74], 0);
   (Yes, [x00], [x74], 0);
   (Yes, [x00; x00], [x87], genesis_profile);
   (No, [x00; x01; x00], [x87], 0);
   (No, [x00; x00], [x88], 0);
   (Err, [x00; x51], [x88], 0);
   (Yes, [x00; x00], [x88; x51], 2 ^ FLAG_CLEANSTACK);
   (Yes, [x00; x82], [x00; x87], 0);
   (Yes, [x51; x82], [x51; x87], 0);
   (Yes, [x60; x82], [x51; x87], 0);
   (Yes, [x03; x11; x12; x13; x82], [x53; x87], 0)].
Definition v_TestAltStack : list case :=
  [(No, [x51], [x6b], 0);
   (Yes, [x51], [x6b; x6c], 0)].
Definition v_TestPickRoll : list case :=
  [op_error x79 [(sn_enc (0))];
   op_error x7a [(sn_enc (0))];
   op_error x79 [(sn_enc (9)); (sn_enc (1))];
   op_error x7a [(sn_enc (9)); (sn_enc (1))];
   op_error x79 [(sn_enc (12)); (sn_enc (9)); (sn_enc (2))];
   op_error x7a [(sn_enc (12)); (sn_enc (9)); (sn_enc (2))];
   op_error x79 [(sn_enc (34)); (sn_enc (12)); (sn_enc (9)); (sn_enc (3))];
   op_error x7a [(sn_enc (34)); (sn_enc (12)); (sn_enc (9)); (sn_enc (3))];
   op_case x79 [(sn_enc (12)); (sn_enc (0))] [(sn_enc (12)); (sn_enc (12))];
   op_case x7a [(sn_enc (12)); (sn_enc (0))] [(sn_enc (12))];
   op_case x79 [(sn_enc (34)); (sn_enc (12)); (sn_enc (1))] [(sn_enc (34)); (sn_enc (12)); (sn_enc (34))];
   op_case x7a [(sn_enc (34)); (sn_enc (12)); (sn_enc (1))] [(sn_enc (12)); (sn_enc (34))];
   op_case x79 [(sn_enc (17)); (sn_enc (34)); (sn_enc (12)); (sn_enc (2))] [(sn_enc (17)); (sn_enc (34)); (sn_enc (12)); (sn_enc (17))];
   op_case x7a [(sn_enc (17)); (sn_enc (34)); (sn_enc (12)); (sn_enc (2))] [(sn_enc (34)); (sn_enc (12)); (sn_enc (17))]].
Definition v_TestStackOps : list case :=
  [op_case x75 [(sn_enc (3))] [];
   op_case x6d [(sn_enc (4)); (sn_enc (5))] [];
   op_case x76 [(sn_enc (0))] [(sn_enc (0)); (sn_enc (0))];
   op_case x76 [(sn_enc (1))] [(sn_enc (1)); (sn_enc (1))];
   op_case x76 [(sn_enc (2))] [(sn_enc (2)); (sn_enc (2))];
   op_case x73 [(sn_enc (0))] [(sn_enc (0))];
   op_case x73 [(sn_enc (1))] [(sn_enc (1)); (sn_enc (1))];
   op_case x73 [(sn_enc (2))] [(sn_enc (2)); (sn_enc (2))];
   op_case x6e [(sn_enc (0)); (sn_enc (1))] [(sn_enc (0)); (sn_enc (1)); (sn_enc (0)); (sn_enc (1))];
   op_case x6f [(sn_enc (0)); (sn_enc (1)); (sn_enc (2))] [(sn_enc (0)); (sn_enc (1)); (sn_enc (2)); (sn_enc (0)); (sn_enc (1)); (sn_enc (2))];
   op_case x7c [(sn_enc (8)); (sn_enc (9))] [(sn_enc (9)); (sn_enc (8))];
   op_case x72 [(sn_enc (10)); (sn_enc (11)); (sn_enc (12)); (sn_enc (13))] [(sn_enc (12)); (sn_enc (13)); (sn_enc (10)); (sn_enc (11))];
   op_case x78 [(sn_enc (-1)); (sn_enc (-2))] [(sn_enc (-1)); (sn_enc (-2)); (sn_enc (-1))];
   op_case x70 [(sn_enc (-1)); (sn_enc (-2)); (sn_enc (-3)); (sn_enc (-4))] [(sn_enc (-1)); (sn_enc (-2)); (sn_enc (-3)); (sn_enc (-4)); (sn_enc (-1)); (sn_enc (-2))];
   op_case x7b [(sn_enc (1)); (sn_enc (2)); (sn_enc (3))] [(sn_enc (2)); (sn_enc (3)); (sn_enc (1))];
   op_case x71 [(sn_enc (1)); (sn_enc (2)); (sn_enc (3)); (sn_enc (4)); (sn_enc (5)); (sn_enc (6))] [(sn_enc (3)); (sn_enc (4)); (sn_enc (5)); (sn_enc (6)); (sn_enc (1)); (sn_enc (2))];
   op_case x77 [(sn_enc (1)); (sn_enc (2))] [(sn_enc (2))];
   op_case x7d [(sn_enc (1)); (sn_enc (2))] [(sn_enc (2)); (sn_enc (1)); (sn_enc (2))]].
Definition v_TestBoolOps : list case :=
  [op_case x91 [[]] [[x01]];
   op_case x91 [[x00]] [[x01]];
   op_case x91 [[x80]] [[x01]];
   op_case x91 [[x01]] [[]];
   op_case x91 [[x02]] [[]];
   op_case x91 [[x81]] [[]];
   op_case x9a [[]; []] [[]];
   op_case x9b [[]; []] [[]];
   op_case x9a [[x00]; [x00]] [[]];
   op_case x9b [[x00]; [x00]] [[]];
   op_case x9a [[x01]; []] [[]];
   op_case x9b [[x01]; []] [[x01]];
   op_case x9a [[x81]; []] [[]];
   op_case x9b [[x81]; []] [[x01]];
   op_case x9a [[]; [x01]] [[]];
   op_case x9b [[]; [x01]] [[x01]];
   op_case x9a [[]; [x81]] [[]];
   op_case x9b [[]; [x81]] [[x01]];
   op_case x9a [[x01]; [x01]] [[x01]];
   op_case x9b [[x01]; [x01]] [[x01]]].
Definition v_TestBitOps : list case :=
  [op_error x84 [[]; [x00]];
   op_error x85 [[]; [x00]];
   op_error x86 [[]; [x00]];
   op_error x84 [[x00]; []];
   op_error x85 [[x00]; []];
   op_error x86 [[x00]; []];
   op_case x83 [[]] [[]];
   op_case x83 [[xff]] [[x00]];
   op_case x83 [[x00]] [[xff]];
   op_case x84 [[]; []] [[]];
   op_case x85 [[]; []] [[]];
   op_case x86 [[]; []] [[]];
   op_case x84 [[x74]; [xa3]] [[x20]];
   op_case x84 [[xa3]; [x74]] [[x20]];
   op_case x85 [[x74]; [xa3]] [[xf7]];
   op_case x85 [[xa3]; [x74]] [[xf7]];
   op_case x86 [[x74]; [xa3]] [[xd7]];
   op_case x86 [[xa3]; [x74]] [[xd7]]].
Definition v_TestStringOps : list case :=
  [op_case x7e [[]; []] [[]];
   op_case x7e [[x78]; []] [[x78]];
   op_case x7e [[]; [x78]] [[x78]];
   op_case x7e [[xab]; [xcd]] [[xab; xcd]];
   op_error x7f [[xab; xcd]; [x81]];
   op_case x7f [[xab; xcd]; []] [[]; [xab; xcd]];
   op_case x7f [[xab; xcd]; [x01]] [[xab]; [xcd]];
   op_case x7f [[xab; xcd]; [x02]] [[xab; xcd]; []];
   op_error x7f [[xab; xcd]; [x03]];
   op_error xb4 [[xab; xcd]; [x81]];
   op_case xb4 [[xab; xcd]; []] [[]];
   op_case xb4 [[xab; xcd]; [x01]] [[xab]];
   op_case xb4 [[xab; xcd]; [x02]] [[xab; xcd]];
   op_error xb4 [[xab; xcd]; [x03]];
   op_error xb5 [[xab; xcd]; [x81]];
   op_case xb5 [[xab; xcd]; []] [[]];
   op_case xb5 [[xab; xcd]; [x01]] [[xcd]];
   op_case xb5 [[xab; xcd]; [x02]] [[xab; xcd]];
   op_error xb5 [[xab; xcd]; [x03]];
   op_error xb3 [[xab; xcd; xef]; [x81]; [x00]];
   op_error xb3 [[xab; xcd; xef]; []; [x81]];
   op_error xb3 [[xab; xcd; xef]; []; [x04]];
   op_error xb3 [[xab; xcd; xef]; [x01]; [x03]];
   op_error xb3 [[xab; xcd; xef]; [x02]; [x02]];
   op_error xb3 [[xab; xcd; xef]; [x03]; [x01]];
   op_case xb3 [[xab; xcd; xef]; [x00]; [x00]] [[]];
   op_case xb3 [[xab; xcd; xef]; [x01]; [x00]] [[]];
   op_case xb3 [[xab; xcd; xef]; [x02]; [x00]] [[]];
   op_case xb3 [[xab; xcd; xef]; [x03]; [x00]] [[]];
   op_case xb3 [[xab; xcd; xef]; [x00]; [x01]] [[xab]];
   op_case xb3 [[xab; xcd; xef]; [x01]; [x01]] [[xcd]];
   op_case xb3 [[xab; xcd; xef]; [x02]; [x01]] [[xef]];
   op_case xb3 [[xab; xcd; xef]; [x00]; [x02]] [[xab; xcd]];
   op_case xb3 [[xab; xcd; xef]; [x01]; [x02]] [[xcd; xef]];
   op_case xb3 [[xab; xcd; xef]; [x00]; [x03]] [[xab; xcd; xef]]].
Definition v_TestBitShift : list case :=
  [op_error x98 [[]; [x81]];
   op_error x99 [[]; [x81]];
   op_case x98 [[]; []] [[]];
   op_case x99 [[]; []] [[]];
   op_case x98 [[]; [x01]] [[]];
   op_case x99 [[]; [x01]] [[]];
   op_case x98 [[xff]; []] [[xff]];
   op_case x99 [[xff]; []] [[xff]];
   op_case x98 [[xff]; [x01]] [[xfe]];
   op_case x99 [[xff]; [x01]] [[x7f]];
   op_case x98 [[xff]; [x02]] [[xfc]];
   op_case x99 [[xff]; [x02]] [[x3f]];
   op_case x98 [[xff]; [x04]] [[xf0]];
   op_case x99 [[xff]; [x04]] [[x0f]];
   op_case x98 [[xff]; [x08]] [[x00]];
   op_case x99 [[xff]; [x08]] [[x00]];
   op_case x98 [[xff; xff]; []] [[xff; xff]];
   op_case x99 [[xff; xff]; []] [[xff; xff]];
   op_case x98 [[xff; xff]; [x01]] [[xff; xfe]];
   op_case x99 [[xff; xff]; [x01]] [[x7f; xff]];
   op_case x98 [[xff; xff]; [x02]] [[xff; xfc]];
   op_case x99 [[xff; xff]; [x02]] [[x3f; xff]];
   op_case x98 [[xff; xff]; [x04]] [[xff; xf0]];
   op_case x99 [[xff; xff]; [x04]] [[x0f; xff]];
   op_case x98 [[xff; xff]; [x08]] [[xff; x00]];
   op_case x99 [[xff; xff]; [x08]] [[x00; xff]]].
Definition v_TestBin2Num2Bin : list case :=
  [op_case x81 [[]] [[]];
   op_case x81 [[x00]] [[]];
   op_case x81 [[x80]] [[]];
   op_case x81 [[x00; x00]] [[]];
   op_case x81 [[x00; x80]] [[]];
   op_case x81 [[x01]] [[x01]];
   op_case x81 [[x01; x00]] [[x01]];
   op_case x81 [[x81]] [[x81]];
   op_case x81 [[x01; x80]] [[x81]];
   op_case x81 [[x81; x00]] [[x81; x00]];
   op_case x81 [[x81; x00; x00]] [[x81; x00]];
   op_case x81 [[x81; x80]] [[x81; x80]];
   op_case x81 [[x81; x00; x80]] [[x81; x80]];
   op_error x80 [[]; [x81]];
   op_error x80 [[x00]; [x81]];
   op_error x80 [[x80]; [x00]];
   op_error x80 [[x01]; [x00]];
   op_error x80 [[x81]; [x00]];
   op_error x80 [[x00; x01]; [x00]];
   op_error x80 [[x00; x01]; [x01]];
   op_error x80 [[x00; x81]; [x00]];
   op_error x80 [[x00; x81]; [x01]];
   op_error x80 [[xf0; x80]; [x00]];
   op_error x80 [[xf0; x80]; [x01]];
   op_case x80 [[]; []] [[]];
   op_case x80 [[]; [x01]] [[x00]];
   op_case x80 [[]; [x02]] [[x00; x00]];
   op_case x80 [[x00]; [x01]] [[x00]];
   op_case x80 [[x00]; [x02]] [[x00; x00]];
   op_case x80 [[x80]; [x01]] [[x80]];
   op_case x80 [[x80]; [x02]] [[x00; x80]];
   op_case x80 [[x80]; [x03]] [[x00; x00; x80]];
   op_case x80 [[x00; x01]; [x02]] [[x00; x01]];
   op_case x80 [[x00; x81]; [x02]] [[x00; x81]];
   op_case x80 [[xf0; x80]; [x02]] [[xf0; x80]];
   op_case x80 [[x00; x01]; [x03]] [[x00; x01; x00]];
   op_case x80 [[x00; x81]; [x03]] [[x00; x01; x80]];
   op_case x80 [[xf0; x80]; [x03]] [[xf0; x00; x80]]].
Definition v_TestNumberWithin : list case :=
  [(No, [x00; x00; x00], [xa5], 0);
   (Yes, [x00; x00; x51], [xa5], 0);
   (No, [x51; x00; x51], [xa5], 0);
   (Yes, [x51; x00; x52], [xa5], 0)].
Definition v_TestNumberEqualVerify : list case :=
  [op_case x9d [[x01]; [x01; x00]] [];
   op_error x9d [[x81]; [x01]]].
Definition v_TestNumberOps : list case :=
  [op_case x92 [[]] [[]];
   op_case x92 [[x00]] [[]];
   op_case x92 [[x80]] [[]];
   op_case x92 [[x01]] [[x01]];
   op_case x92 [[x81]] [[x01]];
   op_case x8b [[]] [[x01]];
   op_case x8b [[x00]] [[x01]];
   op_case x8b [[x80]] [[x01]];
   op_case x8c [[]] [[x81]];
   op_case x8c [[x01]] [[]];
   op_case x8d [(sn_enc (0))] [(sn_enc (0))];
   op_case x8e [(sn_enc (0))] [(sn_enc (0))];
   op_case x8d [(sn_enc (1))] [(sn_enc (2))];
   op_case x8e [(sn_enc (1))] [(sn_enc (0))];
   op_case x8d [(sn_enc (-1))] [(sn_enc (-2))];
   op_case x8e [(sn_enc (-1))] [(sn_enc (0))];
   op_case x8d [(sn_enc (2))] [(sn_enc (4))];
   op_case x8e [(sn_enc (2))] [(sn_enc (1))];
   op_case x8d [(sn_enc (-2))] [(sn_enc (-4))];
   op_case x8e [(sn_enc (-2))] [(sn_enc (-1))];
   op_case x8d [(sn_enc (3))] [(sn_enc (6))];
   op_case x8e [(sn_enc (3))] [(sn_enc (1))];
   op_case x8d [(sn_enc (-3))] [(sn_enc (-6))];
   op_case x8e [(sn_enc (-3))] [(sn_enc (-1))];
   op_case x8d [(sn_enc (4))] [(sn_enc (8))];
   op_case x8e [(sn_enc (4))] [(sn_enc (2))];
   op_case x8d [(sn_enc (-4))] [(sn_enc (-8))];
   op_case x8e [(sn_enc (-4))] [(sn_enc (-2))];
   op_case x8f [[]] [[]];
   op_case x8f [[x80]] [[]];
   op_case x8f [[x00]] [[]];
   op_case x8f [[x01]] [[x81]];
   op_case x8f [[x81]] [[x01]];
   op_case x90 [[]] [[]];
   op_case x90 [[x00]] [[x00]];
   op_case x90 [[x01]] [[x01]];
   op_case x90 [[x81]] [[x01]];
   op_case x90 [[x01; x00]] [[x01; x00]];
   op_case x90 [[x01; x80]] [[x01]];
   op_case x93 [(sn_enc (1)); (sn_enc (2))] [(sn_enc (3))];
   op_case x93 [(sn_enc (1)); (sn_enc (-2))] [(sn_enc (-1))];
   op_case x94 [(sn_enc (1)); (sn_enc (2))] [(sn_enc (-1))];
   op_case x94 [(sn_enc (1)); (sn_enc (-2))] [(sn_enc (3))];
   op_case x95 [(sn_enc (1)); (sn_enc (1))] [(sn_enc (1))];
   op_case x95 [(sn_enc (1)); (sn_enc (2))] [(sn_enc (2))];
   op_case x95 [(sn_enc (1)); (sn_enc (-1))] [(sn_enc (-1))];
   op_case x95 [(sn_enc (2)); (sn_enc (2))] [(sn_enc (4))];
   op_error x96 [(sn_enc (1)); (sn_enc (0))];
   op_error x97 [(sn_enc (1)); (sn_enc (0))];
   op_case x96 [(sn_enc (1)); (sn_enc (1))] [(sn_enc (1))];
   op_case x97 [(sn_enc (1)); (sn_enc (1))] [(sn_enc (0))];
   op_case x96 [(sn_enc (19)); (sn_enc (5))] [(sn_enc (3))];
   op_case x97 [(sn_enc (19)); (sn_enc (5))] [(sn_enc (4))]].
Succeed Example run_TestMultisig : forallb multisig_ok v_TestMultisig = true :=
  ltac:(vm_compute; reflexivity).
Succeed Example run_TestHashOps : forallb case_ok v_TestHashOps = true :=
  ltac:(vm_compute; reflexivity).
Succeed Example run_TestNumberCompare : forallb case_ok v_TestNumberCompare = true :=
  ltac:(vm_compute; reflexivity).
Succeed Example run_TestProgram : forallb program_ok v_TestProgram = true :=
  ltac:(vm_compute; reflexivity).
Succeed Example run_TestCleanStack : forallb case_ok v_TestCleanStack = true :=
  ltac:(vm_compute; reflexivity).
Succeed Example run_TestMinimalPush : forallb case_ok v_TestMinimalPush = true :=
  ltac:(vm_compute; reflexivity).
Succeed Example run_TestPush : forallb case_ok v_TestPush = true :=
  ltac:(vm_compute; reflexivity).
Succeed Example run_TestUnlockPushOnly : forallb case_ok v_TestUnlockPushOnly = true :=
  ltac:(vm_compute; reflexivity).
Succeed Example run_TestInvalidStack : forallb case_ok v_TestInvalidStack = true :=
  ltac:(vm_compute; reflexivity).
Succeed Example run_TestOpcodes : forallb case_ok v_TestOpcodes = true :=
  ltac:(vm_compute; reflexivity).
Succeed Example run_TestAltStack : forallb case_ok v_TestAltStack = true :=
  ltac:(vm_compute; reflexivity).
Succeed Example run_TestPickRoll : forallb case_ok v_TestPickRoll = true :=
  ltac:(vm_compute; reflexivity).
Succeed Example run_TestStackOps : forallb case_ok v_TestStackOps = true :=
  ltac:(vm_compute; reflexivity).
Succeed Example run_TestBoolOps : forallb case_ok v_TestBoolOps = true :=
  ltac:(vm_compute; reflexivity).
Succeed Example run_TestBitOps : forallb case_ok v_TestBitOps = true :=
  ltac:(vm_compute; reflexivity).
Succeed Example run_TestStringOps : forallb case_ok v_TestStringOps = true :=
  ltac:(vm_compute; reflexivity).
Succeed Example run_TestBitShift : forallb case_ok v_TestBitShift = true :=
  ltac:(vm_compute; reflexivity).
Succeed Example run_TestBin2Num2Bin : forallb case_ok v_TestBin2Num2Bin = true :=
  ltac:(vm_compute; reflexivity).
Succeed Example run_TestNumberWithin : forallb case_ok v_TestNumberWithin = true :=
  ltac:(vm_compute; reflexivity).
Succeed Example run_TestNumberEqualVerify : forallb case_ok v_TestNumberEqualVerify = true :=
  ltac:(vm_compute; reflexivity).
Succeed Example run_TestNumberOps : forallb case_ok v_TestNumberOps = true :=
  ltac:(vm_compute; reflexivity).
