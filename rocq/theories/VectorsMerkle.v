(* The model run on the values of /repo/test: testBUMP.cpp, testBEEF.cpp, testMerkle.cpp.  The ordered
   sequence is [place], and offsets and keys that occur twice do not occur. *)
From Coq Require Import String.
From Verif Require Import Base WireModel MerkleModel TextModel JsonModel TscModel BumpModel BumpJsonModel MachineModel BeefModel Sha256Spec.
Local Open Scope N_scope.
Local Open Scope string_scope.

Definition unhex (s : string) : bytes := match hex_read (text s) with Some b => b | None => [] end.
Definition no_text (_ : bytes) : option bytes := None.
Definition no_float (_ : N) : option N := None.
Definition never (_ : N) : bool := false.

(* ---------------------------------------------------------------- testBUMP.cpp *)
Definition bump_hex : string :=
  ("fe8a6a0c000c04fde80b0011774f01d26412f0d16ea3f0447be0b5ebec67b0782e321a7a01cbdf7f734e30fde90b02004e53753e3fe4667073063a17" ++
   "987292cfdea278824e9888e52180581d7188d8fdea0b025e441996fc53f0191d649e68a200e752fb5f39e0d5617083408fa179ddc5c998fdeb0b0102" ++
   "fdf405000671394f72237d08a4277f4435e5b6edf7adc272f25effef27cdfe805ce71a81fdf50500262bccabec6c4af3ed00cc7a7414edea9c5efa92" ++
   "fb8623dd6160a001450a528201fdfb020101fd7c010093b3efca9b77ddec914f8effac691ecb54e2c81d0ab81cbc4c4b93befe418e8501bf01015e00" ++
   "5881826eb6973c54003a02118fe270f03d46d02681c8bc71cd44c613e86302f8012e00e07a2bb8bb75e5accff266022e1e5e6e7b4d6d943a04faadcf" ++
   "2ab4a22f796ff30116008120cafa17309c0bb0e0ffce835286b3a2dcae48e4497ae2d2b7ced4f051507d010a00502e59ac92f46543c23006bff855d9" ++
   "6f5e648043f0fb87a7a5949e6a9bebae430104001ccd9f8f64f4d0489b30cc815351cf425e0e78ad79a589350e4341ac165dbe45010301010000af87" ++
   "64ce7e1cc132ab5ed2229a005c87201c9a5ee15c0f91dd53eff31ab30cd4").
Definition bump_as_json : json :=
  JObject [(text "blockHeight", JUint 813706); (text "path", JArray [JArray [JObject [(text "hash", JString (text "304e737fdfcb017a1a322e78b067ecebb5e07b44f0a36ed1f01264d2014f7711")); (text "offset", JUint 3048)];
      JObject [(text "hash", JString (text "d888711d588021e588984e8278a2decf927298173a06737066e43f3e75534e00")); (text "offset", JUint 3049); (text "txid", JBool true)];
      JObject [(text "hash", JString (text "98c9c5dd79a18f40837061d5e0395ffb52e700a2689e641d19f053fc9619445e")); (text "offset", JUint 3050); (text "txid", JBool true)];
      JObject [(text "duplicate", JBool true); (text "offset", JUint 3051)]];
    JArray [JObject [(text "hash", JString (text "811ae75c80fecd27efff5ef272c2adf7edb6e535447f27a4087d23724f397106")); (text "offset", JUint 1524)];
      JObject [(text "hash", JString (text "82520a4501a06061dd2386fb92fa5e9ceaed14747acc00edf34a6cecabcc2b26")); (text "offset", JUint 1525)]];
    JArray [JObject [(text "duplicate", JBool true); (text "offset", JUint 763)]];
    JArray [JObject [(text "hash", JString (text "858e41febe934b4cbc1cb80a1dc8e254cb1e69acff8e4f91ecdd779bcaefb393")); (text "offset", JUint 380)]];
    JArray [JObject [(text "duplicate", JBool true); (text "offset", JUint 191)]];
    JArray [JObject [(text "hash", JString (text "f80263e813c644cd71bcc88126d0463df070e28f11023a00543c97b66e828158")); (text "offset", JUint 94)]];
    JArray [JObject [(text "hash", JString (text "f36f792fa2b42acfadfa043a946d4d7b6e5e1e2e0266f2cface575bbb82b7ae0")); (text "offset", JUint 46)]];
    JArray [JObject [(text "hash", JString (text "7d5051f0d4ceb7d2e27a49e448aedca2b3865283ceffe0b00b9c3017faca2081")); (text "offset", JUint 22)]];
    JArray [JObject [(text "hash", JString (text "43aeeb9b6a9e94a5a787fbf04380645e6fd955f8bf0630c24365f492ac592e50")); (text "offset", JUint 10)]];
    JArray [JObject [(text "hash", JString (text "45be5d16ac41430e3589a579ad780e5e42cf515381cc309b48d0f4648f9fcd1c")); (text "offset", JUint 4)]];
    JArray [JObject [(text "duplicate", JBool true); (text "offset", JUint 3)]];
    JArray [JObject [(text "hash", JString (text "d40cb31af3ef53dd910f5ce15e9a1c20875c009a22d25eab32c11c7ece6487af")); (text "offset", JUint 0)]]])].
Definition bump_root_known : bytes := rev (unhex "57aab6e6fb1b697174ffb64e062c4728f2ffd33ddcfa02a43b64d8cd29b483b4").
Definition the_bump : bump := bump_of_bytes (@place) (unhex bump_hex).
Succeed Example bump_size_of_bytes : bump_size the_bump = len (unhex bump_hex) :=
  ltac:(vm_compute; reflexivity).
Succeed Example bump_from_json : bump_of_json no_text no_float never (@place) bump_as_json = Ret the_bump :=
  ltac:(vm_compute; reflexivity).
Succeed Example bump_to_json : bump_json false the_bump = Ret bump_as_json :=
  ltac:(vm_compute; reflexivity).
Succeed Example bump_to_bytes : bump_bytes the_bump = Some (unhex bump_hex) :=
  ltac:(vm_compute; reflexivity).
Succeed Example bump_root_of : bump_root sha256d (@place) the_bump = Ret bump_root_known :=
  ltac:(vm_compute; reflexivity).
Definition the_paths : path_map := match bump_paths sha256d (@place) None the_bump with Some m => m | None => [] end.
Succeed Example paths_valid : length the_paths = 2%nat /\ dual_valid sha256d cons 20 (mkdual the_paths bump_root_known) = Done true :=
  ltac:(split; vm_compute; reflexivity).
Definition bump_again : option bump := bump_of_map (@place) (bp_height the_bump) the_paths.
Succeed Example bump_from_paths : match bump_again with Some b => bump_root sha256d (@place) b = Ret bump_root_known | None => False end :=
  ltac:(vm_compute; reflexivity).

(* ---------------------------------------------------------------- testBEEF.cpp *)
Definition beef_hex : string :=
  ("0100beef01fe636d0c0007021400fe507c0c7aa754cef1f7889d5fd395cf1f785dd7de98eed895dbedfe4e5bc70d1502ac4e164f5bc16746bb086840" ++
   "4292ac8318bbac3800e4aad13a014da427adce3e010b00bc4ff395efd11719b277694cface5aa50d085a0bb81f613f70313acd28cf4557010400574b" ++
   "2d9142b8d28b61d88e3b2c3f44d858411356b49a28a4643b6d1a6a092a5201030051a05fc84d531b5d250c23f4f886f6812f9fe3f402d61607f977b4" ++
   "ecd2701c19010000fd781529d58fc2523cf396a7f25440b409857e7e221766c57214b1d38c7b481f01010062f542f45ea3660f86c013ced80534cb5f" ++
   "d4c19d66c56e7e8c5d4bf2d40acc5e010100b121e91836fd7cd5102b654e9f72f3cf6fdbfd0b161c53a9c54b12c841126331020100000001cd4e4cac" ++
   "3c7b56920d1e7655e7e260d31f29d9a388d04910f1bbd72304a79029010000006b483045022100e75279a205a547c445719420aa3138bf14743e3f42" ++
   "618e5f86a19bde14bb95f7022064777d34776b05d816daf1699493fcdf2ef5a5ab1ad710d9c97bfb5b8f7cef3641210263e2dee22b1ddc5e11f6fab8" ++
   "bcd2378bdd19580d640501ea956ec0e786f93e76ffffffff013e660000000000001976a9146bfd5c7fbe21529d45803dbcf0c87dd3c71efbc288ac00" ++
   "00000001000100000001ac4e164f5bc16746bb0868404292ac8318bbac3800e4aad13a014da427adce3e000000006a47304402203a61a2e931612b4b" ++
   "da08d541cfb980885173b8dcf64a3471238ae7abcd368d6402204cbf24f04b9aa2256d8901f0ed97866603d2be8324c2bfb7a37bf8fc90edd5b44121" ++
   "0263e2dee22b1ddc5e11f6fab8bcd2378bdd19580d640501ea956ec0e786f93e76ffffffff013c660000000000001976a9146bfd5c7fbe21529d4580" ++
   "3dbcf0c87dd3c71efbc288ac0000000000").
Succeed Example beef_example : match beef_of_bytes (@place) (unhex beef_hex) with
  | Some b => beef_size b = len (unhex beef_hex) /\ length (bf_bumps b) = 1%nat /\ map (fun t => tx_version (bt_tx t)) (bf_txs b) = [1%Z; 1%Z] /\
      beef_bytes b = Some (unhex beef_hex) /\ beef_valid sha256d b = Ret true
  | None => False
  end :=
  ltac:(vm_compute; repeat split).

(* ---------------------------------------------------------------- testMerkle.cpp 101-137 *)
Definition tsc_hex : string :=
  ("000cef65a4611570303539143dabd6aa64dbd0f41ed89074406dc0e7cd251cf1efff69f17b44cfe9c2a23285168fe05084e1254daa5305311ed8cd95" ++
   "b19ea6b0ed7505008e66d81026ddb2dae0bd88082632790fc6921b299ca798088bef5325a607efb9004d104f378654a25e35dbd6a539505a1e3ddbba" ++
   "7f92420414387bb5b12fc1c10f00472581a20a043cee55edee1c65dd6677e09903f22992062d8fd4b8d55de7b060006fcc978b3f999a3dbb85a6ae55" ++
   "edc06dd9a30855a030b450206c3646dadbd8c000423ab0273c2572880cdc0030034c72ec300ec9dd7bbc7d3f948a9d41b3621e39").
Definition tsc_as_json : json :=
  JObject [(text "index", JUint 12); (text "nodes", JArray [JString (text "b9ef07a62553ef8b0898a79c291b92c60f7932260888bde0dab2dd2610d8668e");
    JString (text "0fc1c12fb1b57b38140442927fbadb3d1e5a5039a5d6db355ea25486374f104d");
    JString (text "60b0e75dd5b8d48f2d069229f20399e07766dd651ceeed55ee3c040aa2812547");
    JString (text "c0d8dbda46366c2050b430a05508a3d96dc0ed55aea685bb3d9a993f8b97cc6f");
    JString (text "391e62b3419d8a943f7dbc7bddc90e30ec724c033000dc0c8872253c27b03a42")]); (text "target", JString (text "75edb0a69eb195cdd81e310553aa4d25e18450e08f168532a2c2e9cf447bf169")); (text "txOrId", JString (text "ffeff11c25cde7c06d407490d81ef4d0db64aad6ab3d14393530701561a465ef"))].
Succeed Example tsc_example : read_json no_text tsc_as_json = Ret (read_binary (unhex tsc_hex)) /\
  write_binary (read_binary (unhex tsc_hex)) = Ret (unhex tsc_hex) /\
  write_json false false (read_binary (unhex tsc_hex)) = tsc_as_json :=
  ltac:(vm_compute; repeat split).

(* ---------------------------------------------------------------- testMerkle.cpp 12-99 *)
Definition eight : list bytes := map (fun s => sha256d (text s)) ["a"; "b"; "c"; "d"; "e"; "f"; "g"; "h"].
Definition bad_root : bytes := sha256d (text "Z").
Fixpoint sum_of (a : dual) (ps : list proof) : run dual :=
  match ps with
  | [] => Done a
  | p :: r => match dual_plus sha256d cons (fun l => l) None 10 a (mkdual [branch_entry (pr_branch p)] (pr_root p)) with
              | Done b => sum_of b r
              | Bad => Bad
              | More => More
              end
  end.
(* a dual has a proof of the leaf, and it is that of the server *)
Definition has_proof (d : dual) (s : server) (leaf : bytes) : Prop :=
  proof_valid sha256d (dual_at d leaf) = true /\ server_at s leaf = Some (dual_at d leaf) /\
  proof_valid sha256d (mkproof (pr_branch (dual_at d leaf)) bad_root) = false.
Fixpoint every {A} (P : A -> Prop) (l : list A) : Prop := match l with [] => True | x :: r => P x /\ every P r end.
Definition restored (ps : list proof) (s : server) (leaves : list bytes) : Prop :=
  match sum_of empty_dual ps with
  | Done d => dual_valid sha256d cons 10 d = Done true /\ length (d_paths d) = length leaves /\ every (has_proof d s) leaves
  | _ => False
  end.
(* server.hpp 42-44 *)
Definition same_server (a : option server) (b : server) : Prop :=
  match a with Some a => s_width a = s_width b /\ s_height a = s_height b /\ s_digests a = s_digests b | None => False end.
Definition merkle_ok (l : list bytes) : Prop :=
  match tree_make sha256d l, server_make sha256d None l with
  | Some t, Some s =>
      tree_valid sha256d t = Some true /\ dt_root (t_tree t) = root_list sha256d l /\ server_root s = root_list sha256d l /\
      server_proofs s = tree_proofs t /\ tree_of_server s = Some t /\ same_server (server_of_tree t) s /\
      match dual_of_tree None t, tree_proofs t with
      | Some d, Some ps =>
          dual_valid sha256d cons 10 d = Done true /\ dual_valid sha256d cons 10 (mkdual (d_paths d) bad_root) = Done false /\
          every (has_proof d s) l /\ restored ps s l /\ restored (rev ps) s l
      | _, _ => False
      end
  | _, _ => False
  end.
Succeed Example merkle_1 : merkle_ok (firstn 1 eight) :=
  ltac:(vm_compute; repeat split).
Succeed Example merkle_3 : merkle_ok (firstn 3 eight) :=
  ltac:(vm_compute; repeat split).
Succeed Example merkle_none : proof_valid sha256d empty_proof = false /\ dual_valid sha256d cons 0 empty_dual = Done false :=
  ltac:(vm_compute; repeat split).
