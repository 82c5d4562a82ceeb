(* The model run on the values of /repo/test/testStratum.cpp. *)
From Coq Require Import String.
From Verif Require Import Base WireModel TextModel MerkleModel WorkModel ExtModel DifficultyModel JsonModel StratumModel StratumJobModel Sha256Spec.
Local Open Scope N_scope.

Definition js (s : string) : json := JString (text s).
Definition obj (l : list (string * json)) : json := fold_left (fun j p => j_set (text (fst p)) (snd p) j) l (JObject []).
Definition unhex (s : string) : bytes := match hex_read (text s) with Some b => b | None => [] end.

(* TestStratumSessionID *)
Succeed Example session_vectors :
  session_read (session_json 303829) = Some 303829 /\ session_read (session_json 773822929) = Some 773822929
  /\ session_of_text (session_text 303829) = Some 303829 /\ session_of_text (session_text 773822929) = Some 773822929 :=
  ltac:(vm_compute; repeat split; reflexivity).

(* TestStratumPuzzle *)
Definition v_subscribed : json :=
  obj [("id", JUint 1);
       ("result", JArray [JArray [JArray [js "mining.set_difficulty"; js "b4b6693b72a50c7116db18d6497cac52"];
                                  JArray [js "mining.notify"; js "ae6812eb4cd7735a302a8a9dd95cf71f"]];
                          js "08000002"; JUint 4]);
       ("error", JNull)]%string.
Definition v_notify : json :=
  obj [("params",
        JArray [js "bf"; js "4d16b6f85af6e2198f44ae2a6de67f78487ae5611b77c6c0440b921e00000000";
                js "01000000010000000000000000000000000000000000000000000000000000000000000000ffffffff20020862062f503253482f04b8864e5008";
                js "072f736c7573682f000000000100f2052a010000001976a914d23fcdf86f7e756a64a7a9688ef9903327048ed988ac00000000";
                JArray []; js "00000002"; js "1c2ac4af"; js "504e86b9"; JBool false]);
       ("id", JNull); ("method", js "mining.notify")]%string.
Definition v_submit : json :=
  obj [("params", JArray [js "slush.miner1"; js "bf"; js "00000001"; js "504e86ed"; js "b2957c02"]);
       ("id", JUint 4); ("method", js "mining.submit")]%string.
Definition v_puzzle : option sproof :=
  match msg_result v_subscribed with
  | JArray l =>
      match subscribed_read l, submit_read (msg_params v_submit) with
      | Ret s, Ret x => Some (mksproof (mkworker (text "Daniel") (sd_extra s) None) (notify_read (msg_params v_notify)) x)
      | _, _ => None
      end
  | _ => None
  end.
Succeed Example puzzle_vectors :
  response_valid v_subscribed = true /\ notify_valid v_notify = true /\ submit_valid v_submit = Ret true
  /\ match v_puzzle with
     | Some p =>
         sproof_valid sha256d p = true
         /\ sha256d (header_write (wproof_string sha256d (work_proof p)))
            = unhex "32abdc31d947623a2482144f92dbc092a84fd8ee6e2b5ae60f87762000000000"
         /\ h_previous (wproof_string sha256d (work_proof p))
            = unhex "f8b6164d19e2f65a2aae448f787fe66d61e57a48c0c6771b1e920b4400000000"
     | None => False
     end :=
  ltac:(vm_compute; repeat split; reflexivity).

(* TestBooleanResponse *)
Definition v_error : json := JArray [JUint 4; js "hi"].
Definition v_response (r e : json) : json := obj [("id", JUint 55); ("result", r); ("error", e)]%string.
Succeed Example boolean_vectors :
  map boolean_valid [v_response JNull JNull; v_response JNull v_error; v_response (JBool false) v_error;
                     v_response (JBool false) JNull; v_response (JBool true) JNull; v_response (JBool true) v_error]
  = [false; true; true; true; true; true]
  /\ map boolean_result [v_response JNull v_error; v_response (JBool false) v_error; v_response (JBool false) JNull;
                         v_response (JBool true) JNull; v_response (JBool true) v_error]
     = [Ret false; Ret false; Ret false; Ret true; Ret false]
  /\ map boolean_result [boolean_response (JUint 64) true; boolean_response (JUint 94) false] = [Ret true; Ret false] :=
  ltac:(vm_compute; repeat split; reflexivity).

(* TestMiningAuthorize, TestMiningSubscribe *)
Succeed Example authorize_vectors :
  map (fun p => authorize_read (authorize_write p)) [mkauth (text "dk") (Some (text "meep")); mkauth (text "dk") None]
  = [Ret (mkauth (text "dk") (Some (text "meep"))); Ret (mkauth (text "dk") None)] :=
  ltac:(vm_compute; reflexivity).
Definition v_subs : list subscribed :=
  [mksubd [mksub mining_set_difficulty (text "1"); mksub mining_notify (text "2")] (mkextra 7 8);
   mksubd [mksub mining_notify (text "3")] (mkextra 30 8)].
Succeed Example subscribe_vectors :
  map (fun p => subscribe_read (subscribe_write p)) [mksubreq (text "dk") (Some 2); mksubreq (text "dk") None]
  = [mksubreq (text "dk") (Some 2); mksubreq (text "dk") None]
  /\ map (fun p => subscribed_read (subscribed_write p)) v_subs = map (fun p => Ret p) v_subs :=
  ltac:(vm_compute; split; reflexivity).

(* TestStratumDifficulty *)
Definition v_back (f : float) : bool :=
  match compact_of_difficulty f with
  | Some c => match compact_of_difficulty (difficulty_of c) with Some d => c =? d | None => false end
  | None => false
  end.
Succeed Example difficulty_vectors : map v_back [Num (double 1 10000); Num (double 555 1)] = [true; true] :=
  ltac:(vm_compute; reflexivity).

(* TestStratumProof *)
Definition v_target : N := match compact_of_difficulty (Num (double 1 10000)) with Some c => c | None => 0 end.
Definition v_job : notify := mknotify (text "2333") (x01 :: repeat x00 31) (unhex "abcdef") (unhex "010203") [] 2 v_target 3 true.
Definition v_work (mask : option Z) (nonce : N) (bits : option Z) : sproof :=
  mksproof (mkworker (text "Daniel") (mkextra 1 8) mask) v_job
    (mksshare (text "Daniel") (text "2333")
       {| sh_timestamp := 3; sh_nonce := nonce; sh_extra2 := unhex "abcdef0123456789"; sh_bits := bits |}).
Definition v_plain : sproof := v_work None 65067 None.
Definition v_masked : sproof := v_work (Some boost_mask) 449600 (Some (-1)%Z).
Succeed Example proof_vectors :
  map (fun p => (wproof_valid sha256d (work_proof p), sproof_valid sha256d p)) [v_plain; v_masked] = [(true, true); (true, true)]
  /\ map (fun n => wproof_valid sha256d (work_proof (v_work None n None))) [65066; 65068] = [false; false] :=
  ltac:(vm_compute; split; reflexivity).
