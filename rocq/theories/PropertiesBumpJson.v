(* The JSON form of BUMPs. *)
From Coq Require Import String.
From Verif Require Import Base BaseProofs WireModel WireSpec MerkleModel MerkleSpec MerkleExamples TextModel TextSpec JsonModel TscModel TscSpec BumpModel BumpSpec BumpProofs BumpExamples BumpJsonModel BumpJsonSpec BumpJsonProofs.
Local Open Scope list_scope.
Local Open Scope N_scope.

(* C98 *)
Theorem C98_node_read : forall odd fl j n, node_of_json odd fl j = Ret n <-> node_says_json odd fl j n.
Proof. exact node_read_exact. Qed.
Print Assumptions C98_node_read.
Theorem C98_node_undefined : forall odd fl j, node_of_json odd fl j = Undef <-> node_bad fl j.
Proof. exact node_read_undef. Qed.
Print Assumptions C98_node_undefined.
Theorem C98_read : forall odd fl below ins j b, bump_of_json odd fl below ins j = Ret b <-> bump_says odd fl below ins j b.
Proof. exact bump_read_json_exact. Qed.
Print Assumptions C98_read.
Theorem C98_undefined : forall odd fl below ins j, bump_of_json odd fl below ins j = Undef <-> bump_bad odd fl below j.
Proof. exact bump_read_undef. Qed.
Print Assumptions C98_undefined.
Example C98_read_example :
  let dup := JObject [(text "duplicate", JBool true); (text "offset", JInt 5)] in
  let leaf := JObject [(text "hash", JString (digest_text false (ex_digest 9))); (text "offset", JUint 4); (text "txid", JBool true)] in
  let made := mkbump 3 [[mknode 4 flag_client (Some (ex_digest 9)); mknode 5 flag_duplicate None]] in
  let read j := bump_of_json (fun _ => None) (fun _ => None) (fun _ => false) keep_both j in
  read (JObject [(text "blockHeight", JUint 3); (text "path", JArray [JArray [dup; leaf]])]) = Ret made /\
  read (JObject [(text "blockHeight", JUint 3); (text "path", JArray [JObject [(text "b", dup); (text "a", leaf)]])]) = Ret made /\
  read (JObject [(text "blockHeight", JUint 3); (text "path", JArray [JNull])]) = Ret (mkbump 3 [[]]) /\
  read (JObject [(text "blockHeight", JInt (-3)); (text "path", JArray [JArray [dup]])]) = Throw tt /\
  read (JObject [(text "blockHeight", JUint 3); (text "path", JArray [JArray [JObject [(text "offset", JUint 4)]]])]) = Undef /\
  (* the last node of a level is read first *)
  read (JObject [(text "blockHeight", JUint 3); (text "path", JArray [JArray [JObject [(text "offset", JUint 4)]; JNull]])]) = Throw tt /\
  read (JObject [(text "blockHeight", JUint 3); (text "path", JArray [JArray [JObject [(text "offset", JInt (-1)); (text "duplicate", JBool true)]]])]) = Ret (mkbump 3 [[dup_node (2 ^ 64 - 1)]]).
Proof. vm_compute. tauto. Qed.
Theorem C98_node_written : forall u2 n, node_json u2 n = if node_valid n then Ret (node_object u2 n) else Throw tt.
Proof. exact node_json_exact. Qed.
Print Assumptions C98_node_written.
Theorem C98_written : forall u2 b, bump_json u2 b = if forallb (forallb node_valid) (bp_path b)
  then Ret (JObject [(text "blockHeight", JUint (bp_height b)); (text "path", JArray (map (fun l => JArray (map (node_object u2) l)) (bp_path b)))]) else Throw tt.
Proof. exact bump_json_exact. Qed.
Print Assumptions C98_written.
(* what is read back *)
Theorem C98_back : forall u2 odd fl below ins b, ordered_insert ins -> Forall (Forall node_wf) (bp_path b) -> Forall sorted (bp_path b) -> bp_path b <> [] ->
  exists j, bump_json u2 b = Ret j /\ bump_of_json odd fl below ins j = Ret (clean b).
Proof. exact bump_json_back. Qed.
Print Assumptions C98_back.
Theorem C98_round_trip : forall u2 odd fl below ins b, ordered_insert ins -> Forall (Forall node_wf) (bp_path b) -> Forall sorted (bp_path b) -> bp_path b <> [] ->
  exists j, bump_json u2 b = Ret j /\ (bump_of_json odd fl below ins j = Ret b <-> Forall (Forall known_flag) (bp_path b)).
Proof. exact bump_json_round_trip. Qed.
Print Assumptions C98_round_trip.
Theorem C98_empty_refuted : forall u2 odd fl below ins h, exists j, bump_json u2 (mkbump h []) = Ret j /\ bump_of_json odd fl below ins j = Throw tt.
Proof. exact bump_json_empty. Qed.
Print Assumptions C98_empty_refuted.
Example C98_back_example : ordered_insert keep_both /\ Forall (Forall node_wf) (bp_path ex_bump) /\ Forall sorted (bp_path ex_bump) /\ bp_path ex_bump <> [] /\
  Forall (Forall known_flag) (bp_path ex_bump) /\
  (let odd_flag := mkbump 1 [[mknode 0 x07 (Some (ex_digest 9))]] in
   Forall (Forall node_wf) (bp_path odd_flag) /\ clean odd_flag = mkbump 1 [[mknode 0 flag_intermediate (Some (ex_digest 9))]]).
Proof.
  destruct ex_bump_facts as (O & (_ & _ & W) & S & _). split; [exact O|]. split.
  { revert W. apply Forall_impl. intros l [_ W]. exact W. }
  split; [exact S|]. split; [discriminate|]. split.
  { repeat (apply Forall_cons || apply Forall_nil); unfold known_flag; cbn; auto. }
  cbv zeta. split; [repeat constructor; try (vm_compute; reflexivity); discriminate|reflexivity].
Qed.
