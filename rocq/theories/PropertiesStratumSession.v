(* C51: version masks, matching of responses with requests, share counts. *)
From Coq Require Import String.
From Verif Require Import Base TextModel WireModel WireSpec MerkleModel WorkModel JsonModel StratumModel StratumSpec StratumConfigModel StratumConfigSpec StratumConfigFields StratumSessionModel StratumSessionSpec StratumSessionProofs StratumClientProofs.
Local Open Scope N_scope.

(* After every history of masks set and requests made, the mask in force has exactly the bits that both the last mask
   and the last request allow; there is one exactly when the last request's number of bits is reached. *)
Theorem C51_mask :
  forall l, exists x r, last_set l x /\ last_request l r /\
  (forall z, masks_get (mask_run l) = Some z <->
     z = Z.land x (vr_mask r) /\ exists ps, NoDup ps /\ (forall i, In i ps -> (i < 32)%nat /\ bit x i /\ bit (vr_mask r) i) /\ vr_bits r <= N.of_nat (length ps)) /\
  (forall z, masks_get (mask_run l) = Some z -> forall i, bit z i <-> bit x i /\ bit (vr_mask r) i).
Proof. exact (fun l => match mask_history_total l with ex_intro _ x (ex_intro _ r (conj X R)) => ex_intro _ x (ex_intro _ r (conj X (conj R (mask_history l x r X R)))) end). Qed.
Print Assumptions C51_mask.
Example C51_mask_example :
  masks_get (mask_run [MSet 255; MConfigure (mkrolling 60 3); MSet 12; MSet 28]) = Some 28%Z /\ masks_get (mask_run [MSet 255; MConfigure (mkrolling 60 5)]) = None.
Proof. split; vm_compute; reflexivity. Qed.

(* As long as a request is only sent after the last one has been sent, a response is handled as the answer of the request that has its
   number and waits for an answer; it throws when no such request waits. *)
Theorem C51_matching :
  forall h k j, sequential false h -> finishes h <= 2 ^ 32 -> answers k j ->
  (forall m j', snd (receive j (fst (run h remote_new))) = RResponse m j' <-> j' = j /\ waiting h k m) /\
  (snd (receive j (fst (run h remote_new))) = RThrow <-> forall m, ~ waiting h k m).
Proof. exact dispatch. Qed.
Print Assumptions C51_matching.
Definition ex_h : list event := [Begin mining_subscribe []; Finish 0; Begin mining_authorize [JString (text "a")]; Finish 0; Receive (response (JUint 0) JNull)].
Example C51_matching_example :
  sequential false ex_h /\ finishes ex_h = 2 /\
  snd (receive (response (JUint 1) (JBool true)) (fst (run ex_h remote_new))) = RResponse mining_authorize (response (JUint 1) (JBool true)) /\
  snd (receive (response (JUint 0) (JBool true)) (fst (run ex_h remote_new))) = RThrow.
Proof. split; [repeat split|]. split; [reflexivity|]. split; vm_compute; reflexivity. Qed.

(* At most one request waits under a number, and a second response to it throws. *)
Theorem C51_once :
  (forall h k m m', sequential false h -> finishes h <= 2 ^ 32 -> waiting h k m -> waiting h k m' -> m = m') /\
  (forall h k j j', sequential false h -> finishes h <= 2 ^ 32 -> answers k j -> answers k j' ->
     snd (receive j' (fst (receive j (fst (run h remote_new))))) = RThrow).
Proof. exact (conj waiting_fun once). Qed.
Print Assumptions C51_once.
Example C51_once_example :
  waiting ex_h 1 mining_authorize /\ answers 1 (response (JUint 1) (JBool true)).
Proof.
  split; [|apply answers_exact; split; vm_compute; reflexivity].
  exists [Begin mining_subscribe []; Finish 0], [JString (text "a")], [], [Receive (response (JUint 0) JNull)]. split; [reflexivity|]. split; [intros e []|]. split; [reflexivity|].
  intros j [E|[]]. assert (j = response (JUint 0) JNull) as -> by congruence. intros A. apply answers_exact in A. destruct A as [_ A]. vm_compute in A. congruence.
Qed.

(* Two requests that are on their way at the same time have the same number: both answers come under that number, the first is taken for the answer
   of the request that was sent last, and the other throws. *)
Theorem C51_matching_refuted :
  forall h a b p q j j', possible 0 h -> rm_sending (fst (run h remote_new)) = [] -> answers (finishes h mod 2 ^ 32) j -> answers (finishes h mod 2 ^ 32) j' ->
  snd (run (h ++ [Begin a p; Begin b q; Finish 0; Finish 0; Receive j; Receive j']) remote_new) = snd (run h remote_new) ++ [RResponse b j; RThrow].
Proof. exact crossed. Qed.
Print Assumptions C51_matching_refuted.
Example C51_matching_refuted_example :
  snd (run [Begin mining_subscribe []; Begin mining_authorize []; Finish 0; Finish 0; Receive (response (JUint 0) (JArray [])); Receive (response (JUint 0) (JBool true))] remote_new)
    = [RResponse mining_authorize (response (JUint 0) (JArray [])); RThrow].
Proof. vm_compute. reflexivity. Qed.

(* A request carries the number of requests sent completely so far. *)
Theorem C51_numbers :
  forall h m p, possible 0 h -> snd (send_begin m p (fst (run h remote_new))) = request (JUint (finishes h mod 2 ^ 32)) m p.
Proof. exact numbers_exact. Qed.
Print Assumptions C51_numbers.
Example C51_numbers_example :
  possible 0 ex_h /\ snd (send_begin mining_submit [] (fst (run ex_h remote_new))) = request (JUint 2) mining_submit [].
Proof. split; [cbn; intuition|vm_compute; reflexivity]. Qed.

(* However requests cross, no more responses are handled than requests were begun, for every number, every method and every choice of these. *)
Theorem C51_handled :
  forall f h, possible 0 h -> (handed f (snd (run h remote_new)) <= begun f 0 h)%nat.
Proof. exact handed_all. Qed.
Print Assumptions C51_handled.
Example C51_handled_example :
  handed (fun _ _ => true) (snd (run ex_h remote_new)) = 1%nat /\ begun (fun _ _ => true) 0 ex_h = 2%nat.
Proof. split; vm_compute; reflexivity. Qed.

(* The client's counts are the shares submitted and the responses that accept one, modulo 2^32, and no more shares are accepted than submitted;
   so the first count is never above the second while it has not wrapped. *)
Theorem C51_shares :
  forall mem o h, possible 0 (map (as_event mem) h) ->
  let y := client_run mem o h client_new in
  cl_submitted (fst y) = submits h mod 2 ^ 32 /\ cl_accepted (fst y) = shares_accepted (snd y) mod 2 ^ 32 /\ shares_accepted (snd y) <= submits h /\
  (submits h < 2 ^ 32 -> cl_accepted (fst y) <= cl_submitted (fst y)).
Proof. exact shares_exact. Qed.
Print Assumptions C51_shares.
Definition ex_share : sshare := mksshare (text "w") (text "1") {| sh_timestamp := 1; sh_nonce := 2; sh_extra2 := [x00; x00; x00; x00]; sh_bits := None |}.
Example C51_shares_example :
  let h := [CSubmit ex_share; CFinish 0; CReceive (response (JUint 0) (JBool true)); CReceive (response (JUint 0) (JBool true)); CSubmit ex_share] in
  let y := client_run false (mkcopts [] None) h client_new in
  cl_submitted (fst y) = 2 /\ cl_accepted (fst y) = 1.
Proof. split; vm_compute; reflexivity. Qed.
