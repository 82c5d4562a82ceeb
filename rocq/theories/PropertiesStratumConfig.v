(* C94: Stratum extensions and mining.configure. *)
From Coq Require Import String Sorted.
From Verif Require Import Base TextModel WireModel WireSpec JsonModel StratumModel StratumSpec StratumConfigModel StratumConfigSpec DictProofs StratumConfigProofs StratumConfigFields.
Local Open Scope N_scope.

(* The parameters of mining.configure are valid exactly when they are an array of distinct names and an object, and those are read back. *)
Theorem C94_configure_message :
  (forall p, configure_valid p = true <-> exists ss o, NoDup ss /\ p = [JArray (map JString ss); JObject o]) /\
  (forall c, configure_read (configure_write c) = c <-> NoDup (cf_supported c) \/ c = mkconfigure [] []).
Proof. exact (conj configure_valid_exact configure_survives). Qed.
Print Assumptions C94_configure_message.
Example C94_configure_message_example :
  configure_valid [JArray [JString (text "info")]; JObject []] = true /\
  configure_read (configure_write (mkconfigure [text "info"; text "info"] [])) = mkconfigure [] [].
Proof. split; vm_compute; reflexivity. Qed.

(* Requests are read from a message exactly as the dotted names say; otherwise it throws. *)
Theorem C94_requests_exact :
  forall c, NoDup (cf_supported c) -> sorted (cf_params c) ->
  (forall m, requests_of c = Ret m <-> requests_ok m /\ says_requests c m) /\
  (requests_of c = Throw tt <-> exists p v, maps (cf_params c) p v /\ ~ exists n k, p = dotted n k /\ plain n /\ plain k /\ In n (cf_supported c)) /\
  requests_of c <> Undef.
Proof. intros c _ S. exact (conj (fun m => requests_exact c m S) (conj (requests_throw c S) (take_throws _ _))). Qed.
Print Assumptions C94_requests_exact.
Example C94_requests_exact_example :
  requests_of (mkconfigure [text "version-rolling"; text "info"] [(text "version-rolling.mask", JString (text "1fffe000")); (text "version-rolling.min-bit-count", JUint 2)])
    = Ret [(text "info", []); (text "version-rolling", [(text "mask", JString (text "1fffe000")); (text "min-bit-count", JUint 2)])] /\
  requests_of (mkconfigure [text "info"] [(text "version-rolling.mask", JNull)]) = Throw tt.
Proof. split; vm_compute; reflexivity. Qed.

(* Requests made into a message are read back exactly when every parameter has the name of its extension. *)
Theorem C94_requests_round_trip_refuted :
  forall r, requests_ok r ->
  (requests_of (configure_of r) = Ret r <-> Forall self_named r) /\
  (requests_of (configure_of r) = Throw tt <-> exists n q k v, maps r n q /\ maps q k v /\ (~ plain k \/ forall q', ~ maps r k q')).
Proof. intros r O. exact (conj (requests_back r O) (requests_back_throws r O)). Qed.
Print Assumptions C94_requests_round_trip_refuted.
Example C94_requests_round_trip_example :
  requests_of (configure_of (requests_insert minimum_difficulty (minimum_write (JUint 4)) [])) = Throw tt /\
  requests_of (configure_of (requests_insert subscribe_extranonce [] [])) = Ret (requests_insert subscribe_extranonce [] []).
Proof. split; vm_compute; reflexivity. Qed.

(* A message that asks to roll versions is never understood. *)
Theorem C94_rolling_refused :
  forall mem c r, requests_ok r -> maps r (extension_to_string version_rolling) (rolling_write mem c) -> (forall q, ~ maps r (text "mask") q) ->
  requests_of (configure_of r) = Throw tt.
Proof. exact rolling_throws. Qed.
Print Assumptions C94_rolling_refused.
Example C94_rolling_refused_example :
  let r := requests_insert version_rolling (rolling_write true (mkrolling 536862720 2)) [] in
  requests_ok r /\ maps r (extension_to_string version_rolling) (rolling_write true (mkrolling 536862720 2)) /\ forall q, ~ maps r (text "mask") q.
Proof. split; [split; [repeat constructor|constructor; [apply rolling_sorted|constructor]]|]. split; [reflexivity|]. intros q X. vm_compute in X. discriminate X. Qed.

(* Results are read from an answer exactly as the dotted names say. *)
Theorem C94_results_exact :
  forall o m, sorted o -> results_of o = Ret m <-> results_ok m /\ says_results o m.
Proof. exact results_exact. Qed.
Print Assumptions C94_results_exact.
Example C94_results_exact_example :
  results_of [(text "info", JBool false); (text "version-rolling", JBool true); (text "version-rolling.mask", JString (text "18000000"))]
    = Ret [(text "info", mkresult (AccBool false) []); (text "version-rolling", mkresult (AccBool true) [(text "mask", JString (text "18000000"))])] /\
  results_of [(text "version-rolling.mask", JString (text "18000000"))] = Throw tt.
Proof. split; vm_compute; reflexivity. Qed.

(* Results made into an answer are read back exactly when names have no dots and what is refused has no parameters. *)
Theorem C94_results_round_trip :
  (forall r o, results_ok r -> answer_of r = Ret o -> results_of o = Ret r <-> Forall told r) /\
  (forall r, answer_of r = Throw tt <-> exists n x, In (n, x) r /\ rs_accepted x = AccNone).
Proof. exact (conj results_back (fun r => answer_throws r [])). Qed.
Print Assumptions C94_results_round_trip.
Example C94_results_round_trip_example :
  let r := [(text "info", mkresult (AccError (text "no")) []); (text "version-rolling", mkresult (AccBool true) [(text "mask", JString (text "18000000"))])] in
  bind (answer_of r) results_of = Ret r /\ bind (answer_of [(text "info", mkresult (AccBool false) [(text "k", JNull)])]) results_of = Ret [(text "info", mkresult (AccBool false) [])].
Proof. split; vm_compute; reflexivity. Qed.

(* The requests of single extensions: only a minimum difficulty is read back. *)
Theorem C94_single_extensions_refuted :
  (forall p c, rolling_read p <> Ret (Some c)) /\ (forall mem c, rolling_read (rolling_write mem c) = Ret None) /\
  (forall p z, rolled_read p <> Ret (Some z)) /\ (forall mem z, rolled_read (rolled_write mem z) = Ret None) /\
  (forall a, about_read (about_write a) = Ret None) /\
  (forall p d, minimum_read p = Some d <-> maps p (text "value") d /\ ((exists n, d = JUint n) \/ exists f, d = JFloat f)).
Proof. exact (conj rolling_never (conj rolling_lost (conj rolled_never (conj rolled_lost (conj about_lost minimum_exact))))). Qed.
Print Assumptions C94_single_extensions_refuted.
Example C94_single_extensions_example : minimum_read (minimum_write (JUint 4)) = Some (JUint 4) /\ rolling_read (rolling_write true (mkrolling 1 1)) = Ret None.
Proof. split; vm_compute; reflexivity. Qed.

(* An accepted result with parameters is invalid, and a result made of parameters has none. *)
Theorem C94_result_valid :
  (forall x, result_valid x = Ret true <-> rs_accepted x = AccBool true /\ rs_params x = [] \/ rs_accepted x = AccBool false \/ exists s, rs_accepted x = AccError s) /\
  (forall x, exists b, result_valid x = Ret b) /\ (forall p, rs_params (result_of_params p) = []).
Proof. exact (conj result_valid_exact (conj result_valid_defined (fun p => eq_refl))). Qed.
Print Assumptions C94_result_valid.
Example C94_result_valid_example : result_valid (mkresult (AccBool true) (rolled_write true 1)) = Ret false.
Proof. vm_compute. reflexivity. Qed.
