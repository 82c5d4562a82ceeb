(* Which errors a script check reports. *)
From Verif Require Import Base ScriptModel StackModel MachineModel.

(* errors that have a name but are never reported *)
Definition unreported (e : serror) : bool :=
  match e with E_EVAL_FALSE | E_SCRIPT_SIZE | E_DISABLED_OPCODE | E_BIG_INT | E_INVALID_SCRIPT_CODE => true | _ => false end.
(* errors without a text *)
Definition unnamed (e : serror) : bool := match e with E_UNKNOWN_ERROR | E_INVALID_SCRIPT_CODE => true | _ => false end.
(* signatures are checked by verify_signature, whatever is behind the tests of keys and signatures *)
Definition usual (cf : config) (doc : option rdoc) : Prop :=
  forall d, doc = Some d -> exists K, d_verify d = verify_signature K (c_flags cf).

(* what may be wrong with a signature, in the order in which it is looked for *)
Definition sig_faults (K : sig_checks) (f : flag) (code : program) (sig pub : bytes) : list (serror * Prop) :=
  let fork := N.testbit (b2n (last sig x00)) 6 = true in
  [(E_NONCOMPRESSED_PUBKEY, has_flag FLAG_COMPRESSED f = true /\ k_compressed K pub = false);
   (E_PUBKEYTYPE, has_flag FLAG_STRICTENC f = true /\ k_valid K pub = false);
   (E_SIG_HASHTYPE, N.land (b2n (last sig x00)) 0x3c <> 0%N);
   (E_ILLEGAL_FORKID, has_flag FLAG_FORKID f = false /\ fork);
   (E_MUST_USE_FORKID, has_flag FLAG_REQUIRE_FORKID f = true /\ ~ fork);
   (E_SIG_DER, (has_flag FLAG_DERSIG f = true \/ has_flag FLAG_LOW_S f = true \/ has_flag FLAG_STRICTENC f = true) /\ k_der K sig = false);
   (E_SIG_HIGH_S, has_flag FLAG_LOW_S f = true /\ k_normalized K (removelast sig) = false);
   (E_SIG_NULLFAIL, has_flag FLAG_NULLFAIL f = true /\ sig <> [] /\ k_verify K code sig pub = false)].
Definition first_fault (l : list (serror * Prop)) (e : serror) : Prop :=
  exists a P b, l = a ++ (e, P) :: b /\ P /\ Forall (fun x => ~ snd x) a.
