(* What redeeming should give: transactions whose inputs can be spent, and signatures that hold for them alone. *)
From Verif Require Import Base WireModel WireSpec TextModel SecpModel SecpSpec ScriptModel ScriptSpec StackModel StackSpec MachineModel MachineSpec.
From Verif Require Import PatternModel PatternSpec SighashModel SighashSpec ExtModel StraightSpec PayRunSpec RedeemModel.
Local Open Scope N_scope.

(* everything outside of the library *)
Record world := { w_ripemd : bytes -> bytes; w_sha : bytes -> bytes; w_hash : bytes -> bytes; w_parse : bytes -> option N;
  w_ser : bool -> N -> bytes; w_der : bytes -> option (N * N); w_ecdsa : N -> bytes -> N * N -> bool; w_sign : bytes -> bytes -> bytes;
  w_compressed : bytes -> bool; w_minimal : bytes -> bool; w_normalized : bytes -> bool; w_neg1 : bytes }.

Definition address_of (w : world) (k : bytes) : bytes := w_ripemd w (w_sha w k).
(* the public key of a secret, in the form that the secret asks for *)
Definition key_of (w : world) (x : secret) : bytes := public_of (w_ser w) (s_compressed x) (s_value x).
(* the default redeemer, and the document of input number i of the transaction t which redeems the amount v *)
Definition by_default (w : world) : redeemer :=
  redeem_default (w_hash w) (address_of w) (w_parse w) (w_ser w) (w_sign w) (w_neg1 w).
Definition redeeming (w : world) (f : flag) (t : itx) (i : N) (v : Z) : option rdoc :=
  redemption (w_hash w) (w_parse w) (w_der w) (w_ecdsa w) (w_compressed w) (w_minimal w) (w_normalized w) t i v f.
(* a key verifies a signature of a digest *)
Definition verifies (w : world) (k h s : bytes) : Prop :=
  exists p rs, w_parse w k = Some p /\ rs = match w_der w s with Some x => x | None => (0, 0) end /\ w_ecdsa w p h (normal rs) = true.

(* hash functions have their sizes, keys are encodings of points, and signatures work *)
Record sound (w : world) : Prop := {
  sw_ripemd : forall b, len (w_ripemd w b) = 20;
  sw_sha : forall b, len (w_sha w b) = 32;
  sw_hash : forall b, len (w_hash w b) = 32;
  sw_encodings : encodings (w_parse w) (w_ser w);
  sw_compressed : forall p, is_point p -> w_compressed w (w_ser w true p) = true;
  sw_neg1 : len (w_neg1 w) < 20 }.
Definition signs (w : world) (s : bytes) : Prop := forall k h, len h = 32 -> w_parse w k = Some (be_val s) ->
  verifies w k h (w_sign w s h) /\ w_minimal w (w_sign w s h) = true /\ w_normalized w (w_sign w s h) = true /\ len (w_sign w s h) <= 72.
Definition machine_of (w : world) (X : externals) : Prop :=
  standard X /\ (forall b, x_ripemd160 X b = w_ripemd w b) /\ (forall b, x_sha256 X b = w_sha w b).

(* a sequence of whole instructions *)
Definition whole_script (b : bytes) : Prop := exists p s, segments p s /\ b = concat s /\ len b < 2 ^ 30.
(* a valid directive with the fork id, a key, and an output that pays to the key or to its address *)
Record ready (w : world) (f : flag) (i : rinput) (x : secret) (d : byte) : Prop := {
  rr_sigs : ri_sigs i = [{| so_key := x; so_directive := d |}];
  rr_valid : secret_valid x = true;
  rr_secret : is_secret (s_value x);
  rr_signs : signs w (s_value x);
  rr_directive : directive_valid d = true /\ fork_bit d /\ has_flag FLAG_FORKID f = true;
  rr_so_far : whole_script (ri_so_far i);
  rr_value : i64 (out_value (di_prevout (ri_input i)));
  rr_pays :
    (p2a_script (address_of w (key_of w x)) = Some (out_script (di_prevout (ri_input i))) /\ address_of w (key_of w x) <> zero20 /\
      (has_flag FLAG_COMPRESSED f = true -> s_compressed x = true)) \/
    (exists k, p2p_script k = Some (out_script (di_prevout (ri_input i))) /\ w_parse w k = Some (be_val (s_value x)) /\
      compared (w_parse w) (w_ser w) k = compared (w_parse w) (w_ser w) (key_of w x) /\
      (has_flag FLAG_COMPRESSED f = true -> w_compressed w k = true)) }.

(* every input of the transaction can be spent *)
Definition all_spend (w : world) (X : externals) (cf : config) (t : xtx) : Prop :=
  forall n i, nth_error (xt_inputs t) n = Some i ->
    spends X (redeeming w (c_flags cf) (itx_of (xtx_plain t)) (N.of_nat n) (out_value (xi_prevout i))) cf (w_neg1 w)
      (in_script (xi_input i)) (out_script (xi_prevout i)).

(* ---- what the default redeemer gives ---- *)
(* the key and the form of unlocking script that an output asks for *)
Inductive asks (w : world) (out : output) (x : secret) : (bytes -> option bytes) -> Prop :=
| asks_address : address_script (address_of w (key_of w x)) (out_script out) -> address_of w (key_of w x) <> zero20 ->
    asks w out x (fun sig => p2a_redeem sig (key_of w x))
| asks_key k p : pubkey_script k (out_script out) -> w_parse w k = Some p ->
    compared (w_parse w) (w_ser w) k = compared (w_parse w) (w_ser w) (key_of w x) ->
    asks w out x p2p_redeem.
(* the script does not stop the templates *)
Definition legible (s : bytes) : Prop := ~ unreadable s /\ ~ exists t, s = [x76; xa9] ++ t /\ unreadable t.

(* ---- what a key has signed ---- *)
(* every signature that any key with address a verifies is for one of the documents *)
Definition signed_only (w : world) (a : bytes) (l : list (sdoc * byte)) : Prop :=
  forall k h s, address_of w k = a -> verifies w k h s ->
  exists doc d pre, In (doc, d) l /\ sighash_write (w_hash w) doc d = Some pre /\ h = w_hash w pre.
(* no collisions among the preimages of the documents and of doc, and among the messages hashed in them *)
Definition collision_free (w : world) (doc : sdoc) (l : list (sdoc * byte)) : Prop :=
  forall doc' d' pre', In (doc', d') l -> sighash_write (w_hash w) doc' d' = Some pre' ->
    w_hash w pre' <> zero32 /\
    (forall d pre, sighash_write (w_hash w) doc d = Some pre -> w_hash w pre = w_hash w pre' -> pre = pre') /\
    no_collision (w_hash w) d' doc doc'.

(* ---- a design that has been redeemed with r ---- *)
Record redeemed_to (r : redeemer) (d : rdesign) (t : xtx) : Prop := {
  rt_version : xt_version t = rd_version d;
  rt_outputs : xt_outputs t = rd_outputs d;
  rt_locktime : xt_locktime t = rd_locktime d;
  rt_count : length (xt_inputs t) = length (rd_inputs d);
  rt_input : forall n i, nth_error (rd_inputs d) n = Some i -> exists code s,
    remove_after_last_code_separator (script_so_far i) = Ret code /\
    r (di_prevout (ri_input i))
      {| sd_tx := design_incomplete (design_of d); sd_index := N.of_nat n; sd_value := out_value (di_prevout (ri_input i)); sd_code := code |}
      (ri_sigs i) (ri_so_far i) = Ret s /\
    nth_error (xt_inputs t) n = Some {| xi_input := {| in_ref := ii_ref (di_input (ri_input i)); in_script := s; in_seq := ii_seq (di_input (ri_input i)) |};
                                        xi_prevout := di_prevout (ri_input i) |} }.
