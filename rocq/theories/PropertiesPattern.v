From Coq Require Import Lia ZifyBool ZifyNat ZifyN.
From Verif Require Import Base ScriptModel ScriptSpec PatternModel PatternSpec PatternProofs PatternTemplates.
Local Open Scope N_scope.

(* C46: the scripts that the templates build are read back to the same payload *)
Theorem C46_recognised : forall neg1 d s, len neg1 < 20 -> len d = 20 ->
  (p2a_script d = Some s -> template_read neg1 p2a_pattern zero20 s = Ret d) /\
  (p2h_script d = Some s -> template_read neg1 p2h_pattern zero20 s = Ret d) /\
  (p2sh_script d = Some s -> template_read neg1 p2sh_pattern zero20 s = Ret d).
Proof. exact recognised. Qed.
Print Assumptions C46_recognised.
Example C46_recognised_ex : exists s, p2a_script (repeat x07 20) = Some s /\ len s = 25 /\ template_read [x81] p2a_pattern zero20 s = Ret (repeat x07 20).
Proof. eexists. split; [vm_compute; reflexivity|]. split; vm_compute; reflexivity. Qed.

(* a public key is read back exactly when it has one of the two sizes *)
Theorem C46_pubkey_recognised : forall neg1 d s, len neg1 < 33 -> len d < 2 ^ 31 -> p2p_script d = Some s ->
  (pmatch neg1 0 p2p_pattern s [[]] = ([d], Matched true) <-> len d = 33 \/ len d = 65).
Proof. exact pubkey_recognised. Qed.
Print Assumptions C46_pubkey_recognised.
Example C46_pubkey_recognised_ex : exists s, p2p_script (repeat x02 33) = Some s /\ template_read [x81] p2p_pattern [] s = Ret (repeat x02 33).
Proof. eexists. split; vm_compute; reflexivity. Qed.

(* which scripts are built *)
Theorem C46_built : forall d, len d = 20 ->
  p2a_script d = Some ([x76; xa9; x14] ++ d ++ [x88; xac]) /\
  p2h_script d = Some ([xa9; x14] ++ d ++ [x88]) /\
  p2sh_script d = Some ([xa9; x14] ++ d ++ [x87]).
Proof. exact scripts_built. Qed.
Print Assumptions C46_built.

(* which scripts match, and what is captured: the payload in any of the four encodings of a push *)
Theorem C46_address_exact : forall neg1 fuel s v w, len neg1 < 20 ->
  pmatch neg1 fuel p2a_pattern s v = (w, Matched true) <-> exists d, address_script d s /\ w = put 0 d v.
Proof. exact address_exact. Qed.
Print Assumptions C46_address_exact.
Theorem C46_hash_exact : forall neg1 fuel s v w, len neg1 < 20 ->
  pmatch neg1 fuel p2h_pattern s v = (w, Matched true) <-> exists d, hash_script d s /\ w = put 0 d v.
Proof. exact hash_exact. Qed.
Print Assumptions C46_hash_exact.
Theorem C46_script_hash_exact : forall neg1 fuel s v w, len neg1 < 20 ->
  pmatch neg1 fuel p2sh_pattern s v = (w, Matched true) <-> exists d, script_hash_script d s /\ w = put 0 d v.
Proof. exact script_hash_exact. Qed.
Print Assumptions C46_script_hash_exact.
Theorem C46_pubkey_exact : forall neg1 fuel s v w, len neg1 < 33 ->
  pmatch neg1 fuel p2p_pattern s v = (w, Matched true) <-> exists d, pubkey_script d s /\ w = put 0 d v.
Proof. exact pubkey_exact. Qed.
Print Assumptions C46_pubkey_exact.
Example C46_exact_ex : address_script (repeat x07 20) ([x76; xa9; x14] ++ repeat x07 20 ++ [x88; xac]).
Proof. exists (x14 :: repeat x07 20). split; [apply (dp_direct (repeat x07 20)); vm_compute; discriminate|]. split; reflexivity. Qed.

(* what is read as a payload, other than the value that stands for none, is the payload of such a script *)
Theorem C46_reads_exact : forall neg1 s d, len neg1 < 20 ->
  (d <> zero20 -> template_read neg1 p2a_pattern zero20 s = Ret d <-> address_script d s) /\
  (d <> zero20 -> template_read neg1 p2h_pattern zero20 s = Ret d <-> hash_script d s) /\
  (d <> zero20 -> template_read neg1 p2sh_pattern zero20 s = Ret d <-> script_hash_script d s) /\
  (d <> [] -> template_read neg1 p2p_pattern [] s = Ret d <-> pubkey_script d s).
Proof. exact reads_exact. Qed.
Print Assumptions C46_reads_exact.
Example C46_reads_exact_ex : template_read [x81] p2a_pattern zero20 ([x76; xa9; x14] ++ repeat x07 20 ++ [x88; xad]) = Ret zero20.
Proof. vm_compute. reflexivity. Qed.

(* the payload is not enough to know the script: pushes need not be minimal *)
Theorem C46_same_script_refuted :
  exists d s, pmatch [x81] 0 p2a_pattern s [zero20] = ([d], Matched true) /\ p2a_script d <> Some s.
Proof.
  exists (repeat x07 20), ([x76; xa9; x4c; x14] ++ repeat x07 20 ++ [x88; xac]). split; vm_compute; [reflexivity|discriminate].
Qed.
Print Assumptions C46_same_script_refuted.
(* of the scripts that match, the one that is built is the shortest, and the length tells *)
Theorem C46_shortest : forall d s,
  (address_script d s -> 25 <= len s /\ (len s = 25 <-> p2a_script d = Some s)) /\
  (hash_script d s -> 23 <= len s /\ (len s = 23 <-> p2h_script d = Some s)) /\
  (script_hash_script d s -> 23 <= len s /\ (len s = 23 <-> p2sh_script d = Some s)) /\
  (pubkey_script d s -> len d + 2 <= len s /\ (len s = len d + 2 <-> p2p_script d = Some s)).
Proof. exact shortest. Qed.
Print Assumptions C46_shortest.

(* match gives an answer, unless the push is incomplete, has no size, or is 0xff *)
Theorem C46_address_ends : forall neg1 fuel s v,
  (exists b, snd (pmatch neg1 fuel p2a_pattern s v) = Matched b) <-> ~ exists t, s = [x76; xa9] ++ t /\ unreadable t.
Proof. exact address_ends. Qed.
Print Assumptions C46_address_ends.
Theorem C46_hash_ends : forall neg1 fuel s v,
  (exists b, snd (pmatch neg1 fuel p2h_pattern s v) = Matched b) <-> ~ exists t, s = [xa9] ++ t /\ unreadable t.
Proof. exact hash_ends. Qed.
Print Assumptions C46_hash_ends.
Theorem C46_script_hash_ends : forall neg1 fuel s v,
  (exists b, snd (pmatch neg1 fuel p2sh_pattern s v) = Matched b) <-> ~ exists t, s = [xa9] ++ t /\ unreadable t.
Proof. exact script_hash_ends. Qed.
Print Assumptions C46_script_hash_ends.
Theorem C46_pubkey_ends : forall neg1 fuel s v,
  (exists b, snd (pmatch neg1 fuel p2p_pattern s v) = Matched b) <-> ~ unreadable s.
Proof. exact pubkey_ends. Qed.
Print Assumptions C46_pubkey_ends.
(* so a template is not always able to say no *)
Theorem C46_total_refuted :
  pmatch [x81] 0 p2p_pattern [xff] [[]] = ([[]], MEscape (X_Invalid E_UNKNOWN_ERROR)) /\
  pmatch [x81] 0 p2a_pattern [x76; xa9; x4c] [zero20] = ([zero20], MEscape (X_Invalid E_UNKNOWN_ERROR)) /\
  pmatch [x81] 0 p2a_pattern [x76; xa9; x14; x00] [zero20] = ([zero20], MBeyond) /\
  pmatch [x81] 0 p2p_pattern [x4e; xfc; xff; xff; xff] [[]] = ([[]], MEscape X_EndOfStream).
Proof. split; [|split; [|split]]; vm_compute; reflexivity. Qed.
Print Assumptions C46_total_refuted.

(* no script matches two templates *)
Theorem C46_disjoint : forall d e s,
  (address_script d s -> ~ hash_script e s /\ ~ script_hash_script e s /\ ~ pubkey_script e s) /\
  (hash_script d s -> ~ script_hash_script e s /\ ~ pubkey_script e s) /\
  (script_hash_script d s -> ~ pubkey_script e s).
Proof. exact disjoint. Qed.
Print Assumptions C46_disjoint.

(* the interpreter's test for P2SH accepts the scripts that are built and no others *)
Theorem C46_p2sh_test : forall s, is_P2SH s = true <-> exists d, len d = 20 /\ p2sh_script d = Some s.
Proof. exact p2sh_test. Qed.
Print Assumptions C46_p2sh_test.
Example C46_p2sh_test_ex : exists s, p2sh_script (repeat x07 20) = Some s /\ is_P2SH s = true.
Proof. eexists. split; vm_compute; reflexivity. Qed.

(* the expected size of an unlocking script is an upper bound, met by signatures of the greatest size *)
Theorem C46_redeem_size : forall sig key, len sig <= signature_max ->
  (forall c, (len key = if c : bool then 33 else 65) ->
     exists s, p2a_redeem sig key = Some s /\ len s <= p2a_redeem_size c /\ (len s = p2a_redeem_size c <-> len sig = signature_max)) /\
  (exists s, p2p_redeem sig = Some s /\ len s <= p2p_redeem_size /\ (len s = p2p_redeem_size <-> len sig = signature_max)).
Proof. exact redeem_sizes. Qed.
Print Assumptions C46_redeem_size.
Example C46_redeem_size_ex : option_map len (p2a_redeem (repeat x30 71) (repeat x02 33)) = Some 106 /\ p2a_redeem_size true = 108.
Proof. split; vm_compute; reflexivity. Qed.

(* push_size and push *)
Theorem C46_push_size : forall neg1 fuel n var b v,
  (forall w r, scan neg1 fuel (PPushSize n var) b v = (w, Rest r) <->
     exists i c, whole i c /\ b = c ++ r /\ len (push_value neg1 i) = n /\ w = put_opt var (push_value neg1 i) v) /\
  (snd (scan neg1 fuel (PPushSize n var) b v) = Fail <->
     b = [] \/ exists i c r, whole i c /\ b = c ++ r /\ len (push_value neg1 i) <> n) /\
  (snd (scan neg1 fuel (PPushSize n var) b v) = Beyond <-> cut b) /\
  (snd (scan neg1 fuel (PPushSize n var) b v) = Escape (X_Invalid E_UNKNOWN_ERROR) <-> sizeless b) /\
  (snd (scan neg1 fuel (PPushSize n var) b v) = Escape X_EndOfStream <-> oversize b).
Proof. exact push_size_exact. Qed.
Print Assumptions C46_push_size.
Theorem C46_push : forall neg1 fuel t b v,
  (forall w r, scan neg1 fuel (PPush t) b v = (w, Rest r) <->
     exists i c, whole i c /\ b = c ++ r /\ push_match neg1 t i v = Some w) /\
  (snd (scan neg1 fuel (PPush t) b v) = Fail <->
     b = [] \/ sizeless b \/ exists i c r, whole i c /\ b = c ++ r /\ push_match neg1 t i v = None) /\
  (snd (scan neg1 fuel (PPush t) b v) = Beyond <-> cut b) /\
  (snd (scan neg1 fuel (PPush t) b v) = Escape X_EndOfStream <-> oversize b).
Proof. exact push_exact. Qed.
Print Assumptions C46_push.
(* an opcode that pushes nothing is taken by push_size for a push of nothing *)
Theorem C46_push_size_refuted : forall v, scan [x81] 0 (PPushSize 0 None) [xac] v = (v, Rest []) /\ is_push_op xac = false.
Proof. intros v. split; reflexivity. Qed.
Print Assumptions C46_push_size_refuted.

(* what is left after a scan is the end of the script; without repetition every scan ends *)
Theorem C46_suffix : forall neg1 fuel q p v w r, scan neg1 fuel q p v = (w, Rest r) -> exists c, p = c ++ r.
Proof. exact scan_suffix. Qed.
Print Assumptions C46_suffix.
Theorem C46_plain_ends : forall neg1 fuel q, plain q = true -> forall p v, snd (scan neg1 fuel q p v) <> Endless.
Proof. exact plain_ends. Qed.
Print Assumptions C46_plain_ends.
Example C46_plain_ex : plain p2a_pattern = true /\ plain p2p_pattern = true.
Proof. split; reflexivity. Qed.

(* repetition of an opcode *)
Theorem C46_repeat : forall neg1 fuel o first second d p v, 0x4e < b2n o -> o <> xff -> (length p < fuel)%nat -> len p < 2 ^ 32 ->
  scan neg1 fuel (PRepeat (PAtom (op_instr o)) first second d) p v =
  (v, repeat_result o (repeat_min first second d) (repeat_max first second d) p).
Proof. exact repeat_ops. Qed.
Print Assumptions C46_repeat.
(* zero times is any number of times; the first bound is not looked at once the second is reached *)
Theorem C46_repeat_refuted : forall v,
  scan [x81] 9 (repeated_of (PAtom (op_instr OP_1)) 0 Exactly) [OP_1; OP_1; OP_1; OP_NOP] v = (v, Rest [OP_NOP]) /\
  scan [x81] 9 (repeated_between (PAtom (op_instr OP_1)) 5 2) [OP_1; OP_1; OP_1] v = (v, Rest [OP_1]).
Proof. intros v. split; vm_compute; reflexivity. Qed.
Print Assumptions C46_repeat_refuted.
Theorem C46_repeat_ends : forall neg1 fuel q p v first second d,
  (forall p v w r, scan neg1 fuel q p v = (w, Rest r) -> (length r < length p)%nat) -> plain q = true -> (length p < fuel)%nat ->
  snd (scan neg1 fuel (PRepeat q first second d) p v) <> Endless.
Proof. exact repeat_ends. Qed.
Print Assumptions C46_repeat_ends.
(* repetition of what can match nothing goes on for ever *)
Theorem C46_repeat_ends_refuted : forall neg1 fuel q p v n, scan neg1 fuel q p v = (v, Rest p) -> scan neg1 fuel (repeated_of q n OrMore) p v = (v, Endless).
Proof. exact repeat_forever. Qed.
Print Assumptions C46_repeat_ends_refuted.
Example C46_repeat_ends_refuted_ex : forall v, scan [x81] 9 PAny [xff] v = (v, Rest [xff]) /\ scan [x81] 9 (POptional (PAtom (op_instr OP_1))) [] v = (v, Rest []).
Proof. intros v. split; reflexivity. Qed.

(* an optional part takes what it can *)
Theorem C46_optional_refuted : forall neg1 fuel o v, 0x4e < b2n o -> o <> xff ->
  pmatch neg1 fuel (pattern_of [AOptional (PAtom (op_instr o)); AOp o]) [o] v = (v, Matched false) /\
  pmatch neg1 fuel (pattern_of [AOp o]) [o] v = (v, Matched true).
Proof. exact optional_greedy. Qed.
Print Assumptions C46_optional_refuted.

(* OP_RETURN followed by any data, OP_RETURN followed by given data, any instruction, and repetitions: as parts of a
   pattern these stand for something else *)
Theorem C46_return_refuted : forall neg1 fuel s v,
  (snd (pmatch neg1 fuel return_any s v) = Matched true <-> s = [OP_RETURN]) /\
  (forall d, snd (pmatch neg1 fuel (return_data d) s v) = Matched true <-> s = [OP_RETURN]) /\
  (snd (pmatch neg1 fuel (pattern_of [AReturn PEmpty]) s v) = Matched true <-> s = []) /\
  (snd (pmatch neg1 fuel (pattern_of [AAny]) s v) = Matched true <-> s = []) /\
  (forall q l, pattern_of (AReturn q :: l) = pattern_of (APattern q :: l)) /\
  (forall q a b d l, pattern_of (ARepeat q a b d :: l) = pattern_of (APattern q :: l)).
Proof. exact return_sliced. Qed.
Print Assumptions C46_return_refuted.
