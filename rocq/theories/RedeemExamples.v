(* Sample data for redeeming: hash functions that cut, keys as in SecpExamples, signatures that name what they sign. *)
From Coq Require Import Lia ZifyBool ZifyNat ZifyN.
From Verif Require Import Base BaseProofs WireModel WireSpec TextModel TextSpec SecpModel SecpSpec SecpProofs SecpExamples ScriptModel ScriptSpec ScriptProofs ProgramProofs.
From Verif Require Import StackModel StackSpec MachineModel MachineSpec PatternModel PatternSpec PatternTemplates SighashModel SighashSpec SighashProofs ExtModel StraightSpec PayRunSpec PayRunProofs.
From Verif Require Import RedeemModel RedeemSpec RedeemProofs.
Local Open Scope N_scope.

(* the start of a message, and its end backwards *)
Definition ex_head (n : nat) (b : bytes) : bytes := firstn n (b ++ repeat x00 n).
Lemma ex_head_len n b : len (ex_head n b) = N.of_nat n.
Proof. unfold len, ex_head. rewrite firstn_length, app_length, repeat_length. lia. Qed.
Definition ex_cut (n : nat) (b : bytes) : bytes := firstn n (rev b ++ repeat x00 n).
Lemma ex_cut_len n b : len (ex_cut n b) = N.of_nat n.
Proof. unfold len, ex_cut. rewrite firstn_length, app_length, repeat_length. lia. Qed.
Definition ex_signature (s : bytes) : option (N * N) := Some (be_val (firstn 32 s), be_val (skipn 32 s)).
Definition ex_verify (p : N) (h : bytes) (rs : N * N) : bool := (fst rs =? p) && (snd rs =? snd (normal (0, be_val h))).
Definition ex_world (e : N -> bytes -> N * N -> bool) : world :=
  {| w_ripemd := ex_head 20; w_sha := ex_cut 32; w_hash := ex_cut 32; w_parse := ex_parse; w_ser := ex_ser; w_der := ex_signature;
     w_ecdsa := e; w_sign := fun s h => s ++ h; w_compressed := fun k => len k =? 33; w_minimal := fun _ => true;
     w_normalized := fun _ => true; w_neg1 := [x81] |}.
Definition ex_machine : externals :=
  {| x_ripemd160 := ex_head 20; x_sha1 := ex_cut 20; x_sha256 := ex_cut 32; x_div := Z.quot; x_mod := Z.rem |}.

Lemma ex_world_sound e : sound (ex_world e).
Proof.
  constructor.
  - exact (ex_head_len 20).
  - exact (ex_cut_len 32).
  - exact (ex_cut_len 32).
  - exact ex_encodings.
  - intros p P. cbn [w_compressed w_ser ex_world ex_ser]. unfold len. cbn [length]. rewrite be_length. reflexivity.
  - reflexivity.
Qed.
Lemma ex_machine_of e : machine_of (ex_world e) ex_machine.
Proof.
  split; [split | split; reflexivity].
  - intros n m _. split; reflexivity.
  - intros b. split; [exact (ex_head_len 20 b) | split; [exact (ex_cut_len 20 b) | exact (ex_cut_len 32 b)]].
Qed.
Lemma ex_world_signs s : is_secret s -> signs (ex_world ex_verify) s.
Proof.
  intros [L [S1 S2]] k h Lh P. assert (L32 : length s = 32%nat) by exact L.
  split; [| split; [reflexivity | split; [reflexivity |]]].
  - exists (be_val s), (be_val s, be_val h). split; [exact P |]. split.
    + cbn [w_der w_sign ex_world]. unfold ex_signature. rewrite <- L32, firstn_app, skipn_app, Nat.sub_diag, firstn_all, skipn_all, firstn_O, skipn_O, app_nil_r. reflexivity.
    + cbn [w_ecdsa ex_world]. unfold ex_verify, normal. cbn [fst snd]. destruct (_ <? be_val h); cbn [fst snd]; rewrite !N.eqb_refl; reflexivity.
  - cbn [w_sign ex_world]. unfold len in *. rewrite app_length. lia.
Qed.

(* a key, its address, and outputs that pay to them *)
Definition ex_key (s : bytes) : secret := {| s_net := NetMain; s_value := s; s_compressed := true |}.
Definition ex_address : bytes := address_of (ex_world ex_verify) (key_of (ex_world ex_verify) (ex_key ex_secret)).
Definition ex_address_script : bytes := match p2a_script ex_address with Some s => s | None => [] end.
Definition ex_key_script : bytes := match p2p_script (ex_ser true 5) with Some s => s | None => [] end.
Definition ex_directive : byte := directive 1 false true.
Definition ex_spend (s : bytes) (script : bytes) (n : N) : rinput :=
  {| ri_input := {| di_input := {| ii_ref := {| op_digest := repeat x07 32; op_index := n |}; ii_seq := 4294967295 |};
                    di_prevout := {| out_value := 1000; out_script := script |}; di_expected := 108 |};
     ri_so_far := []; ri_sigs := [{| so_key := ex_key s; so_directive := ex_directive |}] |}.
Definition ex_design_of (l : list rinput) : rdesign :=
  {| rd_version := 1; rd_inputs := l; rd_outputs := [{| out_value := 1900; out_script := [x51] |}]; rd_locktime := 0 |}.
Definition ex_redeemable : rdesign := ex_design_of [ex_spend ex_secret ex_address_script 0; ex_spend ex_secret ex_key_script 1].
Definition ex_redeem_config : config := script_config genesis_profile true.
Lemma ex_design_wf l : N.of_nat (length l) < 2 ^ 64 -> Forall (fun i => iinput_wf (di_input (ri_input i))) l -> itx_wf (design_incomplete (design_of (ex_design_of l))).
Proof.
  intros L F. split; [split; vm_compute; (discriminate || reflexivity) |]. split.
  - split; [cbn [design_incomplete it_inputs design_of ds_inputs ex_design_of rd_inputs]; rewrite !map_length; exact L |].
    cbn [design_incomplete it_inputs design_of ds_inputs ex_design_of rd_inputs]. rewrite !Forall_map. exact F.
  - split; [split; [reflexivity |] | reflexivity]. repeat (apply Forall_cons || apply Forall_nil). split; [split; vm_compute; (discriminate || reflexivity) | vm_compute; reflexivity].
Qed.
Lemma ex_spend_wf s script n : n < 2 ^ 32 -> iinput_wf (di_input (ri_input (ex_spend s script n))).
Proof. intros L. split; [split; [reflexivity | exact L] | reflexivity]. Qed.
Lemma ex_whole : whole_script [].
Proof. exists [], []. split; [constructor | split; reflexivity]. Qed.

Lemma ex_ready_address : ready (ex_world ex_verify) (c_flags ex_redeem_config) (ex_spend ex_secret ex_address_script 0) (ex_key ex_secret) ex_directive.
Proof.
  constructor; try (exact eq_refl).
  - exact ex_secret_ok.
  - exact (ex_world_signs _ ex_secret_ok).
  - split; [reflexivity | split; [exists 0, 1; split; reflexivity | reflexivity]].
  - exact ex_whole.
  - split; vm_compute; (discriminate || reflexivity).
  - left. split; [vm_compute; reflexivity | split; [vm_compute; discriminate | reflexivity]].
Qed.
Lemma ex_ready_key : ready (ex_world ex_verify) (c_flags ex_redeem_config) (ex_spend ex_secret ex_key_script 1) (ex_key ex_secret) ex_directive.
Proof.
  constructor; try (exact eq_refl).
  - exact ex_secret_ok.
  - exact (ex_world_signs _ ex_secret_ok).
  - split; [reflexivity | split; [exists 0, 1; split; reflexivity | reflexivity]].
  - exact ex_whole.
  - split; vm_compute; (discriminate || reflexivity).
  - right. exists (ex_ser true 5). split; [vm_compute; reflexivity | split; [vm_compute; reflexivity | split; [vm_compute; reflexivity | reflexivity]]].
Qed.
Lemma ex_redeemable_wf : itx_wf (design_incomplete (design_of ex_redeemable)).
Proof. apply ex_design_wf; [reflexivity |]. repeat (apply Forall_cons || apply Forall_nil); apply ex_spend_wf; reflexivity. Qed.
Lemma ex_redeemable_ready : Forall (fun i => exists x e, ready (ex_world ex_verify) (c_flags ex_redeem_config) i x e) (rd_inputs ex_redeemable).
Proof.
  apply Forall_cons; [eexists; eexists; exact ex_ready_address |]. apply Forall_cons; [eexists; eexists; exact ex_ready_key | apply Forall_nil].
Qed.
Lemma ex_enough : enough ex_redeem_config 508 5 /\ c_max_memory ex_redeem_config < 2 ^ 63.
Proof. apply library_enough; [reflexivity | vm_compute; discriminate | left; reflexivity]. Qed.

(* ---- what goes wrong quietly: the key does not match, there is no key, and a good key is refused ---- *)
Definition ex_given (sigs : list sigop) : rdesign :=
  ex_design_of [{| ri_input := ri_input (ex_spend ex_secret ex_address_script 0); ri_so_far := []; ri_sigs := sigs |}].
Definition ex_good_key : bytes := x01 :: repeat xff 31.
Lemma ex_good_key_ok : is_secret ex_good_key /\ secret_valid (ex_key ex_good_key) = false.
Proof. split; [split; [reflexivity | split; reflexivity] | vm_compute; reflexivity]. Qed.
Definition ex_sigop (s : bytes) : sigop := {| so_key := ex_key s; so_directive := ex_directive |}.
Definition ex_empty : xtx :=
  {| xt_version := 1; xt_inputs := [{| xi_input := {| in_ref := {| op_digest := repeat x07 32; op_index := 0 |}; in_script := []; in_seq := 4294967295 |};
       xi_prevout := {| out_value := 1000; out_script := ex_address_script |} |}];
     xt_outputs := [{| out_value := 1900; out_script := [x51] |}]; xt_locktime := 0 |}.
Lemma ex_silent : Forall (fun sigs => redeem (by_default (ex_world ex_verify)) (ex_given sigs) = Ret ex_empty)
    [[]; [ex_sigop ex_secret2]; [ex_sigop ex_secret; ex_sigop ex_secret]] /\
  ~ all_spend (ex_world ex_verify) ex_machine ex_redeem_config ex_empty.
Proof.
  split; [repeat (apply Forall_cons || apply Forall_nil); vm_compute; reflexivity |].
  intros A. specialize (A 0%nat _ eq_refl). vm_compute in A. discriminate A.
Qed.
Definition ex_good_script : bytes :=
  match p2a_script (address_of (ex_world ex_verify) (key_of (ex_world ex_verify) (ex_key ex_good_key))) with Some s => s | None => [] end.
Lemma ex_good_refused : exists t, redeem (by_default (ex_world ex_verify)) (ex_design_of [ex_spend ex_good_key ex_good_script 0]) = Ret t /\
  map (fun i => in_script (xi_input i)) (xt_inputs t) = [[]] /\ p2a_script (address_of (ex_world ex_verify) (key_of (ex_world ex_verify) (ex_key ex_good_key))) = Some ex_good_script.
Proof. eexists. split; [vm_compute; reflexivity | split; vm_compute; reflexivity]. Qed.
Lemma ex_unreadable_stops : redeem (by_default (ex_world ex_verify)) (ex_design_of [ex_spend ex_secret ex_address_script 0; ex_spend ex_secret [x01] 0]) =
  Throw (X_bad_script (X_Invalid E_PUSH_SIZE)).
Proof. vm_compute. reflexivity. Qed.

(* ---- a key that has signed one document ---- *)
Definition ex_loose : byte := directive 2 true true.
Definition ex_signed_tx : itx := design_incomplete (design_of (ex_design_of [ex_spend ex_secret ex_address_script 0])).
Definition ex_signed_doc : sdoc := {| sd_tx := ex_signed_tx; sd_index := 0; sd_value := 1000; sd_code := address_program ex_address |}.
Definition ex_preimage : bytes := match sighash_write (ex_cut 32) ex_signed_doc ex_loose with Some b => b | None => [] end.
Definition ex_once : world := ex_world (fun _ h _ => bytes_eqb h (ex_cut 32 ex_preimage)).
Definition ex_once_script : bytes :=
  match p2a_redeem (repeat x30 10 ++ [ex_loose]) (ex_ser true 5) with Some s => s | None => [] end.
Lemma ex_signed_wf : sdoc_wf ex_signed_doc.
Proof.
  split; [| split].
  - apply ex_design_wf; [reflexivity |]. repeat (apply Forall_cons || apply Forall_nil); apply ex_spend_wf; reflexivity.
  - split; vm_compute; (discriminate || reflexivity).
  - eexists. eexists. split; [apply written_segments, address_written; reflexivity | split; [reflexivity | vm_compute; reflexivity]].
Qed.
Lemma ex_signed_only : signed_only ex_once ex_address [(ex_signed_doc, ex_loose)].
Proof.
  intros k h s _ [p [rs [_ [_ V]]]]. exists ex_signed_doc, ex_loose, ex_preimage. split; [left; reflexivity |].
  split; [vm_compute; reflexivity |]. apply bytes_eqb_eq. exact V.
Qed.
Lemma ex_names d pre : sighash_write (ex_cut 32) ex_signed_doc d = Some pre -> nth 3 (ex_cut 32 pre) x00 = d.
Proof. destruct d; vm_compute; intros E; injection E as <-; reflexivity. Qed.
Lemma ex_collision_free : collision_free ex_once ex_signed_doc [(ex_signed_doc, ex_loose)].
Proof.
  intros doc d pre [E | []] W. assert (E1 : doc = ex_signed_doc) by congruence. assert (E2 : d = ex_loose) by congruence. subst doc d.
  assert (P : pre = ex_preimage) by (vm_compute in W |- *; congruence). subst pre.
  split; [vm_compute; discriminate |]. split.
  - intros d pre W' Q. cbn [w_hash ex_once ex_world] in W', Q, W. pose proof (ex_names d pre W') as N1. rewrite Q, (ex_names _ _ W) in N1. subst d. congruence.
  - assert (A : acp_bit ex_loose) by (unfold acp_bit; vm_compute; discriminate).
    intros m n Hm. inversion Hm as [? B|? B|? B|? ? B]; try contradiction; discriminate B.
Qed.
Lemma ex_once_spends : spends ex_machine (redeeming ex_once (c_flags ex_redeem_config) ex_signed_tx 0 1000) ex_redeem_config (w_neg1 ex_once) ex_once_script ex_address_script.
Proof. vm_compute. reflexivity. Qed.

Lemma ex_pays : address_script ex_address ex_address_script.
Proof. refine (proj1 (built_script_exact _ _ _) _); vm_compute; reflexivity. Qed.
Lemma silent : ~ forall w X cf, sound w -> machine_of w X -> c_max_memory cf < 2 ^ 63 -> enough cf 508 5 ->
  forall d t, itx_wf (design_incomplete (design_of d)) -> redeem (by_default w) d = Ret t -> all_spend w X cf t.
Proof.
  intros A. destruct ex_silent as [F N]. apply N. destruct ex_enough as [E C].
  apply (A _ _ _ (ex_world_sound _) (ex_machine_of _) C E (ex_given [])).
  - apply ex_design_wf; [reflexivity |]. repeat (apply Forall_cons || apply Forall_nil). apply (ex_spend_wf ex_secret ex_address_script). reflexivity.
  - exact (Forall_inv F).
Qed.
Lemma good_key : ~ forall w, sound w -> forall out doc x d so_far, is_secret (s_value x) -> s_net x = NetMain -> sdoc_wf doc ->
  p2a_script (address_of w (key_of w x)) = Some (out_script out) -> address_of w (key_of w x) <> zero20 ->
  by_default w out doc [{| so_key := x; so_directive := d |}] so_far <> Ret [].
Proof.
  intros A. apply (A _ (ex_world_sound ex_verify) {| out_value := 1000; out_script := ex_good_script |} ex_signed_doc (ex_key ex_good_key) ex_directive []).
  - apply ex_good_key_ok.
  - reflexivity.
  - exact ex_signed_wf.
  - destruct ex_good_refused as (t & _ & _ & P). exact P.
  - vm_compute. discriminate.
  - apply default_no_key. right. eexists. split; [reflexivity | apply ex_good_key_ok].
Qed.
Lemma unreadable_stops : ~ forall w d, sound w -> itx_wf (design_incomplete (design_of d)) -> exists t, redeem (by_default w) d = Ret t.
Proof.
  intros A. destruct (A (ex_world ex_verify) (ex_design_of [ex_spend ex_secret ex_address_script 0; ex_spend ex_secret [x01] 0])) as [t E].
  - apply ex_world_sound.
  - apply ex_design_wf; [reflexivity |]. repeat (apply Forall_cons || apply Forall_nil); apply ex_spend_wf; reflexivity.
  - rewrite ex_unreadable_stops in E. discriminate E.
Qed.
