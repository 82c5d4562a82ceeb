(* Small signatures, and what they show *)
From Coq Require Import Lia ZifyBool ZifyNat ZifyN.
From Verif Require Import Base BaseProofs TextModel ScriptProofs RedeemModel RedeemSpec DerModel DerSpec DerProofs DerStrict.
Local Open Scope N_scope.

(* a number whose high bit is set, with and without a zero in front *)
Definition ex_padded : bytes := wrapped [x00; xff] [x01].
Definition ex_negative : bytes := wrapped [xff] [x01].
Definition ex_zero : bytes := wrapped [x00] [x01].
Definition ex_long_form : bytes := [x30; x82; x00; x07; x02; x81; x01; xff; x02; x83; x00; x00; x02; x00; x01; xaa].
(* the second number is the order *)
Definition ex_order : bytes := wrapped [x01] (der_integer secp_order).
(* 129 bytes in an integer *)
Definition ex_big : bytes := wrapped (repeat x01 129) [x01].

Lemma malleable : ex_padded <> ex_negative /\ yes (sig_minimal ex_padded) /\ yes (sig_minimal ex_negative) /\ yes (sig_normalized ex_padded) /\ yes (sig_normalized ex_negative) /\
  lax_parse ex_padded = Ret (Some (255, 1)) /\ lax_parse ex_negative = Ret (Some (255, 1)) /\ bip66 ex_padded /\ ~ bip66 ex_negative.
Proof.
  split; [discriminate|]. do 6 (split; [reflexivity|]). split.
  - apply bip66_exact. exists 255, 1. split; [reflexivity|]. vm_compute. discriminate.
  - intros B. apply bip66_exact in B as (r & s & E & L). unfold ex_negative, der_signature in E. unfold der_signature in *. pose proof (der_bip66 r) as Hr.
    assert (L2 : len ex_negative = len (der_integer r) + len (der_integer s) + 6) by (unfold ex_negative; rewrite E; apply len_wrapped).
    change (len ex_negative) with 8 in L2. apply wrapped_inj in E; [|reflexivity|lia]. destruct E as [E _]. rewrite <- E in Hr. destruct Hr as [Hr _]. discriminate Hr.
Qed.
Lemma zero_refused : bip66 ex_zero /\ no (sig_minimal ex_zero) /\ lax_parse ex_zero = Ret (Some (0, 1)).
Proof. split; [apply bip66_exact; exists 0, 1; split; [reflexivity|vm_compute; discriminate]|]. split; reflexivity. Qed.
Lemma overflow_normal : yes (sig_minimal ex_order) /\ yes (sig_normalized ex_order) /\ exists R T, ex_order = wrapped R T /\ secp_order / 2 < be_val T.
Proof. split; [vm_compute; reflexivity|]. split; [vm_compute; reflexivity|]. exists [x01], (der_integer secp_order). split; [reflexivity|]. rewrite der_val. reflexivity. Qed.
Lemma big_differs : yes (sig_minimal ex_big) /\ lax_parse ex_big = Ret None /\ no (sig_normalized ex_big).
Proof. split; [vm_compute; reflexivity|]. split; vm_compute; reflexivity. Qed.
Lemma signs_concrete w s : (forall x, w_minimal w x = true <-> yes (sig_minimal x)) -> (forall x, w_normalized w x = true <-> yes (sig_normalized x)) ->
  (forall k h, len h = 32 -> w_parse w k = Some (be_val s) -> exists r t, w_sign w s h = der_signature r t /\ 0 < r /\ r < secp_order /\ 0 < t /\ t <= secp_order / 2 /\
    verifies w k h (w_sign w s h)) -> signs w s.
Proof.
  intros M Nn H k h L P. destruct (H k h L P) as (r & t & E & A & B & C & D & V). destruct (produced r t A B C D) as (P1 & P2 & _ & P4 & _).
  split; [exact V|]. rewrite E. split; [apply M, P1|]. split; [apply Nn, P2|exact P4].
Qed.
(* a key of which nothing but this is known *)
Definition ex_world (v : N -> bytes -> N * N -> bool) : world :=
  {| w_ripemd := fun b => b; w_sha := fun b => b; w_hash := fun b => b; w_parse := fun _ => Some 5; w_ser := fun _ _ => []; w_der := fun _ => Some (7, 9);
     w_ecdsa := v; w_sign := fun _ _ => der_signature 7 9; w_compressed := fun _ => true;
     w_minimal := fun x => match sig_minimal x with Ret b => b | _ => false end; w_normalized := fun x => match sig_normalized x with Ret b => b | _ => false end; w_neg1 := [] |}.
Lemma ex_world_signs : signs (ex_world (fun _ _ rs => fst rs =? 7)) [x05].
Proof.
  apply signs_concrete.
  - intros x. cbn [w_minimal ex_world]. unfold yes. destruct (sig_minimal x); split; congruence.
  - intros x. cbn [w_normalized ex_world]. unfold yes. destruct (sig_normalized x); split; congruence.
  - intros k h L P. exists 7, 9. split; [reflexivity|]. do 3 (split; [reflexivity|]). split; [discriminate|].
    exists 5, (7, 9). split; [reflexivity|]. split; [reflexivity|]. reflexivity.
Qed.
(* 60 bytes are declared *)
Lemma ex_point : point_read (point_write (2 ^ 228) (2 ^ 229)) = Some ((2 ^ 228, 2 ^ 229), []) /\ point_read (point_write 1 1) = None /\
  point_read (point_write (2 ^ 255) (2 ^ 255) ++ repeat xaa 9) = Some ((2 ^ 255, 2 ^ 255), [xaa]).
Proof. split; [vm_compute; reflexivity|]. split; vm_compute; reflexivity. Qed.
