(* Sample data for the examples about keys: residues in place of points of the curve. *)
From Coq Require Import Lia ZifyBool ZifyNat ZifyN.
From Verif Require Import Base BaseProofs WireModel MerkleModel TextModel TextSpec SecpModel SecpSpec SecpProofs.
Local Open Scope N_scope.

Definition ex_ser (c : bool) (p : N) : bytes := if c then x02 :: be 32 p else x04 :: be 64 p.
Definition ex_parse (k : bytes) : option N :=
  match k with
  | [] => None
  | h :: t =>
    if ((length t =? 32)%nat && byte_eqb h x02 || (length t =? 64)%nat && (byte_eqb h x04 || byte_eqb h x06))
       && negb (be_val t =? 0) && (be_val t <? secp_order) then Some (be_val t) else None
  end.
Lemma ex_encodings : encodings ex_parse ex_ser.
Proof.
  assert (B : forall n p, (n = 32 \/ n = 64)%nat -> is_point p -> be_val (be n p) = p).
  { intros n p N [_ P]. rewrite be_val_be. apply N.mod_small. eapply N.lt_trans; [exact P |]. destruct N as [-> | ->]; reflexivity. }
  assert (G : forall p, is_point p -> negb (p =? 0) && (p <? secp_order) = true).
  { intros p [P Q]. rewrite Bool.andb_true_iff, Bool.negb_true_iff, N.eqb_neq, N.ltb_lt. split; [| exact Q]. intros ->. discriminate P. }
  split; [| split; [| split]].
  - intros c p P. destruct c; unfold ex_ser, ex_parse; rewrite be_length, B by tauto; cbn [Nat.eqb byte_eqb andb orb];
      rewrite <- Bool.andb_assoc, (G p P); reflexivity.
  - intros p _. unfold ex_ser. cbn [length]. rewrite !be_length. split; reflexivity.
  - intros k p H. destruct k as [|h t]; [discriminate |]. unfold ex_parse in H.
    destruct (_ && _ && _) eqn:E; [| discriminate]. assert (EP : be_val t = p) by congruence. subst p.
    rewrite !Bool.andb_true_iff, Bool.negb_true_iff, N.eqb_neq, N.ltb_lt in E. destruct E as [[E E1] E2].
    split; [split; [apply N.neq_0_lt_0; exact E1 | exact E2] |]. cbn [length].
    destruct (length t =? 32)%nat eqn:L; [apply Nat.eqb_eq in L; left; congruence |].
    destruct (length t =? 64)%nat eqn:L2; [apply Nat.eqb_eq in L2; right; congruence | discriminate E].
  - intros k p H L. destruct k as [|h t]; [discriminate |]. cbn [length] in L. assert (T : length t = 32%nat) by congruence.
    unfold ex_parse in H. rewrite T in H. cbn [Nat.eqb andb orb] in H.
    destruct (byte_eqb h x02) eqn:E; [| discriminate]. apply byte_eqb_eq in E. subst h. cbn [andb orb] in H.
    destruct (_ && _) eqn:E; [| discriminate]. assert (EP : be_val t = p) by congruence. subst p.
    unfold ex_ser. f_equal. rewrite <- T at 1. symmetry. apply be_be_val.
Qed.
Definition ex_hybrid : bytes := x06 :: be 64 5.
Lemma ex_hybrid_ok : ex_parse ex_hybrid = Some 5 /\ length ex_hybrid = 65%nat /\ ex_hybrid <> ex_ser false 5.
Proof. split; [reflexivity | split; [reflexivity | discriminate]]. Qed.
Definition ex_secret : bytes := be 32 5.
Lemma ex_secret_ok : is_secret ex_secret.
Proof. split; [reflexivity | split; reflexivity]. Qed.
Definition ex_secret2 : bytes := be 32 7.
Lemma ex_secret2_ok : is_secret ex_secret2.
Proof. split; [reflexivity | split; reflexivity]. Qed.
Definition ex_point : is_point 5.
Proof. split; reflexivity. Qed.
(* the only start for which the sum with the 32 bytes of one is zero *)
Definition ex_last : bytes := be 32 (secp_order - be_val (le 32 1)).
Lemma ex_last_ok : is_secret ex_last /\ sum_of ex_last (le 32 1) = 0.
Proof. split; [split; [reflexivity | split; reflexivity] | vm_compute; reflexivity]. Qed.
(* an ECDSA that accepts one signature *)
Definition ex_ecdsa (p : N) (d : bytes) (rs : N * N) : bool := (fst rs =? 3) && (snd rs =? 4).
Definition ex_der (s : bytes) : option (N * N) :=
  match s with [x01] => Some (3, 4) | [x02] => Some (3, secp_order - 4) | _ => None end.

Lemma plus_wrong : exists a b, is_secret a /\ is_secret b /\ sum_of a b <> 0 /\
  forall strict, be_val (secret_plus strict a b) <> sum_of a b.
Proof.
  exists ex_secret, ex_secret2. split; [exact ex_secret_ok | split; [exact ex_secret2_ok | split]].
  - vm_compute. discriminate.
  - intros strict. destruct strict; vm_compute; discriminate.
Qed.
Lemma times_wrong : exists a b, is_secret a /\ is_secret b /\
  forall strict, be_val (secret_times strict a b) <> product_of a b.
Proof.
  exists ex_secret, ex_secret2. split; [exact ex_secret_ok | split; [exact ex_secret2_ok |]].
  intros strict. destruct strict; vm_compute; discriminate.
Qed.
(* whatever the encoding, adding keys is not adding their secrets, unless the first is zero *)
Lemma public_plus_wrong parse ser c d s t : encodings parse ser -> is_secret s -> is_secret t -> sum_of s t <> 0 ->
  pubkey_plus parse ser (public_of ser c s) (public_of ser d t) <> Some (public_of ser c (be 32 (sum_of s t))).
Proof.
  intros Enc A T Z H. rewrite (plus_public parse ser Enc c d s t A T) in H.
  assert (P : is_point (sum_of s t)) by (split; [apply N.neq_0_lt_0; exact Z | apply N.mod_lt; discriminate]).
  destruct (be_point _ P) as [E _]. destruct A as [_ A], T as [_ T].
  assert (X : be_val t = sum_of s t).
  { apply (ser_inj parse ser Enc c); [exact T | exact P |]. unfold public_of in H. rewrite E in H. congruence. }
  unfold sum_of in X. revert X A T. unfold is_point. generalize (be_val s) (be_val t). intros a b X [A1 A2] [T1 T2].
  destruct (N.lt_ge_cases (a + b) secp_order) as [L | L].
  - rewrite N.mod_small in X by exact L. lia.
  - assert (Y : (a + b) mod secp_order = a + b - secp_order).
    { symmetry. apply (N.mod_unique (a + b) secp_order 1); revert L A2 T2; generalize secp_order; intros; lia. }
    rewrite Y in X. revert L A2 T2 X. generalize secp_order. intros. lia.
Qed.
