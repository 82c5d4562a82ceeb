(* Properties of encodings of signatures *)
From Verif Require Import Base TextModel RedeemModel RedeemSpec NumModel DerModel DerSpec DerProofs DerStrict DerExamples.
Local Open Scope N_scope.

(* ---- C119: the lax reader *)
(* it reads nothing outside of the signature *)
Theorem C119_defined : forall x, len x < 2 ^ 63 -> exists r, lax_parse x = Ret r.
Proof. exact lax_defined. Qed.
Print Assumptions C119_defined.
(* it takes exactly what begins with a sequence of two integers, in whatever form their lengths are *)
Theorem C119_exact : forall x y, len x < 2 ^ 63 -> lax_parse x = Ret (Some y) <-> exists R T, holds_integers x R T /\ y = signature_of R T.
Proof. exact lax_exact. Qed.
Print Assumptions C119_exact.
Theorem C119_refuses : forall x, len x < 2 ^ 63 -> lax_parse x = Ret None <-> ~ exists R T, holds_integers x R T.
Proof. exact lax_refuses. Qed.
Print Assumptions C119_refuses.
Theorem C119_determined : forall x R T R' T', holds_integers x R T -> holds_integers x R' T' -> R = R' /\ T = T'.
Proof. exact integers_determined. Qed.
Print Assumptions C119_determined.
(* it reads DER, whatever follows *)
Theorem C119_der : forall r s rest, r < secp_order -> s < secp_order -> len (der_signature r s ++ rest) < 2 ^ 63 -> lax_parse (der_signature r s ++ rest) = Ret (Some (r, s)).
Proof. exact lax_reads_der. Qed.
Print Assumptions C119_der.
Example C119_ex : lax_parse ex_long_form = Ret (Some (255, 1)) /\ lax_parse ex_order = Ret (Some (0, 0)) /\ lax_parse [x30; x06; x02; x05] = Ret None.
Proof. repeat split; vm_compute; reflexivity. Qed.
(* normalized: what the reader takes is not above half of the order *)
Theorem C119_normalized : forall x, x <> [] -> len x < 2 ^ 63 ->
  (yes (sig_normalized x) <-> exists R T, holds_integers x R T /\ snd (signature_of R T) <= secp_order / 2) /\
  (sig_normalized x = Ret true \/ sig_normalized x = Ret false).
Proof. exact normalized_exact. Qed.
Print Assumptions C119_normalized.
(* the empty sequence of bytes has no first byte *)
Theorem C119_empty_refuted : forall x, len x < 2 ^ 63 -> sig_normalized x = Undef <-> x = [].
Proof. exact normalized_undefined. Qed.
Print Assumptions C119_empty_refuted.
Theorem C119_normalized_der : forall r s, r < secp_order -> s < secp_order -> sig_normalized (der_signature r s) = Ret (s <=? secp_order / 2).
Proof. exact der_normalized. Qed.
Print Assumptions C119_normalized_der.
(* of two signatures with the same r and opposite s, exactly one is normalized *)
Theorem C119_one_of_two : forall r s, r < secp_order -> 0 < s -> s < secp_order ->
  (yes (sig_normalized (der_signature r s)) <-> no (sig_normalized (der_signature r (secp_order - s)))).
Proof. exact one_of_two. Qed.
Print Assumptions C119_one_of_two.
Example C119_normalized_ex : yes (sig_normalized (der_signature 5 7)) /\ no (sig_normalized (der_signature 5 (secp_order - 7))) /\ sig_normalized [] = Undef.
Proof. repeat split; vm_compute; reflexivity. Qed.
(* a number that is too big is taken for zero, and is normalized *)
Theorem C119_high_refuted : yes (sig_minimal ex_order) /\ yes (sig_normalized ex_order) /\ exists R T, ex_order = wrapped R T /\ secp_order / 2 < be_val T.
Proof. exact overflow_normal. Qed.
Print Assumptions C119_high_refuted.

(* ---- C120: strict encodings *)
Theorem C120_defined : forall x, len x < 2 ^ 63 -> (yes (sig_valid x) \/ no (sig_valid x)) /\ (yes (sig_minimal x) \/ no (sig_minimal x)).
Proof. exact (fun x H => conj (valid_defined x H) (minimal_defined x H)). Qed.
Print Assumptions C120_defined.
(* the tests happen in an order in which nothing is undefined *)
Theorem C120_checked : forall x, len x < 2 ^ 63 -> yes (sig_minimal x) -> yes (sig_normalized x) \/ no (sig_normalized x).
Proof. exact checked_in_order. Qed.
Print Assumptions C120_checked.
Theorem C120_valid : forall x, len x < 2 ^ 63 -> yes (sig_valid x) <->
  exists R T rest, x = [x30; n2b (len x - 2); x02; n2b (len R)] ++ R ++ [x02; n2b (len T)] ++ T ++ rest /\ len x <= 257.
Proof. exact valid_exact. Qed.
Print Assumptions C120_valid.
Theorem C120_minimal : forall x, len x < 2 ^ 63 -> yes (sig_minimal x) <-> exists R T, x = wrapped R T /\ len x <= 257 /\ tight R /\ tight T.
Proof. exact minimal_exact. Qed.
Print Assumptions C120_minimal.
(* BIP 66 is DER of numbers that are not negative, in 72 bytes *)
Theorem C120_bip66 : forall x, bip66 x <-> exists r s, x = der_signature r s /\ len x <= 72.
Proof. exact bip66_exact. Qed.
Print Assumptions C120_bip66.
Theorem C120_der : forall r s, r < 2 ^ 256 -> s < 2 ^ 256 ->
  len (der_signature r s) <= 72 /\ (yes (sig_minimal (der_signature r s)) <-> r <> 0 /\ s <> 0).
Proof. exact (fun r s A B => conj (der_size r s A B) (der_minimal r s A B)). Qed.
Print Assumptions C120_der.
Theorem C120_unique : forall r s r' s', r < 2 ^ 256 -> s < 2 ^ 256 -> r' < 2 ^ 256 -> s' < 2 ^ 256 -> der_signature r s = der_signature r' s' -> r = r' /\ s = s'.
Proof. exact der_inj. Qed.
Print Assumptions C120_unique.
(* what is minimal and satisfies BIP 66 is DER of a pair of positive numbers *)
Theorem C120_both : forall x, yes (sig_minimal x) -> bip66 x -> exists r s, x = der_signature r s /\ 0 < r /\ 0 < s.
Proof. exact positive_unique. Qed.
Print Assumptions C120_both.
(* up to 129 bytes the lax reader reads the same integers *)
Theorem C120_same : forall x, yes (sig_minimal x) -> len x <= 129 -> exists R T, x = wrapped R T /\ tight R /\ tight T /\ lax_parse x = Ret (Some (signature_of R T)).
Proof. exact accepted_reads. Qed.
Print Assumptions C120_same.
Example C120_ex : ex_padded = der_signature 255 1 /\ yes (sig_minimal ex_padded) /\ bip66 ex_padded /\ no (sig_minimal (ex_padded ++ [x00])) /\ no (sig_valid [x30; x04; x02; xff; x02; x00]).
Proof. split; [reflexivity|]. split; [reflexivity|]. split; [exact (proj1 (proj2 (proj2 (proj2 (proj2 (proj2 (proj2 (proj2 malleable))))))))|]. split; reflexivity. Qed.
(* minimal is neither BIP 66 nor does it exclude a second encoding of a signature *)
Theorem C120_minimal_refuted : ex_padded <> ex_negative /\ yes (sig_minimal ex_padded) /\ yes (sig_minimal ex_negative) /\ yes (sig_normalized ex_padded) /\ yes (sig_normalized ex_negative) /\
  lax_parse ex_padded = Ret (Some (255, 1)) /\ lax_parse ex_negative = Ret (Some (255, 1)) /\ bip66 ex_padded /\ ~ bip66 ex_negative.
Proof. exact malleable. Qed.
Print Assumptions C120_minimal_refuted.
Theorem C120_bip66_refuted : bip66 ex_zero /\ no (sig_minimal ex_zero) /\ lax_parse ex_zero = Ret (Some (0, 1)).
Proof. exact zero_refused. Qed.
Print Assumptions C120_bip66_refuted.
Theorem C120_same_refuted : yes (sig_minimal ex_big) /\ lax_parse ex_big = Ret None /\ no (sig_normalized ex_big).
Proof. exact big_differs. Qed.
Print Assumptions C120_same_refuted.
(* signatures as they are made pass every test *)
Theorem C120_produced : forall r s, 0 < r -> r < secp_order -> 0 < s -> s <= secp_order / 2 ->
  yes (sig_minimal (der_signature r s)) /\ yes (sig_normalized (der_signature r s)) /\ bip66 (der_signature r s) /\ len (der_signature r s) <= 72 /\
  lax_parse (der_signature r s) = Ret (Some (r, s)).
Proof. exact produced. Qed.
Print Assumptions C120_produced.
(* so that redeeming needs no more of them than that they verify *)
Theorem C120_signs : forall w s, (forall x, w_minimal w x = true <-> yes (sig_minimal x)) -> (forall x, w_normalized w x = true <-> yes (sig_normalized x)) ->
  (forall k h, len h = 32 -> w_parse w k = Some (be_val s) -> exists r t, w_sign w s h = der_signature r t /\ 0 < r /\ r < secp_order /\ 0 < t /\ t <= secp_order / 2 /\
    verifies w k h (w_sign w s h)) -> signs w s.
Proof. exact signs_concrete. Qed.
Print Assumptions C120_signs.
Example C120_signs_ex : signs (ex_world (fun _ _ rs => fst rs =? 7)) [x05].
Proof. exact ex_world_signs. Qed.

(* ---- C121: points *)
Theorem C121_size : forall u, uint_serialized_size u = if le_val u =? 0 then 1 else N.size (le_val u) / 8 + 2.
Proof. exact uint_size_exact. Qed.
Print Assumptions C121_size.
Theorem C121_written : forall r s, r < 2 ^ 256 -> s < 2 ^ 256 -> point_write r s = [x30; n2b (point_part r + point_part s + 4)] ++ le 32 r ++ le 32 s.
Proof. exact point_written. Qed.
Print Assumptions C121_written.
Theorem C121_read : forall r s rest, r < 2 ^ 256 -> s < 2 ^ 256 -> point_read (point_write r s ++ rest) =
  let size := point_part r + point_part s + 4 in
  if (size <? 64) || (64 + len rest <? size) then None else Some ((r, s), skipn (N.to_nat (size - 64)) rest).
Proof. exact point_read_exact. Qed.
Print Assumptions C121_read.
Theorem C121_round_trip : forall r s, r < 2 ^ 256 -> s < 2 ^ 256 -> point_read (point_write r s) = Some ((r, s), []) <-> point_part r + point_part s = 60.
Proof. exact point_round_trip. Qed.
Print Assumptions C121_round_trip.
(* the usual ones are not read again *)
Theorem C121_round_trip_refuted : forall r s, 2 ^ 248 <= r -> r < 2 ^ 256 -> 2 ^ 248 <= s -> s < 2 ^ 256 -> point_read (point_write r s) = None.
Proof. exact point_usual. Qed.
Print Assumptions C121_round_trip_refuted.
(* a signature made of a point ends with four zeros after its directive *)
Theorem C121_directive_refuted : forall r s d, r < 2 ^ 256 -> s < 2 ^ 256 -> signature_of_point r s d = Some (point_write r s ++ [d] ++ repeat x00 4).
Proof. exact signature_of_point_exact. Qed.
Print Assumptions C121_directive_refuted.
Example C121_ex : point_read (point_write (2 ^ 228) (2 ^ 229)) = Some ((2 ^ 228, 2 ^ 229), []) /\ point_read (point_write 1 1) = None /\
  point_read (point_write (2 ^ 255) (2 ^ 255) ++ repeat xaa 9) = Some ((2 ^ 255, 2 ^ 255), [xaa]).
Proof. exact ex_point. Qed.
