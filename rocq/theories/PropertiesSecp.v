(* Properties of keys, key sources and entropy: C48, C49, C77, C78. *)
From Verif Require Import Base WireModel MerkleModel TextModel TextSpec SecpModel SecpSpec SecpProofs SecpExamples.
Local Open Scope N_scope.

(* C48 *)
(* after the first key every key of an incrementing source is the same, whatever the start *)
Theorem C48_distinct_refuted : forall strict key, is_secret key -> sum_of key (le 32 1) <> 0 ->
  forall n, increment_key strict (S n) key = le 32 1.
Proof. exact increment_constant. Qed.
Print Assumptions C48_distinct_refuted.
Example C48_distinct_ex : is_secret ex_secret /\ sum_of ex_secret (le 32 1) <> 0 /\ increment_key true 3 ex_secret = increment_key true 4 ex_secret.
Proof. split; [exact ex_secret_ok | split; [vm_compute; discriminate | vm_compute; reflexivity]]. Qed.

Theorem C48_exact : forall strict key n, is_secret key ->
  increment_key strict 0 key = key /\
  increment_key strict (S n) key =
    if negb (sum_of key (le 32 1) =? 0) then le 32 1 else if strict || (n =? 0)%nat then repeat x00 32 else le 32 1.
Proof. exact (fun strict key n K => conj eq_refl (increment_exact strict key n K)). Qed.
Print Assumptions C48_exact.
Example C48_exact_ex : is_secret ex_last /\ sum_of ex_last (le 32 1) = 0 /\ increment_key true 1 ex_last = repeat x00 32.
Proof. split; [exact (proj1 ex_last_ok) | split; [exact (proj2 ex_last_ok) | vm_compute; reflexivity]]. Qed.

(* a source of random keys never gives one, whatever its entropy *)
Theorem C48_random_refuted : forall fuel network compressed draw i, random_next fuel network compressed draw i = More.
Proof. exact random_never. Qed.
Print Assumptions C48_random_refuted.
Example C48_random_ex : secp_secret_valid (le 32 5) = true /\ random_next 100 NetMain true (fun _ => le 32 5) 0 = More.
Proof. split; vm_compute; reflexivity. Qed.

(* C49 *)
(* what is read is always zero, and after the first reading that is not empty nothing can be read *)
Theorem C49_exact : forall sizes,
  (servable sizes -> entropy_reads entropy_new sizes = Ret (map (fun s => repeat x00 (N.to_nat s)) sizes)) /\
  (~ servable sizes -> entropy_reads entropy_new sizes = Undef).
Proof. exact reads_exact. Qed.
Print Assumptions C49_exact.
Example C49_exact_ex : servable [0; 0; 32] /\ entropy_reads entropy_new [16; 16] = Undef.
Proof. split; [right; exists 2%nat, 32; split; [reflexivity | discriminate] | vm_compute; reflexivity]. Qed.

(* C77: secrets *)
Theorem C77_plus_refuted : exists a b, is_secret a /\ is_secret b /\ sum_of a b <> 0 /\
  forall strict, be_val (secret_plus strict a b) <> sum_of a b.
Proof. exact plus_wrong. Qed.
Print Assumptions C77_plus_refuted.
Example C77_plus_refuted_ex : sum_of ex_secret ex_secret2 = 12.
Proof. vm_compute. reflexivity. Qed.
Theorem C77_times_refuted : exists a b, is_secret a /\ is_secret b /\
  forall strict, be_val (secret_times strict a b) <> product_of a b.
Proof. exact times_wrong. Qed.
Print Assumptions C77_times_refuted.
Example C77_times_refuted_ex : product_of ex_secret ex_secret2 = 35.
Proof. vm_compute. reflexivity. Qed.
Theorem C77_plus_exact : forall strict a b, is_secret a -> is_secret b ->
  secret_plus strict a b = le 32 (if sum_of a b =? 0 then 0 else 1).
Proof. exact plus_exact. Qed.
Print Assumptions C77_plus_exact.
Example C77_plus_exact_ex : is_secret ex_secret /\ is_secret ex_secret2 /\ secret_plus true ex_secret ex_secret2 = le 32 1.
Proof. split; [exact ex_secret_ok | split; [exact ex_secret2_ok | vm_compute; reflexivity]]. Qed.
Theorem C77_times_exact : forall strict a b, is_secret a -> is_secret b -> secret_times strict a b = le 32 1.
Proof. exact times_exact. Qed.
Print Assumptions C77_times_exact.
Example C77_times_exact_ex : secret_times true ex_secret ex_secret2 = le 32 1.
Proof. vm_compute. reflexivity. Qed.
Theorem C77_refused : forall strict a b,
  (secp_order <= be_val b -> secret_plus strict a b = repeat x00 32) /\
  (~ is_point (be_val b) -> secret_times strict a b = repeat x00 32).
Proof. exact (fun strict a b => conj (plus_refused strict a b) (times_refused strict a b)). Qed.
Print Assumptions C77_refused.
Example C77_refused_ex : secp_order <= be_val (repeat xff 32) /\ be_val (repeat x00 32) = 0.
Proof. split; [vm_compute; discriminate | reflexivity]. Qed.
(* opposites are right *)
Theorem C77_negate : forall strict a, is_secret a ->
  secret_negate strict a = be 32 (opposite_of a) /\ is_secret (secret_negate strict a) /\
  sum_of a (secret_negate strict a) = 0 /\ secret_negate strict (secret_negate strict a) = a.
Proof. exact (fun strict a A => conj (negate_exact strict a A) (conj (proj1 (negate_sum strict a A)) (conj (proj2 (negate_sum strict a A)) (negate_twice strict a A)))). Qed.
Print Assumptions C77_negate.
Example C77_negate_ex : opposite_of ex_secret = secp_order - 5.
Proof. vm_compute. reflexivity. Qed.

(* C77: public keys.  [encodings] is what is asked of the library *)
Theorem C77_public : forall parse ser c s, encodings parse ser ->
  (is_secret s -> secret_to_public ser c s = public_of ser c s /\ pubkey_valid parse (public_of ser c s) = true) /\
  (~ is_point (be_val s) -> secret_to_public ser c s = []).
Proof. exact (fun parse ser c s E => conj (fun A => conj (to_public ser c s A) (proj2 (pub_valid parse ser E _) (ex_intro _ _ (parse_ser parse ser E c _ (proj2 A))))) (to_public_refused ser c s)). Qed.
Print Assumptions C77_public.
Example C77_public_ex : encodings ex_parse ex_ser /\ is_secret ex_secret.
Proof. split; [exact ex_encodings | exact ex_secret_ok]. Qed.
Theorem C77_negate_public : forall parse ser strict c s, encodings parse ser -> is_secret s ->
  pubkey_negate parse ser (public_of ser c s) = Some (public_of ser c (secret_negate strict s)).
Proof. exact (fun parse ser strict c s E => negate_public parse ser E strict c s). Qed.
Print Assumptions C77_negate_public.
Example C77_negate_public_ex : pubkey_negate ex_parse ex_ser (public_of ex_ser true ex_secret) = Some (ex_ser true (secp_order - 5)).
Proof. vm_compute. reflexivity. Qed.
Theorem C77_tweak_public : forall parse ser c s t, encodings parse ser -> is_secret s -> be_val t < secp_order ->
  pubkey_tweak parse ser (public_of ser c s) t = Some (if sum_of s t =? 0 then [] else public_of ser c (be 32 (sum_of s t))).
Proof. exact (fun parse ser c s t E => tweak_public parse ser E c s t). Qed.
Print Assumptions C77_tweak_public.
Example C77_tweak_public_ex : pubkey_tweak ex_parse ex_ser (public_of ex_ser false ex_secret) ex_secret2 = Some (ex_ser false 12).
Proof. vm_compute. reflexivity. Qed.
Theorem C77_tweak_refused : forall parse ser k t, secp_order <= be_val t -> pubkey_tweak parse ser k t = Some [].
Proof. exact tweak_refused. Qed.
Print Assumptions C77_tweak_refused.
Example C77_tweak_refused_ex : secp_order <= be_val (repeat xff 32).
Proof. vm_compute. discriminate. Qed.
Theorem C77_times_public : forall parse ser c s t, encodings parse ser -> is_secret s -> is_secret t -> product_of s t <> 0 ->
  pubkey_times parse ser (public_of ser c s) t = Some (public_of ser c (be 32 (product_of s t))).
Proof. exact (fun parse ser c s t E => times_public parse ser E c s t). Qed.
Print Assumptions C77_times_public.
Example C77_times_public_ex : pubkey_times ex_parse ex_ser (public_of ex_ser false ex_secret) ex_secret2 = Some (ex_ser false 35).
Proof. vm_compute. reflexivity. Qed.
(* adding keys gives the second one in the size of the first, which is never the key of the sum *)
Theorem C77_plus_public_exact : forall parse ser c d s t, encodings parse ser -> is_secret s -> is_secret t ->
  pubkey_plus parse ser (public_of ser c s) (public_of ser d t) = Some (public_of ser c t).
Proof. exact (fun parse ser c d s t E => plus_public parse ser E c d s t). Qed.
Print Assumptions C77_plus_public_exact.
Example C77_plus_public_exact_ex : pubkey_plus ex_parse ex_ser (public_of ex_ser false ex_secret) (public_of ex_ser true ex_secret2) = Some (ex_ser false 7).
Proof. vm_compute. reflexivity. Qed.
Theorem C77_plus_public_refuted : forall parse ser c d s t, encodings parse ser -> is_secret s -> is_secret t -> sum_of s t <> 0 ->
  pubkey_plus parse ser (public_of ser c s) (public_of ser d t) <> Some (public_of ser c (be 32 (sum_of s t))).
Proof. exact public_plus_wrong. Qed.
Print Assumptions C77_plus_public_refuted.
Example C77_plus_public_refuted_ex : sum_of ex_secret ex_secret2 <> 0.
Proof. vm_compute. discriminate. Qed.
(* the first key is not looked at: it need not be one, and when its size is wrong the program is stopped *)
Theorem C77_plus_public_any : forall parse ser a b,
  pubkey_plus parse ser a b =
    match parse b with
    | None => Some []
    | Some q => if (length a =? 33)%nat then Some (ser true q) else if (length a <? 65)%nat then None
                else if (length a =? 65)%nat then Some (ser false q) else Some []
    end.
Proof. exact plus_pub_exact. Qed.
Print Assumptions C77_plus_public_any.
Example C77_plus_public_any_ex : pubkey_plus ex_parse ex_ser [] (ex_ser true 7) = None.
Proof. vm_compute. reflexivity. Qed.
Theorem C77_compress : forall parse ser k p, encodings parse ser -> parse k = Some p ->
  pubkey_compress parse ser k = ser true p /\
  pubkey_decompress parse ser k = (if (length k =? 65)%nat then k else ser false p).
Proof. exact (fun parse ser k p E H => conj (compress_exact parse ser E k p H) (decompress_exact parse ser k p H)). Qed.
Print Assumptions C77_compress.
Example C77_compress_ex : ex_parse ex_hybrid = Some 5 /\ pubkey_compress ex_parse ex_ser ex_hybrid = ex_ser true 5.
Proof. split; vm_compute; reflexivity. Qed.
Theorem C77_compress_inverse : forall parse ser c p, encodings parse ser -> is_point p ->
  pubkey_compress parse ser (pubkey_decompress parse ser (ser c p)) = ser true p /\
  pubkey_decompress parse ser (pubkey_compress parse ser (ser c p)) = ser false p.
Proof. exact (fun parse ser c p E => compress_decompress parse ser E p c). Qed.
Print Assumptions C77_compress_inverse.
Example C77_compress_inverse_ex : is_point 5.
Proof. exact ex_point. Qed.

(* C78 *)
Theorem C78_equal_exact : forall parse ser a b, encodings parse ser ->
  (pubkey_eqb parse ser a b = true <-> compared parse ser a = compared parse ser b).
Proof. exact (fun parse ser a b E => eqb_exact parse ser E a b). Qed.
Print Assumptions C78_equal_exact.
Example C78_equal_exact_ex : pubkey_eqb ex_parse ex_ser (ex_ser true 5) (ex_ser false 5) = true.
Proof. vm_compute. reflexivity. Qed.
Theorem C78_equal_points : forall parse ser a b p q, encodings parse ser -> parse a = Some p -> parse b = Some q ->
  pubkey_eqb parse ser a b = true -> p = q.
Proof. exact (fun parse ser a b p q E => eqb_same_point parse ser E a b p q). Qed.
Print Assumptions C78_equal_points.
Example C78_equal_points_ex : ex_parse (ex_ser true 5) = Some 5 /\ ex_parse (ex_ser false 5) = Some 5.
Proof. split; vm_compute; reflexivity. Qed.
Theorem C78_equal_plain : forall parse ser c d p q, encodings parse ser -> is_point p -> is_point q ->
  (pubkey_eqb parse ser (ser c p) (ser d q) = true <-> p = q).
Proof. exact (fun parse ser c d p q E => eqb_plain parse ser E c d p q). Qed.
Print Assumptions C78_equal_plain.
Example C78_equal_plain_ex : is_point 5 /\ pubkey_eqb ex_parse ex_ser (ex_ser true 5) (ex_ser false 7) = false.
Proof. split; [exact ex_point | vm_compute; reflexivity]. Qed.
(* a hybrid encoding is a valid key that is equal to neither of the other encodings of its point *)
Theorem C78_hybrid_refuted : forall parse ser h p, encodings parse ser ->
  parse h = Some p -> length h = 65%nat -> h <> ser false p ->
  pubkey_eqb parse ser h (ser true p) = false /\ pubkey_eqb parse ser h (ser false p) = false /\
  pubkey_compress parse ser h = ser true p.
Proof. exact (fun parse ser h p E => eqb_hybrid parse ser E h p). Qed.
Print Assumptions C78_hybrid_refuted.
Example C78_hybrid_ex : ex_parse ex_hybrid = Some 5 /\ length ex_hybrid = 65%nat /\ ex_hybrid <> ex_ser false 5.
Proof. exact ex_hybrid_ok. Qed.
(* both forms of a signature are verified alike *)
Theorem C78_malleable : forall parse der ecdsa k d x y r s, is_point s ->
  der x = Some (r, s) -> der y = Some (r, secp_order - s) ->
  pubkey_verify parse der ecdsa k d x = pubkey_verify parse der ecdsa k d y.
Proof. exact verify_malleable. Qed.
Print Assumptions C78_malleable.
Example C78_malleable_ex : pubkey_verify ex_parse ex_der ex_ecdsa (ex_ser true 5) [] [x01] = true /\
  pubkey_verify ex_parse ex_der ex_ecdsa (ex_ser true 5) [] [x02] = true.
Proof. split; vm_compute; reflexivity. Qed.
(* a key or a signature that cannot be read verifies nothing, given that ECDSA refuses zero *)
Theorem C78_verify_exact : forall parse der ecdsa k d x, (forall p, ecdsa p d (0, 0) = false) ->
  (pubkey_verify parse der ecdsa k d x = true <->
   exists p rs, parse k = Some p /\ der x = Some rs /\ ecdsa p d (normal rs) = true).
Proof. exact verify_exact. Qed.
Print Assumptions C78_verify_exact.
Example C78_verify_exact_ex : (forall p, ex_ecdsa p [] (0, 0) = false) /\ pubkey_verify ex_parse ex_der ex_ecdsa (ex_ser true 5) [] [x03] = false.
Proof. split; [intro p; reflexivity | vm_compute; reflexivity]. Qed.
