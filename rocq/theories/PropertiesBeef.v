(* Properties of BEEF: C43, C82. *)
From Verif Require Import Base WireModel WireSpec MerkleModel MerkleSpec MerkleExamples BumpModel BumpSpec BumpFacts
  ScriptModel MachineModel SighashModel BeefModel BeefSpec BeefProofs BeefExamples.
Local Open Scope N_scope.

(* C43 *)
Theorem C43_round_trip : forall ins, ordered_insert ins -> forall b rest, beef_wf b -> beef_read ins (beef_write b ++ rest) = Some (b, rest).
Proof. exact beef_rt. Qed.
Print Assumptions C43_round_trip.
Theorem C43_bytes : forall ins, ordered_insert ins -> forall b, beef_wf b ->
  beef_bytes b = Some (beef_write b) /\ beef_of_bytes ins (beef_write b) = Some b.
Proof. exact beef_bytes_rt. Qed.
Print Assumptions C43_bytes.
Theorem C43_size : forall b, beef_wf b -> len (beef_write b) = beef_size b.
Proof. exact beef_len. Qed.
Print Assumptions C43_size.
(* what is read from any byte string; trailing bytes are ignored *)
Theorem C43_reader_exact : forall ins b u, beef_of_bytes ins b = Some u <-> exists c rest, b = c ++ rest /\ beef_form ins u c.
Proof. exact beef_reads_exact. Qed.
Print Assumptions C43_reader_exact.
(* so a BEEF has many encodings: the flag before a BUMP index may be any byte but zero *)
Theorem C43_one_encoding_refuted : forall ins t i, tx_wf t -> u64 i -> exists b c, b <> c /\
  beef_of_bytes ins b = beef_of_bytes ins c /\ beef_of_bytes ins b = Some (mkbeef beef_version_1 [] [mkbtx t (Some i)]).
Proof. exact flag_two. Qed.
Print Assumptions C43_one_encoding_refuted.
(* operator == does not look at the version *)
Theorem C43_equality_refuted : forall eqb, (forall x, eqb x x = true) -> forall v w b t, beef_eqb eqb (mkbeef v b t) (mkbeef w b t) = true.
Proof. exact version_not_compared. Qed.
Print Assumptions C43_equality_refuted.
Theorem C43_valid_exact : forall H b, beef_valid H b = Ret true <->
  0xEFBE0000 < bf_version b /\ bf_txs b <> [] /\ (forall t, In t (bf_txs b) -> tx_valid (bt_tx t) = Ret true) /\
  (forall x, In x (bf_bumps b) -> bump_valid x = true) /\ NoDup (ids H (bf_txs b)) /\ supported_by_earlier H (bf_txs b).
Proof. exact beef_valid_iff. Qed.
Print Assumptions C43_valid_exact.
Theorem C43_first_is_proven : forall H b t r, beef_valid H b = Ret true -> bf_txs b = t :: r -> exists i, bt_index t = Some i.
Proof. exact first_has_index. Qed.
Print Assumptions C43_first_is_proven.
Example C43_example : beef_wf ex_beef /\ beef_valid ex_hash32 ex_beef = Ret true /\ len (beef_write ex_beef) = 204.
Proof. split; [exact ex_beef_wf|]. split; vm_compute; reflexivity. Qed.

(* C82 *)
Theorem C82_validate_exact : forall ins H known b, beef_validate H ins known b = Ret true <-> beef_valid H b = Ret true /\
  ((forall x, In x (bf_bumps b) -> exists d, bump_root H ins x = Ret d /\ d <> zero_digest /\ known d = true) \/
   (exists before x after, bf_bumps b = before ++ x :: after /\ bump_root H ins x = Ret zero_digest /\
     forall y, In y before -> exists d, bump_root H ins y = Ret d /\ d <> zero_digest)).
Proof. exact validate_exact. Qed.
Print Assumptions C82_validate_exact.
(* with what validate leaves out, every transaction goes back to known blocks *)
Theorem C82_anchored : forall ins H, ordered_insert ins -> forall dup known b, dup_picks dup ->
  beef_validate H ins known b = Ret true -> placed H ins dup b ->
  forall t, In t (bf_txs b) -> anchored H known (map bt_tx (bf_txs b)) (bt_tx t).
Proof. exact placed_sound. Qed.
Print Assumptions C82_anchored.
Example C82_example : ordered_insert keep_both /\ beef_validate ex_hash32 keep_both ex_known ex_beef = Ret true /\
  beef_validate ex_hash32 keep_both (fun _ => false) ex_beef = Ret false /\ placed ex_hash32 keep_both None ex_beef.
Proof. exact (conj keep_both_ordered (conj (proj1 ex_beef_validates) (conj (proj2 ex_beef_validates) ex_beef_placed))). Qed.
(* any transaction at all is accepted by any database *)
Theorem C82_forged_refuted : forall H ins known t i, tx_valid t = Ret true ->
  beef_validate H ins known (mkbeef beef_version_1 [] [mkbtx t (Some i)]) = Ret true.
Proof. exact forged. Qed.
Print Assumptions C82_forged_refuted.
(* the indices are not looked at *)
Theorem C82_index_refuted : forall H ins known v b l f,
  beef_validate H ins known (mkbeef v b (map (reindex f) l)) = beef_validate H ins known (mkbeef v b l).
Proof. exact index_ignored. Qed.
Print Assumptions C82_index_refuted.
(* one BUMP without a root and no root is checked *)
Theorem C82_rootless_refuted : forall H ins known v before after t,
  (forall x, In x before -> exists d, bump_root H ins x = Ret d /\ d <> zero_digest) ->
  beef_valid H (mkbeef v (before ++ after) t) = Ret true ->
  exists x, bump_valid x = true /\ beef_validate H ins known (mkbeef v (before ++ x :: after) t) = Ret true.
Proof. exact rootless. Qed.
Print Assumptions C82_rootless_refuted.
