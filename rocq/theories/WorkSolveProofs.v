(* Work strings, work proofs and the solver. *)
From Verif Require Import Base BaseProofs WireModel WireSpec WireProofs MerkleModel MerkleSpec MerkleProofs WorkModel WorkSpec WorkBoostProofs.
From Coq Require Import ZifyBool ZifyNat ZifyN.
Ltac Zify.zify_post_hook ::= Z.div_mod_to_equations.
Local Open Scope N_scope.

(* ---- the solver: the next attempt ---- *)
Lemma bump_last f l : bump_extra2 (f ++ [l]) = if b2n l =? 255 then Throw tt else Ret (f ++ [n2b (b2n l + 1)]).
Proof.
  unfold bump_extra2. rewrite rev_app_distr. cbn [rev app]. destruct (b2n l =? 255); [reflexivity|]. rewrite rev_involutive. reflexivity.
Qed.
Lemma next_of_attempt p x1 t bits f c : c < 2 ^ 40 ->
  next_attempt (attempt p x1 t bits f c) = if c + 1 <? 2 ^ 40 then Ret (attempt p x1 t bits f (c + 1)) else Throw tt.
Proof.
  intros C. unfold next_attempt, attempt, with_share. cbn [wp_puzzle wp_solution so_share so_extra1 sh_nonce sh_timestamp sh_extra2 sh_bits].
  change (2 ^ 40) with 1099511627776 in *. change (2 ^ 32) with 4294967296 in *. unfold w32. rewrite bump_last, b2n_n2b.
  assert (Q : (c / 4294967296) mod 256 = c / 4294967296) by lia. rewrite Q.
  destruct (N.eqb_spec ((c mod 4294967296 + 1) mod 4294967296) 0) as [Z|Z].
  - assert (M : c mod 4294967296 = 4294967295) by lia.
    destruct (N.eqb_spec (c / 4294967296) 255) as [L|L].
    + assert (N.ltb (c + 1) 1099511627776 = false) as -> by (apply N.ltb_ge; lia). reflexivity.
    + assert (N.ltb (c + 1) 1099511627776 = true) as -> by (apply N.ltb_lt; lia).
      replace ((c + 1) mod 4294967296) with ((c mod 4294967296 + 1) mod 4294967296) by lia.
      replace ((c + 1) / 4294967296) with (c / 4294967296 + 1) by lia. reflexivity.
  - assert (N.ltb (c + 1) 1099511627776 = true) as -> by (apply N.ltb_lt; lia).
    replace ((c + 1) mod 4294967296) with ((c mod 4294967296 + 1) mod 4294967296) by lia.
    replace ((c + 1) / 4294967296) with (c / 4294967296) by lia. reflexivity.
Qed.
Lemma initial_attempt p x1 t nonce f l bits : nonce < 2 ^ 32 ->
  {| wp_puzzle := p; wp_solution := {| so_share := {| sh_timestamp := t; sh_nonce := nonce; sh_extra2 := f ++ [l]; sh_bits := bits |}; so_extra1 := x1 |} |}
  = attempt p x1 t bits f (counter_of l nonce).
Proof.
  intros B. unfold attempt, counter_of. change (2 ^ 32) with 4294967296 in *. pose proof (b2n_lt l).
  replace ((b2n l * 4294967296 + nonce) mod 4294967296) with nonce by lia.
  replace ((b2n l * 4294967296 + nonce) / 4294967296) with (b2n l) by lia.
  replace (n2b (b2n l)) with l; [reflexivity|]. apply b2n_inj. rewrite b2n_n2b. apply eq_sym, N.mod_small. assumption.
Qed.

Section Work.
Variable H : bytes -> bytes.

Lemma work_exact p : wproof_valid H p = true <-> le_val (H (work_bytes H p)) < expand (ca_target (pz_candidate (wp_puzzle p))).
Proof. unfold wproof_valid, string_valid. rewrite N.ltb_lt. reflexivity. Qed.

Lemma slice_exact x : length x = 80%nat ->
  string_valid H (header_of_slice x) = string_valid_slice H x /\ header_valid H (header_of_slice x) = header_valid_slice H x.
Proof.
  intros L. destruct (header_slice_total x L) as [_ E]. unfold string_valid, string_hash, header_valid, header_valid_slice. rewrite E.
  split; [reflexivity|apply andb_comm].
Qed.

Lemma header_valid_exact h : header_wf h -> header_valid H h = true <->
  le_val (H (header_write h)) < expand (h_target h) /\ (1 <= h_version h)%Z /\ h_merkle_root h <> zero_digest /\ h_timestamp h <> 0.
Proof.
  intros W. unfold header_valid, string_valid_slice, header_fields_valid, digest_valid. rewrite header_of_slice_write by exact W.
  rewrite !andb_true_iff, N.ltb_lt, Z.leb_le, !negb_true_iff, N.eqb_neq.
  assert (E : bytes_eqb (h_merkle_root h) zero_digest = false <-> h_merkle_root h <> zero_digest).
  { destruct (bytes_eqb (h_merkle_root h) zero_digest) eqn:X; [apply bytes_eqb_eq in X; split; [discriminate|contradiction]|].
    split; [|reflexivity]. intros _ Y. apply bytes_eqb_eq in Y. congruence. }
  rewrite E. tauto.
Qed.

(* the header of a work proof *)
Lemma work_header_wf p : (forall m, length (H m) = 32%nat) -> puzzle_wf (wp_puzzle p) -> share_wf (so_share (wp_solution p)) -> header_wf (wproof_string H p).
Proof.
  intros H32 (P1 & P2 & P3 & P4) (S1 & S2 & S3). unfold header_wf, wproof_string. cbn [h_version h_previous h_merkle_root h_timestamp h_target h_nonce].
  split; [|split; [exact P2|split; [|split; [exact S1|split; [exact P3|exact S2]]]]].
  - apply i32_lor; [apply i32_land; assumption|]. unfold share_bits. destruct (sh_bits _); [apply i32_land; [exact S3|apply i32_lnot; exact P4]|]. unfold i32. lia.
  - unfold wproof_root, derive_root, root_leaf. set (l := mkleaf _ _). assert (X : length (l_digest l) = 32%nat) by apply H32. clearbody l. revert l X.
    generalize (p_digests (ca_path (pz_candidate (wp_puzzle p)))). induction d as [|m r IH]; intros l X; [exact X|]. cbn [climb]. apply IH.
    unfold leaf_next. cbn [l_digest]. destruct (N.odd (l_index l)); apply H32.
Qed.

(* two solutions with the same work string *)
Lemma same_string p s s' : (forall m, length (H m) = 32%nat) ->
  so_extra1 s < 2 ^ 32 -> so_extra1 s' < 2 ^ 32 -> Forall sized_opt (p_digests (ca_path (pz_candidate p))) ->
  let a := {| wp_puzzle := p; wp_solution := s |} in let b := {| wp_puzzle := p; wp_solution := s' |} in
  wproof_string H a = wproof_string H b ->
  sh_timestamp (so_share s) = sh_timestamp (so_share s') /\ sh_nonce (so_share s) = sh_nonce (so_share s') /\
  share_bits (so_share s) (Z.lnot (pz_mask p)) = share_bits (so_share s') (Z.lnot (pz_mask p)) /\
  ((so_extra1 s = so_extra1 s' /\ sh_extra2 (so_share s) = sh_extra2 (so_share s')) \/
   let i := p_index (ca_path (pz_candidate p)) in let ds := p_digests (ca_path (pz_candidate p)) in
   collision H (meta a :: branch_preimages H (mkleaf (H (meta a)) i) ds) (meta b :: branch_preimages H (mkleaf (H (meta b)) i) ds)).
Proof.
  intros H32 X1 X2 F a b E. cbv zeta.
  split; [exact (f_equal h_timestamp E)|]. split; [exact (f_equal h_nonce E)|]. split.
  { pose proof (f_equal h_version E) as V. unfold wproof_string in V. cbn [h_version a b wp_puzzle wp_solution] in V.
    apply (f_equal (fun z => Z.land z (Z.lnot (pz_mask p)))) in V.
    assert (G : forall sh, Z.land (Z.lor (Z.land (ca_category (pz_candidate p)) (pz_mask p)) (share_bits sh (Z.lnot (pz_mask p)))) (Z.lnot (pz_mask p)) = share_bits sh (Z.lnot (pz_mask p))).
    { intros sh. unfold share_bits. destruct (sh_bits sh) as [x|]; [apply mask_free|]. rewrite <- (Z.land_0_l (Z.lnot (pz_mask p))). apply mask_free. }
    rewrite !G in V. exact V. }
  pose proof (f_equal h_merkle_root E) as R. unfold wproof_string in R. cbn [h_merkle_root] in R. unfold wproof_root, derive_root in R. cbn [a b wp_puzzle] in R.
  destruct (branch_sound_siblings H H32 _ _ (mkleaf (H (meta a)) (p_index (ca_path (pz_candidate p)))) (mkleaf (H (meta b)) (p_index (ca_path (pz_candidate p)))) eq_refl eq_refl
    (H32 _) (H32 _) F F R) as [[D _]|C].
  - cbn [l_digest] in D. destruct (list_eq_dec Byte.byte_eq_dec (meta a) (meta b)) as [M|M].
    + left. unfold meta in M. cbn [a b wp_puzzle wp_solution] in M. apply app_inv_head in M. rewrite !app_assoc in M. apply app_inv_tail in M.
      apply app_inj_len in M; [|unfold be; rewrite !rev_length, !le_length; reflexivity]. destruct M as [M1 M2]. split; [|exact M2].
      unfold be in M1. apply (f_equal (@rev byte)) in M1. rewrite !rev_involutive in M1. apply (le_inj 4); assumption.
    + right. exists (meta a), (meta b). split; [left; reflexivity|]. split; [left; reflexivity|]. split; assumption.
  - right. destruct C as (x & y & Ix & Iy & N & Q). exists x, y. split; [right; exact Ix|]. split; [right; exact Iy|]. split; assumption.
Qed.

(* reconstruction from a work string *)
Lemma of_string_exact w mp h n1 n2 b :
  let p := wproof_of_string H w mp h n1 n2 b in
  (h_merkle_root w = H (h ++ be 4 n1 ++ n2 ++ b) -> wproof_string H p = w /\ meta p = h ++ be 4 n1 ++ n2 ++ b) /\
  (h_merkle_root w <> H (h ++ be 4 n1 ++ n2 ++ b) -> p = empty_wproof).
Proof.
  cbv zeta. unfold wproof_of_string. set (p := Build_wproof _ _).
  assert (R : wproof_root H p = H (h ++ be 4 n1 ++ n2 ++ b)) by reflexivity. rewrite R. split; intros E.
  - rewrite E at 1. assert (X : forall d, bytes_eqb d d = true) by (intros d; apply bytes_eqb_eq; reflexivity). rewrite E. rewrite X.
    split; [|reflexivity]. unfold wproof_string. rewrite R, <- E. cbn. rewrite Z.land_m1_r, Z.lor_0_r. destruct w; reflexivity.
  - destruct (bytes_eqb (h_merkle_root w) (H (h ++ be 4 n1 ++ n2 ++ b))) eqn:X; [apply bytes_eqb_eq in X; contradiction|reflexivity].
Qed.

Lemma empty_invalid : wproof_valid H empty_wproof = false.
Proof. unfold wproof_valid, string_valid. apply N.ltb_ge. change (expand (h_target (wproof_string H empty_wproof))) with 0. apply N.le_0_l. Qed.

Lemma zero_target_invalid p : expand (ca_target (pz_candidate (wp_puzzle p))) = 0 -> wproof_valid H p = false.
Proof. intros E. unfold wproof_valid, string_valid. apply N.ltb_ge. change (h_target (wproof_string H p)) with (ca_target (pz_candidate (wp_puzzle p))). rewrite E. apply N.le_0_l. Qed.

(* ---- the solver ---- *)


Lemma solve_loop_first p x1 t bits f : forall (k : nat) c fuel, (k <= fuel)%nat -> c + N.of_nat k < 2 ^ 40 ->
  wproof_valid H (attempt p x1 t bits f (c + N.of_nat k)) = true ->
  (forall d, c <= d < c + N.of_nat k -> wproof_valid H (attempt p x1 t bits f d) = false) ->
  solve_loop H fuel (attempt p x1 t bits f c) = Done (Ret (attempt p x1 t bits f (c + N.of_nat k))).
Proof.
  induction k as [|k IH]; intros c fuel L B V W.
  - rewrite N.add_0_r in *. destruct fuel; cbn [solve_loop]; rewrite V; reflexivity.
  - destruct fuel as [|fuel]; [lia|]. cbn [solve_loop]. rewrite (W c) by lia. rewrite next_of_attempt by lia.
    assert (N.ltb (c + 1) (2 ^ 40) = true) as -> by (apply N.ltb_lt; lia).
    replace (c + N.of_nat (S k)) with (c + 1 + N.of_nat k) in * by lia. apply IH; [lia|lia|exact V|]. intros d D. apply W. lia.
Qed.
Lemma solve_loop_none p x1 t bits f : forall (k : nat) c fuel, (k < fuel)%nat -> c + N.of_nat k + 1 = 2 ^ 40 ->
  (forall d, c <= d < 2 ^ 40 -> wproof_valid H (attempt p x1 t bits f d) = false) ->
  solve_loop H fuel (attempt p x1 t bits f c) = Done (Throw tt).
Proof.
  induction k as [|k IH]; intros c fuel L B W; (destruct fuel as [|fuel]; [lia|]); cbn [solve_loop]; rewrite (W c) by lia; rewrite next_of_attempt by lia.
  - assert (N.ltb (c + 1) (2 ^ 40) = false) as -> by (apply N.ltb_ge; lia). reflexivity.
  - assert (N.ltb (c + 1) (2 ^ 40) = true) as -> by (apply N.ltb_lt; lia). apply IH; [lia|lia|]. intros d D. apply W. lia.
Qed.


Lemma solve_finds p x1 t nonce f l bits k : nonce < 2 ^ 32 -> expand (ca_target (pz_candidate p)) <> 0 ->
  let c := counter_of l nonce in
  c + k < 2 ^ 40 -> wproof_valid H (attempt p x1 t bits f (c + k)) = true ->
  (forall d, c <= d < c + k -> wproof_valid H (attempt p x1 t bits f d) = false) ->
  forall fuel, (N.to_nat k <= fuel)%nat ->
  cpu_solve H fuel p {| so_share := {| sh_timestamp := t; sh_nonce := nonce; sh_extra2 := f ++ [l]; sh_bits := bits |}; so_extra1 := x1 |}
  = Done (Ret (attempt p x1 t bits f (c + k))).
Proof.
  intros B T c K V W fuel F. unfold cpu_solve. apply N.eqb_neq in T. rewrite T. rewrite initial_attempt by exact B. fold c.
  rewrite <- (N2Nat.id k) in *. apply solve_loop_first; auto. lia.
Qed.
Lemma solve_exhausted p x1 t nonce f l bits : nonce < 2 ^ 32 -> expand (ca_target (pz_candidate p)) <> 0 ->
  let c := counter_of l nonce in
  (forall d, c <= d < 2 ^ 40 -> wproof_valid H (attempt p x1 t bits f d) = false) ->
  exists n, forall fuel, (n <= fuel)%nat ->
  cpu_solve H fuel p {| so_share := {| sh_timestamp := t; sh_nonce := nonce; sh_extra2 := f ++ [l]; sh_bits := bits |}; so_extra1 := x1 |} = Done (Throw tt).
Proof.
  intros B T c W.
  assert (C : c < 2 ^ 40) by (unfold c, counter_of; pose proof (b2n_lt l); change (2 ^ 32) with 4294967296 in *; change (2 ^ 40) with 1099511627776; lia).
  exists (N.to_nat (2 ^ 40 - c)). intros fuel F. unfold cpu_solve. apply N.eqb_neq in T. rewrite T. rewrite initial_attempt by exact B. fold c.
  apply (solve_loop_none p x1 t bits f (N.to_nat (2 ^ 40 - c - 1))); [lia|lia|exact W].
Qed.

Lemma solve_loop_sound fuel : forall p q, solve_loop H fuel p = Done (Ret q) ->
  wproof_valid H q = true /\ wp_puzzle q = wp_puzzle p /\ so_extra1 (wp_solution q) = so_extra1 (wp_solution p) /\
  sh_timestamp (so_share (wp_solution q)) = sh_timestamp (so_share (wp_solution p)) /\
  sh_bits (so_share (wp_solution q)) = sh_bits (so_share (wp_solution p)) /\
  removelast (sh_extra2 (so_share (wp_solution q))) = removelast (sh_extra2 (so_share (wp_solution p))) /\
  length (sh_extra2 (so_share (wp_solution q))) = length (sh_extra2 (so_share (wp_solution p))).
Proof.
  induction fuel as [|fuel IH]; intros p q; cbn [solve_loop]; destruct (wproof_valid H p) eqn:V.
  - intros E. assert (q = p) as -> by congruence. repeat split. exact V.
  - discriminate.
  - intros E. assert (q = p) as -> by congruence. repeat split. exact V.
  - destruct (next_attempt p) as [r| |] eqn:N; try discriminate. intros E. destruct (IH _ _ E) as (A1 & A2 & A3 & A4 & A5 & A6 & A7).
    assert (X : wp_puzzle r = wp_puzzle p /\ so_extra1 (wp_solution r) = so_extra1 (wp_solution p) /\
      sh_timestamp (so_share (wp_solution r)) = sh_timestamp (so_share (wp_solution p)) /\
      sh_bits (so_share (wp_solution r)) = sh_bits (so_share (wp_solution p)) /\
      removelast (sh_extra2 (so_share (wp_solution r))) = removelast (sh_extra2 (so_share (wp_solution p))) /\
      length (sh_extra2 (so_share (wp_solution r))) = length (sh_extra2 (so_share (wp_solution p)))).
    { clear - N. unfold next_attempt in N. destruct (w32 (sh_nonce (so_share (wp_solution p)) + 1) =? 0).
      - destruct (sh_extra2 (so_share (wp_solution p))) as [|z y] eqn:Ex; [discriminate N|].
        destruct (exists_last (l := z :: y)) as (f & l & El); [discriminate|]. rewrite El in *. rewrite bump_last in N.
        destruct (b2n l =? 255); [discriminate N|]. assert (r = with_share p {| sh_timestamp := sh_timestamp (so_share (wp_solution p)); sh_nonce := w32 (sh_nonce (so_share (wp_solution p)) + 1); sh_extra2 := f ++ [n2b (b2n l + 1)]; sh_bits := sh_bits (so_share (wp_solution p)) |}) as -> by congruence.
        cbn. rewrite !removelast_last, !app_length. repeat split.
      - assert (r = with_share p {| sh_timestamp := sh_timestamp (so_share (wp_solution p)); sh_nonce := w32 (sh_nonce (so_share (wp_solution p)) + 1); sh_extra2 := sh_extra2 (so_share (wp_solution p)); sh_bits := sh_bits (so_share (wp_solution p)) |}) as -> by congruence.
        repeat split. }
    destruct X as (X1 & X2 & X3 & X4 & X5 & X6). split; [exact A1|]. repeat (split; [congruence|]). congruence.
Qed.

Lemma solve_sound fuel p s q : cpu_solve H fuel p s = Done (Ret q) ->
  (expand (ca_target (pz_candidate p)) = 0 /\ q = empty_wproof) \/
  (wproof_valid H q = true /\ wp_puzzle q = p /\ so_extra1 (wp_solution q) = so_extra1 s /\
   sh_timestamp (so_share (wp_solution q)) = sh_timestamp (so_share s) /\ sh_bits (so_share (wp_solution q)) = sh_bits (so_share s) /\
   removelast (sh_extra2 (so_share (wp_solution q))) = removelast (sh_extra2 (so_share s)) /\
   length (sh_extra2 (so_share (wp_solution q))) = length (sh_extra2 (so_share s))).
Proof.
  unfold cpu_solve. destruct (N.eqb_spec (expand (ca_target (pz_candidate p))) 0) as [Z|Z]; intros E.
  - left. split; [exact Z|congruence].
  - right. exact (solve_loop_sound _ _ _ E).
Qed.

(* without a second extra nonce the first overflow of the nonce is undefined *)
Lemma solve_no_extra p x1 t bits : expand (ca_target (pz_candidate p)) <> 0 -> forall nonce, nonce < 2 ^ 32 ->
  let at_ n := {| wp_puzzle := p; wp_solution := {| so_share := {| sh_timestamp := t; sh_nonce := n; sh_extra2 := []; sh_bits := bits |}; so_extra1 := x1 |} |} in
  (forall n, nonce <= n < 2 ^ 32 -> wproof_valid H (at_ n) = false) ->
  exists k, forall fuel, (k <= fuel)%nat -> cpu_solve H fuel p (wp_solution (at_ nonce)) = Done Undef.
Proof.
  intros T nonce B at_ W. exists (N.to_nat (2 ^ 32 - nonce)). intros fuel F. unfold cpu_solve. apply N.eqb_neq in T. rewrite T.
  change {| wp_puzzle := p; wp_solution := wp_solution (at_ nonce) |} with (at_ nonce).
  assert (G : forall (k : nat) n fuel, (k < fuel)%nat -> n + N.of_nat k + 1 = 2 ^ 32 -> (forall m, n <= m < 2 ^ 32 -> wproof_valid H (at_ m) = false) ->
    solve_loop H fuel (at_ n) = Done Undef).
  { clear. induction k as [|k IH]; intros n fuel L E V; (destruct fuel as [|fuel]; [lia|]); cbn [solve_loop]; rewrite (V n) by lia.
    - replace (next_attempt (at_ n)) with (@Undef unit wproof); [reflexivity|]. unfold next_attempt, at_. cbn [wp_solution so_share sh_nonce].
      unfold w32. change (2 ^ 32) with 4294967296 in E. replace ((n + 1) mod 4294967296) with 0 by lia. reflexivity.
    - replace (next_attempt (at_ n)) with (@Ret unit _ (at_ (n + 1))); [apply IH; [lia|lia|]; intros m M; apply V; lia|].
      unfold next_attempt, at_, with_share. cbn [wp_puzzle wp_solution so_share so_extra1 sh_nonce sh_timestamp sh_extra2 sh_bits].
      unfold w32. change (2 ^ 32) with 4294967296 in E. replace ((n + 1) mod 4294967296) with (n + 1) by lia.
      destruct (N.eqb_spec (n + 1) 0); [lia|reflexivity]. }
  apply (G (N.to_nat (2 ^ 32 - nonce - 1))); [lia|lia|exact W].
Qed.
End Work.

Section Ends.
Variable H : bytes -> bytes.
(* the search ends whatever the hash function *)
Lemma solve_loop_ends p x1 t bits f : forall (k : nat) c, c + N.of_nat k + 1 = 2 ^ 40 ->
  exists r, forall fuel, (k < fuel)%nat -> solve_loop H fuel (attempt p x1 t bits f c) = Done r.
Proof.
  induction k as [|k IH]; intros c B.
  - destruct (wproof_valid H (attempt p x1 t bits f c)) eqn:V.
    + exists (Ret (attempt p x1 t bits f c)). intros [|fuel] L; cbn [solve_loop]; rewrite V; reflexivity.
    + exists (Throw tt). intros [|fuel] L; [lia|]. cbn [solve_loop]. rewrite V; clear V; rewrite next_of_attempt by (clear - B; lia).
      assert (N.ltb (c + 1) (2 ^ 40) = false) as -> by (apply N.ltb_ge; lia). reflexivity.
  - destruct (wproof_valid H (attempt p x1 t bits f c)) eqn:V.
    + exists (Ret (attempt p x1 t bits f c)). intros [|fuel] L; cbn [solve_loop]; rewrite V; reflexivity.
    + destruct (IH (c + 1)) as (r & R); [lia|]. exists r. intros [|fuel] L; [lia|]. cbn [solve_loop]. rewrite V; clear V; rewrite next_of_attempt by (clear - B; lia).
      assert (N.ltb (c + 1) (2 ^ 40) = true) as -> by (apply N.ltb_lt; lia). apply R. lia.
Qed.
Lemma solve_ends p x1 t nonce f l bits : nonce < 2 ^ 32 ->
  exists n r, r <> Undef /\ forall fuel, (n <= fuel)%nat ->
  cpu_solve H fuel p {| so_share := {| sh_timestamp := t; sh_nonce := nonce; sh_extra2 := f ++ [l]; sh_bits := bits |}; so_extra1 := x1 |} = Done r.
Proof.
  intros B. unfold cpu_solve. destruct (expand (ca_target (pz_candidate p)) =? 0).
  - exists 0%nat, (Ret empty_wproof). split; [discriminate|]. reflexivity.
  - assert (C : counter_of l nonce < 2 ^ 40) by (unfold counter_of; pose proof (b2n_lt l); change (2 ^ 32) with 4294967296 in *; change (2 ^ 40) with 1099511627776; lia).
    rewrite initial_attempt by exact B.
    destruct (solve_loop_ends p x1 t bits f (N.to_nat (2 ^ 40 - counter_of l nonce - 1)) (counter_of l nonce)) as (r & R); [lia|].
    exists (N.to_nat (2 ^ 40 - counter_of l nonce)), r. split; [|intros fuel L; apply R; lia].
    specialize (R _ (Nat.lt_succ_diag_r _)). intros ->. revert R.
    generalize (N.to_nat (2 ^ 40 - counter_of l nonce - 1)) as k. intros k. generalize (S k). clear k. intros k. revert C. generalize (counter_of l nonce) as c.
    induction k as [|k IH]; intros c C; cbn [solve_loop]; destruct (wproof_valid H _); try discriminate. rewrite next_of_attempt by exact C.
    destruct (N.ltb_spec (c + 1) (2 ^ 40)) as [L|L]; [|discriminate]. apply IH. exact L.
Qed.
End Ends.

(* reconstruction loses the path *)
Lemma string_back H p : p_digests (ca_path (pz_candidate (wp_puzzle p))) = [] ->
  let q := wproof_of_string H (wproof_string H p) (ca_path (pz_candidate (wp_puzzle p))) (pz_header (wp_puzzle p)) (so_extra1 (wp_solution p))
             (sh_extra2 (so_share (wp_solution p))) (pz_body (wp_puzzle p)) in
  wproof_string H q = wproof_string H p /\ meta q = meta p /\ wproof_valid H q = wproof_valid H p.
Proof.
  intros E. cbv zeta. destruct (of_string_exact H (wproof_string H p) (ca_path (pz_candidate (wp_puzzle p))) (pz_header (wp_puzzle p)) (so_extra1 (wp_solution p))
    (sh_extra2 (so_share (wp_solution p))) (pz_body (wp_puzzle p))) as [A _].
  destruct A as [A1 A2]. { unfold wproof_string. cbn [h_merkle_root]. unfold wproof_root, derive_root. rewrite E. reflexivity. }
  split; [exact A1|]. split; [exact A2|]. unfold wproof_valid. rewrite A1. reflexivity.
Qed.
Lemma string_lost H p : wproof_root H p <> H (meta p) ->
  wproof_of_string H (wproof_string H p) (ca_path (pz_candidate (wp_puzzle p))) (pz_header (wp_puzzle p)) (so_extra1 (wp_solution p))
    (sh_extra2 (so_share (wp_solution p))) (pz_body (wp_puzzle p)) = empty_wproof.
Proof. intros N. apply of_string_exact. exact N. Qed.

Lemma job_back p j s : proof_of_job (job_of_proof p) (so_share (wp_solution p)) = p /\ job_of_proof (proof_of_job j s) = j /\ so_share (wp_solution (proof_of_job j s)) = s.
Proof. destruct p as [pz [sh e]], j. repeat split. Qed.

(* the version field: the puzzle fixes the bits of the mask, the share the others *)
Lemma version_masked H p : let m := pz_mask (wp_puzzle p) in let s := so_share (wp_solution p) in
  let v := h_version (wproof_string H p) in
  Z.land v m = Z.land (ca_category (pz_candidate (wp_puzzle p))) m /\
  Z.land v (Z.lnot m) = match sh_bits s with Some b => Z.land b (Z.lnot m) | None => 0%Z end /\
  (m = (-1)%Z -> v = ca_category (pz_candidate (wp_puzzle p))).
Proof.
  cbv zeta. unfold wproof_string. cbn [h_version]. unfold share_bits. destruct (sh_bits _) as [b|].
  - split; [apply mask_fixed|]. split; [apply mask_free|]. intros ->. change (Z.lnot (-1)) with 0%Z. rewrite Z.land_0_r, Z.lor_0_r. apply Z.land_m1_r.
  - rewrite <- (Z.land_0_l (Z.lnot (pz_mask (wp_puzzle p)))). split; [apply mask_fixed|]. split; [apply mask_free|]. intros ->.
    rewrite Z.land_0_l, Z.lor_0_r. apply Z.land_m1_r.
Qed.
