(* C31, C32, C33, C74: proof of work. *)
From Verif Require Import Base BaseProofs WireModel WireSpec WireProofs MerkleModel MerkleSpec MerkleExamples WorkModel WorkSpec WorkProofs WorkTargetProofs WorkBoostProofs WorkSolveProofs WorkExamples.
Local Open Scope N_scope.

(* C31: compact targets *)
Theorem C31_expand_exact : forall c, expand c = if negb (negative c) && (magnitude c <? 2 ^ 256) then magnitude c else 0.
Proof. exact expand_exact. Qed.
Print Assumptions C31_expand_exact.
Example C31_expand_exact_ok : expand ex_compact = 0xffff * 256 ^ 26 /\ expand 0x1d80ffff = 0 /\ expand 0x23000100 = 0 /\ expand 0x02123456 = 0x1234.
Proof. repeat split; vm_compute; reflexivity. Qed.
Theorem C31_encode_exact : forall junk n k, digit_count n k -> 4 <= k <= 32 -> expand (compact_of junk n) = truncated n (dropped n k).
Proof. exact compact_of_exact. Qed.
Print Assumptions C31_encode_exact.
Example C31_encode_exact_ok : digit_count ex_number 13 /\ expand (compact_of x00 ex_number) = 0xabcd * 256 ^ 11.
Proof. split; [split; vm_compute; [discriminate|reflexivity]|vm_compute; reflexivity]. Qed.
Theorem C31_never_larger : forall junk n, n < 2 ^ 256 -> expand (compact_of junk n) <= n.
Proof. exact compact_le. Qed.
Print Assumptions C31_never_larger.
Theorem C31_greatest : forall junk n c, 2 ^ 24 <= n < 2 ^ 256 -> expand c <= n -> expand c <= expand (compact_of junk n).
Proof. exact compact_greatest. Qed.
Print Assumptions C31_greatest.
Theorem C31_loss : forall junk n k, digit_count n k -> 4 <= k <= 32 -> n - expand (compact_of junk n) < 256 ^ (k - 2).
Proof. exact compact_loss. Qed.
Print Assumptions C31_loss.
Theorem C31_monotone : forall j1 j2 n m, n <= m -> m < 2 ^ 256 -> expand (compact_of j1 n) <= expand (compact_of j2 m).
Proof. exact compact_monotone. Qed.
Print Assumptions C31_monotone.
Theorem C31_again : forall junk c, 2 ^ 24 <= expand c -> expand (compact_of junk (expand c)) = expand c.
Proof. exact compact_again. Qed.
Print Assumptions C31_again.
Theorem C31_canonical : forall junk c, normal c -> compact_of junk (expand c) = c.
Proof. exact compact_canonical. Qed.
Print Assumptions C31_canonical.
Theorem C31_encoding_is_normal : forall junk n, 2 ^ 24 <= n < 2 ^ 256 -> normal (compact_of junk n).
Proof. exact compact_of_normal. Qed.
Print Assumptions C31_encoding_is_normal.
Example C31_encoding_is_normal_ok : 2 ^ 24 <= ex_number < 2 ^ 256 /\ expand (compact_of x00 ex_number) = expand 0x0e00abcd /\ normal ex_compact.
Proof. split; [split; vm_compute; [discriminate|reflexivity]|]. split; [vm_compute; reflexivity|]. split; [|split; [|split]]; vm_compute; congruence. Qed.
(* a target below 2^24 is not encoded: what comes out expands to 0, whatever the exponent that was not
   set happens to be *)
Theorem C31_small_lost_refuted : forall junk n, n < 2 ^ 24 -> expand (compact_of junk n) = 0.
Proof. exact compact_of_small. Qed.
Print Assumptions C31_small_lost_refuted.
Example C31_small_lost_refuted_ok : expand 0x03001234 = 0x1234 /\ expand (compact_of x03 (expand 0x03001234)) = 0.
Proof. split; vm_compute; reflexivity. Qed.
Theorem C31_max : forall c, expand c <= expand compact_max.
Proof. exact compact_max_greatest. Qed.
Print Assumptions C31_max.
Example C31_constants : expand compact_min = 1 /\ expand compact_max = 2 ^ 256 - 2 ^ 240 /\ expand success_half = 2 ^ 255 /\ expand success_quarter = 2 ^ 254 /\
  expand success_eighth = 2 ^ 253 /\ expand success_sixteenth = 2 ^ 252.
Proof. repeat split; vm_compute; reflexivity. Qed.

(* C32: version rolling *)
Theorem C32_split_join : forall v, i32 v -> category (magic_number v) (general_bits v) = v.
Proof. exact category_split. Qed.
Print Assumptions C32_split_join.
Theorem C32_join_split : forall m b, m < 2 ^ 16 -> b < 2 ^ 16 -> magic_number (category m b) = m /\ general_bits (category m b) = b.
Proof. exact split_category. Qed.
Print Assumptions C32_join_split.
Theorem C32_category_range : forall m b, i32 (category m b).
Proof. exact category_range. Qed.
Print Assumptions C32_category_range.
Example C32_split_join_ok : magic_number (-536870911) = 0xe001 /\ general_bits 0x12345678 = 0x91a2 /\ category 0xe001 0x91a2 = (-231456767)%Z.
Proof. repeat split; vm_compute; reflexivity. Qed.
Theorem C32_version_bits : forall v i, (0 <= i < 32)%Z -> Z.testbit (boost_version v) i = Z.testbit v i && negb (in_general i).
Proof. exact version_bit. Qed.
Print Assumptions C32_version_bits.
Theorem C32_general_bits : forall v i, (0 <= i < 16)%Z -> N.testbit (general_bits v) (Z.to_N i) = Z.testbit v (i + 13).
Proof. exact general_bit. Qed.
Print Assumptions C32_general_bits.
Theorem C32_version_is_magic : forall v w, i32 v -> i32 w -> boost_version v = boost_version w <-> magic_number v = magic_number w.
Proof. exact version_magic. Qed.
Print Assumptions C32_version_is_magic.
Theorem C32_mask : forall H p, let m := pz_mask (wp_puzzle p) in let s := so_share (wp_solution p) in
  let v := h_version (wproof_string H p) in
  Z.land v m = Z.land (ca_category (pz_candidate (wp_puzzle p))) m /\
  Z.land v (Z.lnot m) = match sh_bits s with Some b => Z.land b (Z.lnot m) | None => 0%Z end /\
  (m = (-1)%Z -> v = ca_category (pz_candidate (wp_puzzle p))).
Proof. exact version_masked. Qed.
Print Assumptions C32_mask.
Example C32_mask_ok : h_version (wproof_string ex_hash32 (ex_wproof success_quarter 5 [x06])) = 0x32344002%Z /\ i32 0x20000002.
Proof. split; [vm_compute; reflexivity|]. split; vm_compute; [discriminate|reflexivity]. Qed.

(* C33: validity *)
Theorem C33_valid_exact : forall H p, wproof_valid H p = true <-> le_val (H (work_bytes H p)) < expand (ca_target (pz_candidate (wp_puzzle p))).
Proof. exact work_exact. Qed.
Print Assumptions C33_valid_exact.
Theorem C33_string_is_a_header : forall H p, (forall m, length (H m) = 32%nat) -> puzzle_wf (wp_puzzle p) -> share_wf (so_share (wp_solution p)) ->
  header_wf (wproof_string H p).
Proof. exact work_header_wf. Qed.
Print Assumptions C33_string_is_a_header.
Example C33_string_is_a_header_ok : puzzle_wf (ex_puzzle success_quarter) /\ share_wf (so_share (ex_solution 5 [x06])) /\
  len (work_bytes ex_hash32 (ex_wproof success_quarter 5 [x06])) = 80 /\
  wproof_valid ex_hash32 (ex_wproof success_sixteenth 14 [x06; x07]) = true /\ wproof_valid ex_hash32 (ex_wproof success_sixteenth 13 [x06; x07]) = false.
Proof.
  split; [split; [split; vm_compute; congruence|split; [reflexivity|split; [vm_compute; reflexivity|split; vm_compute; congruence]]]|].
  split; [split; [vm_compute; reflexivity|split; [vm_compute; reflexivity|split; vm_compute; congruence]]|].
  split; [vm_compute; reflexivity|split; vm_compute; reflexivity].
Qed.
Theorem C33_slice_agrees : forall H x, length x = 80%nat ->
  string_valid H (header_of_slice x) = string_valid_slice H x /\ header_valid H (header_of_slice x) = header_valid_slice H x.
Proof. exact slice_exact. Qed.
Print Assumptions C33_slice_agrees.
Theorem C33_header_valid_exact : forall H h, header_wf h -> header_valid H h = true <->
  le_val (H (header_write h)) < expand (h_target h) /\ (1 <= h_version h)%Z /\ h_merkle_root h <> zero_digest /\ h_timestamp h <> 0.
Proof. exact header_valid_exact. Qed.
Print Assumptions C33_header_valid_exact.
Example C33_header_valid_ok : header_valid ex_hash32 (wproof_string ex_hash32 (ex_wproof success_sixteenth 14 [x06; x07])) = true.
Proof. vm_compute. reflexivity. Qed.
Theorem C33_zero_target_never_valid : forall H p, expand (ca_target (pz_candidate (wp_puzzle p))) = 0 -> wproof_valid H p = false.
Proof. exact zero_target_invalid. Qed.
Print Assumptions C33_zero_target_never_valid.
Theorem C33_default_not_valid : forall H, wproof_valid H empty_wproof = false.
Proof. exact empty_invalid. Qed.
Print Assumptions C33_default_not_valid.
(* what a work string commits to *)
Theorem C33_string_commits : forall H p s s', (forall m, length (H m) = 32%nat) ->
  so_extra1 s < 2 ^ 32 -> so_extra1 s' < 2 ^ 32 -> Forall sized_opt (p_digests (ca_path (pz_candidate p))) ->
  let a := {| wp_puzzle := p; wp_solution := s |} in let b := {| wp_puzzle := p; wp_solution := s' |} in
  wproof_string H a = wproof_string H b ->
  sh_timestamp (so_share s) = sh_timestamp (so_share s') /\ sh_nonce (so_share s) = sh_nonce (so_share s') /\
  share_bits (so_share s) (Z.lnot (pz_mask p)) = share_bits (so_share s') (Z.lnot (pz_mask p)) /\
  ((so_extra1 s = so_extra1 s' /\ sh_extra2 (so_share s) = sh_extra2 (so_share s')) \/
   let i := p_index (ca_path (pz_candidate p)) in let ds := p_digests (ca_path (pz_candidate p)) in
   collision H (meta a :: branch_preimages H (mkleaf (H (meta a)) i) ds) (meta b :: branch_preimages H (mkleaf (H (meta b)) i) ds)).
Proof. exact same_string. Qed.
Print Assumptions C33_string_commits.
Example C33_string_commits_ok : Forall sized_opt (p_digests (ca_path (pz_candidate (ex_puzzle success_quarter)))) /\ so_extra1 (ex_solution 5 [x06]) < 2 ^ 32.
Proof. split; [repeat constructor|vm_compute; reflexivity]. Qed.
(* a proof rebuilt from its work string: the path is not used *)
Theorem C33_rebuild_exact : forall H w mp h n1 n2 b, let p := wproof_of_string H w mp h n1 n2 b in
  (h_merkle_root w = H (h ++ be 4 n1 ++ n2 ++ b) -> wproof_string H p = w /\ meta p = h ++ be 4 n1 ++ n2 ++ b) /\
  (h_merkle_root w <> H (h ++ be 4 n1 ++ n2 ++ b) -> p = empty_wproof).
Proof. exact of_string_exact. Qed.
Print Assumptions C33_rebuild_exact.
Theorem C33_rebuild_without_path : forall H p, p_digests (ca_path (pz_candidate (wp_puzzle p))) = [] ->
  let q := wproof_of_string H (wproof_string H p) (ca_path (pz_candidate (wp_puzzle p))) (pz_header (wp_puzzle p)) (so_extra1 (wp_solution p))
             (sh_extra2 (so_share (wp_solution p))) (pz_body (wp_puzzle p)) in
  wproof_string H q = wproof_string H p /\ meta q = meta p /\ wproof_valid H q = wproof_valid H p.
Proof. exact string_back. Qed.
Print Assumptions C33_rebuild_without_path.
Example C33_rebuild_without_path_ok : p_digests (ca_path (pz_candidate (wp_puzzle (ex_plain success_quarter 5)))) = [] /\ wproof_valid ex_hash32 (ex_plain success_quarter 5) = true.
Proof. split; vm_compute; reflexivity. Qed.
Theorem C33_rebuild_with_path_refuted : forall H p, wproof_root H p <> H (meta p) ->
  wproof_of_string H (wproof_string H p) (ca_path (pz_candidate (wp_puzzle p))) (pz_header (wp_puzzle p)) (so_extra1 (wp_solution p))
    (sh_extra2 (so_share (wp_solution p))) (pz_body (wp_puzzle p)) = empty_wproof.
Proof. exact string_lost. Qed.
Print Assumptions C33_rebuild_with_path_refuted.
Example C33_rebuild_with_path_refuted_ok : let p := ex_wproof success_sixteenth 14 [x06; x07] in wproof_valid ex_hash32 p = true /\ wproof_root ex_hash32 p <> ex_hash32 (meta p).
Proof. split; vm_compute; [reflexivity|discriminate]. Qed.
Theorem C33_jobs : forall p j s, proof_of_job (job_of_proof p) (so_share (wp_solution p)) = p /\ job_of_proof (proof_of_job j s) = j /\ so_share (wp_solution (proof_of_job j s)) = s.
Proof. exact job_back. Qed.
Print Assumptions C33_jobs.
(* the solver *)
Theorem C33_solver_sound : forall H fuel p s q, cpu_solve H fuel p s = Done (Ret q) ->
  (expand (ca_target (pz_candidate p)) = 0 /\ q = empty_wproof) \/
  (wproof_valid H q = true /\ wp_puzzle q = p /\ so_extra1 (wp_solution q) = so_extra1 s /\
   sh_timestamp (so_share (wp_solution q)) = sh_timestamp (so_share s) /\ sh_bits (so_share (wp_solution q)) = sh_bits (so_share s) /\
   removelast (sh_extra2 (so_share (wp_solution q))) = removelast (sh_extra2 (so_share s)) /\
   length (sh_extra2 (so_share (wp_solution q))) = length (sh_extra2 (so_share s))).
Proof. exact solve_sound. Qed.
Print Assumptions C33_solver_sound.
Theorem C33_solver_finds_first : forall H p x1 t nonce f l bits k, nonce < 2 ^ 32 -> expand (ca_target (pz_candidate p)) <> 0 ->
  let c := counter_of l nonce in
  c + k < 2 ^ 40 -> wproof_valid H (attempt p x1 t bits f (c + k)) = true ->
  (forall d, c <= d < c + k -> wproof_valid H (attempt p x1 t bits f d) = false) ->
  forall fuel, (N.to_nat k <= fuel)%nat ->
  cpu_solve H fuel p {| so_share := {| sh_timestamp := t; sh_nonce := nonce; sh_extra2 := f ++ [l]; sh_bits := bits |}; so_extra1 := x1 |}
  = Done (Ret (attempt p x1 t bits f (c + k))).
Proof. exact solve_finds. Qed.
Print Assumptions C33_solver_finds_first.
(* the nonce runs over: the third attempt after that is good *)
Example C33_solver_finds_first_ok : cpu_solve ex_hash32 10 (ex_puzzle success_quarter) (ex_solution 4294967295 [x06; x07]) = Done (Ret (ex_wproof success_quarter 2 [x06; x08])).
Proof. vm_compute. reflexivity. Qed.
Theorem C33_solver_gives_up : forall H p x1 t nonce f l bits, nonce < 2 ^ 32 -> expand (ca_target (pz_candidate p)) <> 0 ->
  let c := counter_of l nonce in
  (forall d, c <= d < 2 ^ 40 -> wproof_valid H (attempt p x1 t bits f d) = false) ->
  exists n, forall fuel, (n <= fuel)%nat ->
  cpu_solve H fuel p {| so_share := {| sh_timestamp := t; sh_nonce := nonce; sh_extra2 := f ++ [l]; sh_bits := bits |}; so_extra1 := x1 |} = Done (Throw tt).
Proof. exact solve_exhausted. Qed.
Print Assumptions C33_solver_gives_up.
Example C33_solver_gives_up_ok : cpu_solve ex_high 10 (ex_puzzle success_quarter) (ex_solution 4294967293 [x06; xff]) = Done (Throw tt).
Proof. vm_compute. reflexivity. Qed.
Theorem C33_solver_ends : forall H p x1 t nonce f l bits, nonce < 2 ^ 32 ->
  exists n r, r <> Undef /\ forall fuel, (n <= fuel)%nat ->
  cpu_solve H fuel p {| so_share := {| sh_timestamp := t; sh_nonce := nonce; sh_extra2 := f ++ [l]; sh_bits := bits |}; so_extra1 := x1 |} = Done r.
Proof. exact solve_ends. Qed.
Print Assumptions C33_solver_ends.
(* without a second extra nonce the search runs into a byte that does not exist *)
Theorem C33_solver_no_extra_nonce_refuted : forall H p x1 t bits, expand (ca_target (pz_candidate p)) <> 0 -> forall nonce, nonce < 2 ^ 32 ->
  let at_ n := {| wp_puzzle := p; wp_solution := {| so_share := {| sh_timestamp := t; sh_nonce := n; sh_extra2 := []; sh_bits := bits |}; so_extra1 := x1 |} |} in
  (forall n, nonce <= n < 2 ^ 32 -> wproof_valid H (at_ n) = false) ->
  exists k, forall fuel, (k <= fuel)%nat -> cpu_solve H fuel p (wp_solution (at_ nonce)) = Done Undef.
Proof. exact solve_no_extra. Qed.
Print Assumptions C33_solver_no_extra_nonce_refuted.
Example C33_solver_no_extra_nonce_ok : cpu_solve ex_high 10 (ex_puzzle success_quarter) (ex_solution 4294967293 []) = Done Undef.
Proof. vm_compute. reflexivity. Qed.

(* C74: a compact target from a difficulty; [p / 2^s] is the quotient of the unit by the difficulty *)
Theorem C74_exact : forall p s e, scale_of p s e -> 3 <= e <= 32 -> p <> 2 ^ s * 256 ^ e ->
  exists c, compact_of_quotient p s = Some c /\ expand c = truncated (p / 2 ^ s) (dropped (p / 2 ^ s) e).
Proof. exact quotient_expand. Qed.
Print Assumptions C74_exact.
Theorem C74_as_number : forall junk p s e, scale_of p s e -> 4 <= e <= 32 -> p <> 2 ^ s * 256 ^ e ->
  compact_of_quotient p s = Some (compact_of junk (p / 2 ^ s)).
Proof. exact quotient_as_number. Qed.
Print Assumptions C74_as_number.
(* difficulty 1 *)
Example C74_exact_ok : scale_of (0xffff * 2 ^ 208) 0 28 /\ compact_of_quotient (0xffff * 2 ^ 208) 0 = Some ex_compact.
Proof. split; [split; [|right]; vm_compute; congruence|vm_compute; reflexivity]. Qed.
Theorem C74_power_of_256_refuted : forall s e, 3 <= e <= 32 -> exists c, compact_of_quotient (2 ^ s * 256 ^ e) s = Some c /\ expand c = 0.
Proof. exact quotient_power. Qed.
Print Assumptions C74_power_of_256_refuted.
(* difficulty 65535 *)
Example C74_power_of_256_refuted_ok : 0xffff * 2 ^ 208 / 65535 = 256 ^ 26 /\ (0xffff * 2 ^ 208) mod 65535 = 0.
Proof. split; vm_compute; reflexivity. Qed.
Theorem C74_low : forall p s, p <= 2 ^ s * 256 ^ 2 -> compact_of_quotient p s = Some compact_min.
Proof. exact quotient_low. Qed.
Print Assumptions C74_low.
Theorem C74_high : forall p s, 2 ^ s * 256 ^ 32 < p -> compact_of_quotient p s = Some compact_max.
Proof. exact quotient_high. Qed.
Print Assumptions C74_high.
Theorem C74_scale_unique : forall p s a b, scale_of p s a -> scale_of p s b -> a = b.
Proof. exact scale_unique. Qed.
Print Assumptions C74_scale_unique.
Theorem C74_scale_loop : forall p s, exists e, scale_of p s e /\ scale_loop (N.to_nat (N.size p)) p s 0 = Some (s + 8 * e, e).
Proof. exact scale_exact. Qed.
Print Assumptions C74_scale_loop.
Theorem C74_difficulty_0_runs_for_ever_refuted : forall fuel e, quotient_loop fuel Infinite e = More.
Proof. exact infinite_runs. Qed.
Print Assumptions C74_difficulty_0_runs_for_ever_refuted.
