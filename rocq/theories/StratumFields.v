(* Proofs about the fields and parameters of Stratum messages. *)
From Coq Require Import String Lia ZifyBool ZifyNat ZifyN.
From Verif Require Import Base BaseProofs TextModel TextProofs TextFormProofs WireModel WireSpec MerkleModel WorkModel JsonModel StratumModel StratumSpec StratumProofs.
Local Open Scope N_scope.

(* ---------------------------------------------------------------- hexadecimal *)
Lemma hex_read_length : forall b s, hex_read s = Some b -> length s = (2 * length b)%nat.
Proof.
  induction b as [|x b IH]; intros s H; destruct s as [|c [|d s]]; try discriminate H; [reflexivity| |]; cbn [hex_read] in H;
    destruct (hex_digit c); try discriminate H; destruct (hex_digit d); try discriminate H; destruct (hex_read s) as [t|] eqn:E; try discriminate H.
  assert (t = b) as -> by congruence. specialize (IH s E). cbn [length]. lia.
Qed.
Lemma hex_size s b : hex_read s = Some b -> (length s =? 8)%nat = (length b =? 4)%nat.
Proof. intros H. rewrite (hex_read_length b s H). destruct (length b =? 4)%nat eqn:E; lia. Qed.

Lemma u32_be v : u32 v -> be_val (be 4 v) = v.
Proof. unfold u32. intros U. rewrite be_val_be. apply N.mod_small. exact U. Qed.
Lemma be4_exact b v : length b = 4%nat -> be_val b = v <-> u32 v /\ b = be 4 v.
Proof.
  intros L. split.
  - intros <-. split; [pose proof (be_val_bound b) as X; rewrite L in X; exact X|]. rewrite <- L. symmetry. apply be_be_val.
  - intros [U ->]. apply u32_be. exact U.
Qed.
Lemma i32_range z : i32 z <-> srange 4 z.
Proof. unfold i32, srange. change (Z.of_N (pow256 4)) with 4294967296%Z. change (2 ^ 31)%Z with 2147483648%Z. lia. Qed.
Lemma sle4_exact b z : length b = 4%nat -> sle_val (rev b) = z <-> i32 z /\ b = rev (sle 4 z).
Proof.
  intros L. split.
  - intros <-. split; [apply i32_range; pose proof (sle_val_range (rev b)) as X; rewrite rev_length, L in X; exact X|].
    assert (Y : length (rev b) = 4%nat) by (rewrite rev_length; exact L). rewrite <- Y, sle_sle_val. symmetry. apply rev_involutive.
  - intros [R ->]. rewrite rev_involutive. apply sle_val_sle. apply i32_range. exact R.
Qed.

Lemma u32_read_exact j v : u32_read j = Some v <-> exists s, j = JString s /\ hex_u32 v s.
Proof.
  unfold hex_u32, hex_of. split.
  - destruct j as [| | | | |s| |]; try discriminate. cbn [u32_read]. destruct (hex_read s) as [b|] eqn:H; [|destruct (length s =? 8)%nat; discriminate].
    rewrite (hex_size s b H). destruct (length b =? 4)%nat eqn:L; [|discriminate]. intros X. assert (Y : be_val b = v) by congruence.
    apply be4_exact in Y; [|lia]. destruct Y as [U ->]. exists s. auto.
  - intros (s & -> & U & H). cbn [u32_read]. rewrite (hex_size s _ H), H, be_length. cbn [Nat.eqb]. rewrite u32_be by exact U. reflexivity.
Qed.
Lemma int_read_exact j z : int_read j = Some z <-> exists s, j = JString s /\ hex_i32 z s.
Proof.
  unfold hex_i32, hex_of. split.
  - destruct j as [| | | | |s| |]; try discriminate. cbn [int_read]. destruct (hex_read s) as [b|] eqn:H; [|destruct (length s =? 8)%nat; discriminate].
    rewrite (hex_size s b H). destruct (length b =? 4)%nat eqn:L; [|discriminate]. intros X. assert (Y : sle_val (rev b) = z) by congruence.
    apply sle4_exact in Y; [|lia]. destruct Y as [U ->]. exists s. auto.
  - intros (s & -> & U & H). cbn [int_read]. rewrite (hex_size s _ H), H, rev_length, sle_length. cbn [Nat.eqb]. rewrite rev_involutive, sle_val_sle by (apply i32_range; exact U). reflexivity.
Qed.
Lemma bytes_read_exact j b : bytes_read j = Some b <-> exists s, j = JString s /\ hex_of b s.
Proof.
  unfold hex_of, bytes_read. split; [destruct j as [| | | | |s| |]; try discriminate; intros X; exists s; auto|]. intros (s & -> & X). exact X.
Qed.
Lemma nonce_read_exact j :
  (forall v, nonce_read j = Ret v <-> exists s, j = JString s /\ hex_u32 v s) /\
  (nonce_read j = Undef <-> exists s, j = JString s /\ length s = 8%nat /\ hex_read s = None).
Proof.
  split.
  - intros v. rewrite <- u32_read_exact. destruct j as [| | | | |s| |]; cbn [nonce_read u32_read]; try (split; discriminate).
    destruct (length s =? 8)%nat; [|split; discriminate]. destruct (hex_read s); split; congruence.
  - destruct j as [| | | | |s| |]; cbn [nonce_read]; try (split; [discriminate|intros (t & X & _); discriminate X]).
    destruct (length s =? 8)%nat eqn:L; [destruct (hex_read s) eqn:H|].
    + split; [discriminate|]. intros (t & X & _ & Y). assert (s = t) as -> by congruence. congruence.
    + split; [|reflexivity]. intros _. exists s. split; [reflexivity|]. split; [lia|exact H].
    + split; [discriminate|]. intros (t & X & Y & _). assert (s = t) as -> by congruence. lia.
Qed.

(* ---------------------------------------------------------------- session ids *)
Lemma session_exact j v : session_read j = Some v <-> exists s, j = JString s /\ hex_u32 v s.
Proof.
  unfold hex_u32, hex_of, session_read, fixed4_valid, session_of_text. split.
  - destruct j as [| | | | |s| |]; try discriminate. destruct (hex_read s) as [b|] eqn:H; [|rewrite andb_false_r; discriminate].
    rewrite andb_true_r, (hex_size s b H). destruct (length b =? 4)%nat eqn:L; [|discriminate]. apply Nat.eqb_eq in L. rewrite L. cbn [Nat.ltb Nat.leb Nat.sub repeat]. rewrite app_nil_r.
    intros X. assert (Y : be_val b = v) by congruence. apply be4_exact in Y; [|exact L]. destruct Y as [U ->]. exists s. auto.
  - intros (s & -> & U & H). rewrite (hex_size s _ H), H, be_length. cbn [Nat.eqb andb Nat.ltb Nat.leb Nat.sub repeat]. rewrite app_nil_r, u32_be by exact U. reflexivity.
Qed.
Lemma session_round_trip v : u32 v -> session_read (session_json v) = Some v.
Proof. intros U. apply session_exact. exists (session_text v). split; [reflexivity|]. split; [exact U|apply hex_read_write]. Qed.
Lemma session_text_back v : u32 v -> session_of_text (session_text v) = Some v.
Proof.
  intros U. unfold session_of_text, session_text. rewrite hex_read_write, be_length. cbn [Nat.ltb Nat.leb Nat.sub repeat]. rewrite app_nil_r, u32_be by exact U. reflexivity.
Qed.

(* ---------------------------------------------------------------- digests *)
Lemma groups4_concat : forall k b, length b = (4 * k)%nat -> concat (groups4 k b) = b /\ length (groups4 k b) = k /\ Forall (fun w => length w = 4%nat) (groups4 k b).
Proof.
  induction k as [|k IH]; intros b L; cbn [groups4].
  - destruct b; [|cbn in L; lia]. auto.
  - destruct (IH (skipn 4 b)) as (A & B & C); [rewrite skipn_length; lia|]. cbn [concat length]. rewrite A, B, firstn_skipn. split; [reflexivity|]. split; [reflexivity|].
    constructor; [rewrite firstn_length; lia|exact C].
Qed.
Lemma groups4_of : forall ws, Forall (fun w => length w = 4%nat) ws -> groups4 (length ws) (concat ws) = ws.
Proof.
  induction ws as [|w ws IH]; intros F; [reflexivity|]. assert (L : length w = 4%nat) by (inversion F; assumption). assert (F' : Forall (fun w => length w = 4%nat) ws) by (inversion F; assumption).
  cbn [length groups4 concat]. rewrite <- L at 1 2. rewrite firstn_app, firstn_all, Nat.sub_diag, app_nil_r, skipn_app, skipn_all, Nat.sub_diag. cbn [skipn app]. rewrite IH by exact F'. reflexivity.
Qed.
Lemma concat_length4 : forall ws : list bytes, Forall (fun w => length w = 4%nat) ws -> length (concat ws) = (4 * length ws)%nat.
Proof. induction 1 as [|w ws L F IH]; [reflexivity|]. cbn [concat length]. rewrite app_length, IH, L. lia. Qed.
Lemma map_rev4 (ws : list bytes) : Forall (fun w => length w = 4%nat) ws -> Forall (fun w => length w = 4%nat) (map (@rev byte) ws).
Proof. induction 1; cbn [map]; constructor; [rewrite rev_length|]; assumption. Qed.
Lemma map_rev_twice (ws : list bytes) : map (@rev byte) (map (@rev byte) ws) = ws.
Proof. rewrite map_map. rewrite <- (map_id ws) at 2. apply map_ext. intros w. apply rev_involutive. Qed.

Lemma digest_read_exact j d : digest_read j = Some d <-> exists s, j = JString s /\ hex_digest d s.
Proof.
  unfold hex_digest, hex_of. split.
  - destruct j as [| | | | |s| |]; try discriminate. cbn [digest_read]. destruct (length s =? 64)%nat eqn:L; [|discriminate]. destruct (hex_read s) as [b|] eqn:H; [|discriminate].
    intros X. assert (Y : concat (map (@rev byte) (groups4 8 b)) = d) by congruence. exists s. split; [reflexivity|]. pose proof (hex_read_length b s H) as K.
    destruct (groups4_concat 8 b) as (A & B & C); [lia|]. exists (map (@rev byte) (groups4 8 b)). rewrite map_length, B, map_rev_twice, A. split; [reflexivity|]. split; [apply map_rev4; exact C|]. auto.
  - intros (s & -> & ws & L & F & -> & H). cbn [digest_read]. pose proof (hex_read_length _ s H) as K. rewrite (concat_length4 _ (map_rev4 ws F)), map_length, L in K.
    rewrite K, H. cbn [Nat.eqb Nat.mul Nat.add]. replace 8%nat with (length (map (@rev byte) ws)) by (rewrite map_length; exact L). rewrite groups4_of by (apply map_rev4; exact F). rewrite map_rev_twice. reflexivity.
Qed.

(* one word at a time *)
Fixpoint by4 (f : bytes -> bytes) (d : bytes) : bytes := match d with a :: b :: c :: e :: r => f [a; b; c; e] ++ by4 f r | _ => [] end.
Lemma by4_groups f : forall k d, length d = (4 * k)%nat -> concat (map f (groups4 k d)) = by4 f d.
Proof.
  induction k as [|k IH]; intros d L.
  - destruct d; [reflexivity|cbn in L; lia].
  - destruct d as [|a [|b [|c [|e r]]]]; try (cbn in L; lia). cbn [groups4 firstn skipn map concat by4]. rewrite IH by (cbn [length] in L; lia). reflexivity.
Qed.
Lemma by4_length f : (forall w, length w = 4%nat -> length (f w) = 4%nat) -> forall k d, length d = (4 * k)%nat -> length (by4 f d) = (4 * k)%nat.
Proof.
  intros Lf. induction k as [|k IH]; intros d L.
  - destruct d; [reflexivity|cbn in L; lia].
  - destruct d as [|a [|b [|c [|e r]]]]; try (cbn in L; lia). cbn [by4]. rewrite app_length, Lf by reflexivity. rewrite IH by (cbn [length] in L; lia). lia.
Qed.
Lemma by4_twice : forall k d, length d = (4 * k)%nat -> by4 (@rev byte) (by4 reverse3 d) = rotated d.
Proof.
  induction k as [|k IH]; intros d L.
  - destruct d; [reflexivity|cbn in L; lia].
  - destruct d as [|a [|b [|c [|e r]]]]; try (cbn in L; lia). cbn [by4 rotated reverse3 firstn skipn rev app]. cbn [by4 rev app]. rewrite IH by (cbn [length] in L; lia). reflexivity.
Qed.
Lemma digest_back d : length d = 32%nat -> digest_read (JString (digest_text d)) = Some (rotated d).
Proof.
  intros L. cbn [digest_read]. unfold digest_text. rewrite hex_write_length. rewrite (by4_groups reverse3 8 d) by lia.
  rewrite (by4_length reverse3) with (k := 8%nat) by (try lia; intros w W; unfold reverse3; rewrite app_length, rev_length, firstn_length, skipn_length; lia).
  cbn [Nat.mul Nat.add Nat.eqb]. rewrite hex_read_write. rewrite (by4_groups (@rev byte) 8).
  - rewrite (by4_twice 8) by lia. reflexivity.
  - apply (by4_length reverse3); [|lia]. intros w W. unfold reverse3. rewrite app_length, rev_length, firstn_length, skipn_length. lia.
Qed.
Lemma rotated_fixed : forall k d, length d = (4 * k)%nat -> rotated d = d <-> exists bs, length bs = k /\ d = concat (map (fun b => [b; b; b; b]) bs).
Proof.
  induction k as [|k IH]; intros d L.
  - destruct d; [|cbn in L; lia]. split; [intros _; exists []; auto|reflexivity].
  - destruct d as [|a [|b [|c [|e r]]]]; try (cbn in L; lia). cbn [rotated]. cbn [length] in L. split.
    + intros X. assert (Y : rotated r = r) by congruence. assert (e = a) as -> by congruence. assert (a = b) as -> by congruence. assert (b = c) as -> by congruence.
      destruct (proj1 (IH r ltac:(lia)) Y) as (bs & A & B). exists (c :: bs). cbn [length map concat app]. rewrite B, A. auto.
    + intros ([|b' bs] & A & B); [discriminate B|]. cbn [map concat app] in B. cbn [length] in A.
      assert (Y : r = concat (map (fun b => [b; b; b; b]) bs)) by congruence. assert (Z : rotated r = r) by (apply IH; [lia|]; exists bs; split; [lia|exact Y]). congruence.
Qed.
Lemma digest_survives d : length d = 32%nat -> digest_read (JString (digest_text d)) = Some d <-> uniform d.
Proof.
  intros L. rewrite digest_back by exact L. unfold uniform. rewrite <- (rotated_fixed 8 d) by lia. split; congruence.
Qed.

(* ---------------------------------------------------------------- numbers written *)
Lemma u32_text_of v : u32 v -> hex_u32 v (u32_text v).
Proof. intros U. split; [exact U|]. apply hex_read_write. Qed.
Lemma int_back mem z : i32 z -> int_read (JString (int_text mem z)) = Some (if mem then swapped z else z).
Proof.
  intros R. apply int_read_exact. exists (int_text mem z). split; [reflexivity|]. unfold hex_i32, hex_of, int_text. destruct mem.
  - rewrite hex_read_write. unfold swapped. assert (L : length (rev (sle 4 z)) = 4%nat) by (rewrite rev_length, sle_length; reflexivity). split.
    + apply i32_range. pose proof (sle_val_range (rev (sle 4 z))) as X. rewrite L in X. exact X.
    + pose proof (sle_sle_val (rev (sle 4 z))) as X. rewrite L in X. rewrite X, rev_involutive. reflexivity.
  - rewrite hex_read_write. auto.
Qed.
Lemma swapped_fixed z : i32 z -> swapped z = z <-> palindrome z.
Proof.
  intros R. unfold swapped, palindrome. split.
  - intros E. assert (L : length (rev (sle 4 z)) = 4%nat) by (rewrite rev_length, sle_length; reflexivity). rewrite <- (sle_sle_val (rev (sle 4 z))), L, E. reflexivity.
  - intros ->. apply sle_val_sle. apply i32_range. exact R.
Qed.

(* ---------------------------------------------------------------- mining.notify *)
Lemma path_all_exact : forall l acc ds, path_read_all l acc = Some ds <->
  exists es, ds = rev es ++ acc /\ Forall2 (fun o j => exists d s, o = Some d /\ j = JString s /\ hex_digest d s) es l.
Proof.
  induction l as [|j l IH]; intros acc ds; cbn [path_read_all].
  - split; [intros X; exists []; split; [cbn; congruence|constructor]|]. intros (es & -> & F). inversion F. reflexivity.
  - split.
    + destruct (digest_read j) as [d|] eqn:D; [|discriminate]. intros X. apply IH in X. destruct X as (es & -> & F). apply digest_read_exact in D. destruct D as (s & -> & D).
      exists (Some d :: es). cbn [rev]. rewrite <- app_assoc. split; [reflexivity|]. constructor; [exists d, s; auto|exact F].
    + intros (es & -> & F). destruct es as [|o es]; [inversion F|]. assert (A : exists d s, o = Some d /\ j = JString s /\ hex_digest d s) by (inversion F; assumption).
      assert (B : Forall2 (fun o j => exists d s, o = Some d /\ j = JString s /\ hex_digest d s) es l) by (inversion F; assumption). destruct A as (d & s & -> & -> & D).
      assert (Y : digest_read (JString s) = Some d) by (apply digest_read_exact; exists s; auto). rewrite Y. apply IH. exists es. cbn [rev]. rewrite <- app_assoc. auto.
Qed.
Lemma path_exact j ds : path_read j = Some ds <-> exists l, j = JArray l /\ says_path ds l.
Proof.
  unfold says_path. split.
  - destruct j as [| | | | | |l|]; try discriminate. cbn [path_read]. intros X. apply path_all_exact in X. destruct X as (es & -> & F). exists l. split; [reflexivity|]. rewrite app_nil_r, rev_involutive. exact F.
  - intros (l & -> & F). cbn [path_read]. apply path_all_exact. exists (rev ds). rewrite rev_involutive, app_nil_r. auto.
Qed.

Lemma notify_says n p : says_notify n p -> notify_read n = p.
Proof.
  intros (d & t1 & t2 & ds & v & t & now & -> & D & T1 & T2 & P & V & T & W). cbn [notify_read].
  rewrite (proj2 (digest_read_exact (JString d) (nt_digest p))) by eauto. rewrite (proj2 (bytes_read_exact (JString t1) (nt_tx1 p))) by eauto. rewrite (proj2 (bytes_read_exact (JString t2) (nt_tx2 p))) by eauto.
  rewrite (proj2 (path_exact (JArray ds) (nt_path p))) by eauto. rewrite (proj2 (int_read_exact (JString v) (nt_version p))) by eauto.
  rewrite (proj2 (u32_read_exact (JString t) (nt_target p))) by eauto. rewrite (proj2 (u32_read_exact (JString now) (nt_now p))) by eauto. destruct p; reflexivity.
Qed.
Lemma notify_or_none n : notify_read n = notify_none \/ says_notify n (notify_read n).
Proof.
  destruct n as [|j0 [|j1 [|j2 [|j3 [|j4 [|j5 [|j6 [|j7 [|j8 [|]]]]]]]]]]; try (left; reflexivity); try (destruct j0; left; reflexivity).
  2: { destruct j0; try (left; reflexivity). destruct j8; left; reflexivity. }
  destruct j0 as [| | | | |job| |]; try (left; reflexivity). destruct j8 as [|clean| | | | | |]; try (left; reflexivity). cbn [notify_read].
  destruct (digest_read j1) as [d|] eqn:D; [|left; reflexivity]. destruct (bytes_read j2) as [t1|] eqn:T1; [|left; reflexivity]. destruct (bytes_read j3) as [t2|] eqn:T2; [|left; reflexivity].
  destruct (path_read j4) as [ds|] eqn:P; [|left; reflexivity]. destruct (int_read j5) as [v|] eqn:V; [|left; reflexivity]. destruct (u32_read j6) as [t|] eqn:T; [|left; reflexivity]. destruct (u32_read j7) as [now|] eqn:W; [|left; reflexivity].
  right. apply digest_read_exact in D. apply bytes_read_exact in T1. apply bytes_read_exact in T2. apply path_exact in P. apply int_read_exact in V. apply u32_read_exact in T. apply u32_read_exact in W.
  destruct D as (a & -> & D), T1 as (b & -> & T1), T2 as (c & -> & T2), P as (e & -> & P), V as (f & -> & V), T as (g & -> & T), W as (h & -> & W).
  exists a, b, c, e, f, g, h. cbn [nt_job nt_digest nt_tx1 nt_tx2 nt_path nt_version nt_target nt_now nt_clean]. auto 10.
Qed.
Lemma notify_exact n p : p <> notify_none -> notify_read n = p <-> says_notify n p.
Proof.
  intros N. split; [|apply notify_says]. intros E. destruct (notify_or_none n) as [X|X]; [congruence|]. rewrite E in X. exact X.
Qed.

Lemma notify_written mem p : (exists n, notify_write mem p = Some n) <-> nt_path p = [].
Proof.
  unfold notify_write, path_write. destruct (nt_path p); split; try discriminate; eauto. intros [n X]. discriminate X.
Qed.
Lemma notify_back mem p n : notify_fields p -> notify_write mem p = Some n ->
  notify_read n = mknotify (nt_job p) (rotated (nt_digest p)) (nt_tx1 p) (nt_tx2 p) [] (if mem then swapped (nt_version p) else nt_version p) (nt_target p) (nt_now p) (nt_clean p).
Proof.
  intros (L & V & T & W) E. assert (P : nt_path p = []) by (apply (notify_written mem); eauto). unfold notify_write in E. rewrite P in E. cbn [path_write] in E.
  assert (n = [JString (nt_job p); JString (digest_text (nt_digest p)); JString (bytes_text (nt_tx1 p)); JString (bytes_text (nt_tx2 p)); JArray [];
               JString (int_text mem (nt_version p)); JString (u32_text (nt_target p)); JString (u32_text (nt_now p)); JBool (nt_clean p)]) as -> by congruence.
  cbn [notify_read]. rewrite digest_back by exact L. rewrite int_back by exact V.
  assert (A : forall b, bytes_read (JString (bytes_text b)) = Some b) by (intros b; apply hex_read_write).
  assert (B : forall v, u32 v -> u32_read (JString (u32_text v)) = Some v) by (intros v U; apply u32_read_exact; exists (u32_text v); split; [reflexivity|apply u32_text_of; exact U]).
  rewrite !A. rewrite (B _ T), (B _ W). reflexivity.
Qed.
Lemma notify_survives mem p n : notify_fields p -> notify_write mem p = Some n ->
  notify_read n = p <-> uniform (nt_digest p) /\ (mem = true -> palindrome (nt_version p)).
Proof.
  intros F E. rewrite (notify_back mem p n F E). destruct F as (L & V & _ & _). assert (P : nt_path p = []) by (apply (notify_written mem); eauto).
  unfold uniform. rewrite <- (rotated_fixed 8 (nt_digest p)) by lia. rewrite <- (swapped_fixed _ V). destruct p as [j d t1 t2 ds v t w c]. cbn [nt_job nt_digest nt_tx1 nt_tx2 nt_path nt_version nt_target nt_now nt_clean] in *. subst ds.
  destruct mem; split.
  - intros X. split; [congruence|]. intros _. congruence.
  - intros [X Y]. rewrite X, Y by reflexivity. reflexivity.
  - intros X. split; [congruence|discriminate].
  - intros [X _]. rewrite X. reflexivity.
Qed.

(* ---------------------------------------------------------------- mining.submit *)
Lemma share_says n s : says_share n s -> submit_read n = Ret s.
Proof.
  intros (e & t & k & bits & -> & E & T & K & B). destruct s as [name job [ts nc x2 b]]. cbn [ss_name ss_job ss_share sh_timestamp sh_nonce sh_extra2 sh_bits] in *.
  assert (E' : bytes_read (JString e) = Some x2) by (apply bytes_read_exact; eauto). assert (T' : u32_read (JString t) = Some ts) by (apply u32_read_exact; eauto).
  assert (K' : nonce_read (JString k) = Ret nc) by (apply nonce_read_exact; eauto). destruct b as [z|].
  - destruct B as (b & -> & B). cbn [app submit_read]. rewrite E', T', K'. assert (B' : int_read (JString b) = Some z) by (apply int_read_exact; eauto). rewrite B'. reflexivity.
  - subst bits. cbn [app submit_read]. rewrite E', T', K'. reflexivity.
Qed.
Lemma share_or_none n s : submit_read n = Ret s -> s = sshare_none \/ says_share n s.
Proof.
  destruct n as [|j0 [|j1 [|j2 [|j3 [|j4 [|j5 [|]]]]]]]; try (intros E; left; cbn [submit_read] in E; congruence); cbn [submit_read].
  - destruct j0 as [| | | | |name| |]; try (intros E; left; congruence). destruct j1 as [| | | | |job| |]; try (intros E; left; congruence).
    destruct (bytes_read j2) as [e|] eqn:E; [|intros X; left; congruence]. destruct (u32_read j3) as [t|] eqn:T; [|intros X; left; congruence].
    destruct (nonce_read j4) as [k| |] eqn:K; [| |discriminate]; [|intros X; left; congruence]. intros X. right.
    assert (s = mksshare name job {| sh_timestamp := t; sh_nonce := k; sh_extra2 := e; sh_bits := None |}) as -> by congruence.
    apply bytes_read_exact in E. apply u32_read_exact in T. apply nonce_read_exact in K. destruct E as (a & -> & E), T as (b & -> & T), K as (c & -> & K).
    exists a, b, c, []. cbn [ss_name ss_job ss_share sh_timestamp sh_nonce sh_extra2 sh_bits app]. auto.
  - destruct j0 as [| | | | |name| |]; try (intros E; left; congruence). destruct j1 as [| | | | |job| |]; try (intros E; left; congruence).
    destruct (bytes_read j2) as [e|] eqn:E; [|intros X; left; congruence]. destruct (u32_read j3) as [t|] eqn:T; [|intros X; left; congruence].
    destruct (nonce_read j4) as [k| |] eqn:K; [| |discriminate]; [|intros X; left; congruence]. destruct (int_read j5) as [z|] eqn:Z; [|intros X; left; congruence]. intros X. right.
    assert (s = mksshare name job {| sh_timestamp := t; sh_nonce := k; sh_extra2 := e; sh_bits := Some z |}) as -> by congruence.
    apply bytes_read_exact in E. apply u32_read_exact in T. apply nonce_read_exact in K. apply int_read_exact in Z. destruct E as (a & -> & E), T as (b & -> & T), K as (c & -> & K), Z as (d & -> & Z).
    exists a, b, c, [JString d]. cbn [ss_name ss_job ss_share sh_timestamp sh_nonce sh_extra2 sh_bits app]. eauto 10.
Qed.
Lemma share_exact n s : s <> sshare_none -> submit_read n = Ret s <-> says_share n s.
Proof. intros N. split; [|apply share_says]. intros E. destruct (share_or_none n s E); [contradiction|assumption]. Qed.
Lemma share_undefined n :
  submit_read n = Undef <->
  exists name job e t k bits, n = [JString name; JString job; JString e; JString t; JString k] ++ bits /\ (length bits <= 1)%nat /\
    (exists b, hex_of b e) /\ (exists v, hex_u32 v t) /\ length k = 8%nat /\ hex_read k = None.
Proof.
  split.
  - destruct n as [|j0 [|j1 [|j2 [|j3 [|j4 [|j5 [|]]]]]]]; try discriminate; cbn [submit_read]; (destruct j0 as [| | | | |name| |]; try discriminate; destruct j1 as [| | | | |job| |]; try discriminate;
      destruct (bytes_read j2) as [e|] eqn:E; [|discriminate]; destruct (u32_read j3) as [t|] eqn:T; [|discriminate]; destruct (nonce_read j4) as [k| |] eqn:K;
      [try discriminate; destruct (int_read j5); discriminate|discriminate|]; intros _;
      apply bytes_read_exact in E; apply u32_read_exact in T; apply nonce_read_exact in K; destruct E as (a & -> & E), T as (b & -> & T), K as (c & -> & K)).
    + exists name, job, a, b, c, []. cbn [app length]. repeat split; eauto; apply K.
    + exists name, job, a, b, c, [j5]. cbn [app length]. repeat split; eauto; apply K.
  - intros (name & job & e & t & k & bits & -> & L & (b & E) & (v & T) & K). assert (E' : bytes_read (JString e) = Some b) by (apply bytes_read_exact; eauto). assert (T' : u32_read (JString t) = Some v) by (apply u32_read_exact; eauto).
    assert (K' : nonce_read (JString k) = Undef) by (apply nonce_read_exact; eauto). destruct bits as [|c [|]]; [| |cbn in L; lia]; cbn [app submit_read]; rewrite E', T', K'; reflexivity.
Qed.
Lemma share_back mem s : share_fields s ->
  submit_read (submit_write mem s) =
  Ret (mksshare (ss_name s) (ss_job s) {| sh_timestamp := sh_timestamp (ss_share s); sh_nonce := sh_nonce (ss_share s); sh_extra2 := sh_extra2 (ss_share s);
                                          sh_bits := option_map (fun z => if mem then swapped z else z) (sh_bits (ss_share s)) |}).
Proof.
  intros (T & K & B). apply share_says. destruct s as [name job [ts nc x2 b]]. cbn [ss_name ss_job ss_share sh_timestamp sh_nonce sh_extra2 sh_bits] in *. unfold submit_write. cbn [ss_name ss_job ss_share sh_timestamp sh_nonce sh_extra2 sh_bits].
  exists (bytes_text x2), (u32_text ts), (u32_text nc), (match b with Some b => [JString (int_text mem b)] | None => [] end). cbn [ss_name ss_job ss_share sh_timestamp sh_nonce sh_extra2 sh_bits].
  split; [reflexivity|]. split; [apply hex_read_write|]. split; [apply u32_text_of; exact T|]. split; [apply u32_text_of; exact K|]. destruct b as [z|]; cbn [option_map]; [|reflexivity].
  exists (int_text mem z). split; [reflexivity|]. pose proof (int_back mem z B) as X. apply int_read_exact in X. destruct X as (s & E & X). assert (s = int_text mem z) as -> by congruence. exact X.
Qed.
Lemma share_survives mem s : share_fields s ->
  submit_read (submit_write mem s) = Ret s <-> (mem = true -> forall z, sh_bits (ss_share s) = Some z -> palindrome z).
Proof.
  intros F. rewrite (share_back mem s F). destruct F as (_ & _ & B). destruct s as [name job [ts nc x2 b]]. cbn [ss_name ss_job ss_share sh_timestamp sh_nonce sh_extra2 sh_bits] in *. destruct b as [z|]; cbn [option_map]; destruct mem; split.
  - intros X _ y Y. assert (z = y) by congruence. subst y. apply swapped_fixed; [exact B|]. congruence.
  - intros X. rewrite (proj2 (swapped_fixed z B)); [reflexivity|]. apply X; reflexivity.
  - intros _ X. discriminate X.
  - reflexivity.
  - intros _ _ y Y. discriminate Y.
  - reflexivity.
  - intros _ X. discriminate X.
  - reflexivity.
Qed.
Lemma submit_sent mem id s : identifier id -> share_fields s ->
  submit_valid (submit_request mem id s) = Ret (sshare_valid s).
Proof.
  intros I F. unfold submit_valid, submit_request. destruct (request_back id mining_submit (submit_write mem s) I) as (_ & P & _ & V).
  rewrite (proj2 V) by (unfold has_name, named, map, fst, In; tauto). rewrite P, (share_back mem s F). cbn [bind]. reflexivity.
Qed.

(* ---------------------------------------------------------------- version masks *)
Lemma mask_never s :
  (forall z, mask_read s <> Ret (Some z)) /\ (mask_read s = Undef <-> length s = 8%nat /\ hex_read s = None).
Proof.
  unfold mask_read. destruct (length s =? 8)%nat eqn:L; cbn [negb].
  - destruct (hex_read s); split; try discriminate; split; try discriminate; try (intros [_ X]; discriminate X); auto. intros _. split; [lia|reflexivity].
  - split; [discriminate|]. split; [discriminate|]. intros [X _]. lia.
Qed.
Lemma set_mask_lost mem z : set_mask_read (set_mask_write mem z) = Ret None.
Proof.
  cbn [set_mask_read set_mask_write]. unfold mask_read, mask_text, int_text. destruct mem; rewrite hex_write_length; rewrite ?rev_length, sle_length; cbn [Nat.mul Nat.add Nat.eqb negb]; rewrite hex_read_write; reflexivity.
Qed.

(* ---------------------------------------------------------------- the other parameters *)
Lemma subscribe_back p : match sr_extra1 p with Some v => u32 v | None => True end -> subscribe_read (subscribe_write p) = p.
Proof.
  destruct p as [a [v|]]; cbn [sr_extra1]; intros U; [|reflexivity]. unfold subscribe_write. cbn [sr_agent sr_extra1 subscribe_read].
  change (JString (session_text v)) with (session_json v). rewrite session_round_trip by exact U. reflexivity.
Qed.
Lemma sub_back s : sub_read (sub_json s) = Ret (mksub (method_from_string (method_to_string (sb_method s))) (sb_id s)).
Proof. reflexivity. Qed.
Lemma subs_back l :
  subs_read (map sub_json l) = Ret (if forallb (fun s => negb (is_unset (method_from_string (method_to_string (sb_method s))))) l then Some l else None).
Proof.
  induction l as [|s l IH]; [reflexivity|]. cbn [map subs_read forallb]. rewrite sub_back. cbn [bind]. unfold sub_valid. cbn [sb_method].
  destruct (is_unset (method_from_string (method_to_string (sb_method s)))) eqn:E; cbn [negb andb]; [reflexivity|]. rewrite IH. cbn [bind].
  assert (X : method_from_string (method_to_string (sb_method s)) = sb_method s) by (destruct (sb_method s); try reflexivity; vm_compute in E; discriminate E). rewrite X.
  destruct (forallb _ l); [|reflexivity]. destruct s; reflexivity.
Qed.
Lemma subscribed_survives p : u32 (en_1 (sd_extra p)) -> subscribed_read (subscribed_write p) = Ret p <->
  p = subscribed_none \/ (Forall (fun s => has_name (sb_method s)) (sd_subs p) /\ 0 < en_2_size (sd_extra p) < 2 ^ 32).
Proof.
  intros U. destruct p as [l [v n]]. cbn [sd_subs sd_extra en_1 en_2_size] in *. unfold subscribed_write, extra_valid. cbn [sd_subs sd_extra en_1 en_2_size].
  assert (B : forallb (fun s => negb (is_unset (method_from_string (method_to_string (sb_method s))))) l = true <-> Forall (fun s => has_name (sb_method s)) l).
  { rewrite forallb_forall, Forall_forall. split; intros X s I; specialize (X s I); unfold has_name in *; destruct (sb_method s); vm_compute in X |- *; try discriminate X; tauto || (intuition discriminate). }
  destruct (0 <? n) eqn:E.
  - cbn [subscribed_read]. rewrite session_round_trip by exact U. rewrite subs_back. cbn [bind]. destruct (forallb _ l) eqn:F.
    + split.
      * intros X. right. split; [apply B; reflexivity|]. assert (Y : n mod 2 ^ 32 = n) by congruence. split; [lia|]. rewrite <- Y. apply N.mod_lt. discriminate.
      * intros [X|[_ [_ X]]]; [assert (Y : n = 0) by (unfold subscribed_none, extra_none in X; congruence); lia|]. rewrite N.mod_small by exact X. reflexivity.
    + split.
      * intros X. left. congruence.
      * intros [X|[X _]]; [congruence|]. apply B in X. discriminate X.
  - cbn [subscribed_read]. split; [intros X; left; congruence|]. intros [X|[_ [X _]]]; [congruence|lia].
Qed.
Lemma sub_equal a b : sub_eqb a b = true <-> sb_method a <> unset /\ sb_method b <> unset /\ sb_id a = sb_id b.
Proof.
  unfold sub_eqb, sub_valid. rewrite !andb_true_iff, bytes_eqb_eq. destruct (sb_method a), (sb_method b); cbn; intuition (try discriminate; try congruence).
Qed.
Lemma authorize_back p : authorize_read (authorize_write p) = Ret p.
Proof. destruct p as [u [x|]]; reflexivity. Qed.
Lemma authorize_sent id m p : identifier id -> authorize_valid (request id m (authorize_write p)) = true.
Proof.
  intros I. unfold authorize_valid. destruct (request_back id m (authorize_write p) I) as (_ & -> & _). destruct p as [u [x|]]; reflexivity.
Qed.
Lemma authorize_exact l : (exists p, authorize_read l = Ret p) <-> ~ exists u j, l = [JString u; j] /\ is_string j = false.
Proof.
  split.
  - intros (p & E) (u & j & -> & S). destruct j; discriminate S || discriminate E.
  - intros N. destruct l as [|a [|b [|]]]; cbn [authorize_read].
    + eauto.
    + destruct a; eauto.
    + destruct a; eauto. destruct b; cbn [as_string bind]; eauto; exfalso; apply N; do 2 eexists; split; reflexivity.
    + destruct a; eauto.
Qed.
Lemma difficulty_survives d : set_difficulty_read (set_difficulty_write d) = d <-> d = JNull \/ exists n, d = JUint n.
Proof.
  destruct d; cbn; split; try discriminate; eauto; intros [X|[m X]]; congruence.
Qed.
Lemma extranonce_back x : u32 (en_1 x) -> set_extranonce_read (set_extranonce_write x) = Ret (Some x).
Proof. intros U. cbn [set_extranonce_write set_extranonce_read]. rewrite session_text_back by exact U. destruct x; reflexivity. Qed.
Lemma extranonce_undefined p :
  set_extranonce_read p = Undef <-> exists s n b, p = [JString s; JUint n] /\ hex_of b s /\ (4 < length b)%nat.
Proof.
  unfold hex_of. split.
  - destruct p as [|[| | | | |s| |] [|[| | |n| | | |] [|]]]; try discriminate. cbn [set_extranonce_read]. unfold session_of_text. destruct (hex_read s) as [b|] eqn:H; [|discriminate].
    destruct (4 <? length b)%nat eqn:L; [|discriminate]. intros _. exists s, n, b. repeat split; auto. lia.
  - intros (s & n & b & -> & H & L). cbn [set_extranonce_read]. unfold session_of_text. rewrite H. assert (X : (4 <? length b)%nat = true) by lia. rewrite X. reflexivity.
Qed.
Lemma show_back m : show_message_read (show_message_write m) = m.
Proof. reflexivity. Qed.

(* ---------------------------------------------------------------- the fields of any value *)
Lemma any_id j id : msg_id j = id <-> (member "id" j id /\ identifier id) \/ (id = JNull /\ ~ exists i, member "id" j i /\ identifier i).
Proof.
  unfold msg_id. change (member "id" j) with (fun v => j_get k_id j = Some v). cbn beta. destruct (j_get k_id j) as [q|].
  - destruct (id_valid q) eqn:V.
    + apply identifier_valid in V. split.
      * intros <-. left. split; [reflexivity|exact V].
      * intros [[E _]|[_ X]]; [congruence|]. exfalso. apply X. exists q. split; [reflexivity|exact V].
    + assert (W : ~ identifier q) by (intros X; apply identifier_valid in X; congruence). split.
      * intros <-. right. split; [reflexivity|]. intros (i & E & X). apply W. congruence.
      * intros [[E X]|[-> _]]; [|reflexivity]. exfalso. apply W. congruence.
  - split.
    + intros <-. right. split; [reflexivity|]. intros (i & E & _). discriminate E.
    + intros [[E _]|[-> _]]; [discriminate E|reflexivity].
Qed.
Lemma any_params j p : msg_params j = p <-> member "params" j (JArray p) \/ (p = [] /\ ~ exists l, member "params" j (JArray l)).
Proof.
  unfold msg_params. change (member "params" j) with (fun v => j_get k_params j = Some v). cbn beta. destruct (j_get k_params j) as [q|].
  - destruct q as [| | | | | |l|];
      try (split; [intros <-; right; split; [reflexivity|intros (k & X); discriminate X]|intros [X|[-> _]]; [discriminate X|reflexivity]]).
    split; [intros <-; left; reflexivity|]. intros [X|[_ X]]; [congruence|]. exfalso. apply X. exists l. reflexivity.
  - split; [intros <-; right; split; [reflexivity|intros (k & X); discriminate X]|intros [X|[-> _]]; [discriminate X|reflexivity]].
Qed.
Lemma any_method j m : msg_method j = m <->
  (exists n, In (m, n) named /\ member "method" j (JString n)) \/ (m = unset /\ ~ exists m' n, In (m', n) named /\ member "method" j (JString n)).
Proof.
  assert (U : forall n, ~ In (unset, n) named) by (intros n; unfold named; cbn [In]; intuition congruence).
  unfold msg_method. change (member "method" j) with (fun v => j_get k_method j = Some v). cbn beta.
  destruct (j_get k_method j) as [[| | | | |s| |]|]. 1-5,7-9:
    (split; [intros <-; right; split; [reflexivity|intros (a & n0 & _ & X); discriminate X]|intros [(n1 & _ & X)|[-> _]]; [discriminate X|reflexivity]]).
  destruct (is_unset (method_from_string s)) eqn:V.
  - assert (E : method_from_string s = unset) by (destruct (method_from_string s); (discriminate V || reflexivity)). rewrite E. split.
    + intros <-. right. split; [reflexivity|]. intros (a & n & A & B). assert (n = s) as -> by congruence.
      assert (X : method_from_string s = a) by (apply method_names; [intros ->; exact (U s A)|exact A]). rewrite E in X. subst a. exact (U s A).
    + intros [(n & A & B)|[-> _]]; [|reflexivity]. assert (n = s) as -> by congruence. destruct m; try reflexivity;
      (assert (X : method_from_string s = unset) by exact E; apply method_names in A; [congruence|discriminate]).
  - assert (E : method_from_string s <> unset) by (intros X; rewrite X in V; discriminate V).
    assert (A : In (method_from_string s, s) named) by (apply method_names; [exact E|reflexivity]). split.
    + intros <-. left. exists s. split; [exact A|reflexivity].
    + intros [(n & B & C)|[_ X]]; [|exfalso; apply X; exists (method_from_string s), s; split; [exact A|reflexivity]].
      assert (n = s) as -> by congruence. apply method_names; [intros ->; exact (U s B)|exact B].
Qed.
Lemma notify_accepted j : notify_valid j = true <->
  exists n p, is_notification j mining_notify n /\ says_notify n p /\ nt_digest p <> zero_digest /\ (forall d, In (Some d) (nt_path p) -> d <> zero_digest) /\
    expand (nt_target p) <> 0 /\ nt_now p <> 0.
Proof.
  assert (F : forall p, notify_params_valid p = true <-> nt_digest p <> zero_digest /\ (forall d, In (Some d) (nt_path p) -> d <> zero_digest) /\ expand (nt_target p) <> 0 /\ nt_now p <> 0).
  { intros p. assert (D : forall d, digest_valid d = true <-> d <> zero_digest).
    { intros d. unfold digest_valid. rewrite negb_true_iff. split; [intros E ->; rewrite (proj2 (bytes_eqb_eq zero_digest zero_digest) eq_refl) in E; discriminate E|].
      intros N. destruct (bytes_eqb d zero_digest) eqn:E; [|reflexivity]. apply bytes_eqb_eq in E. contradiction. }
    unfold notify_params_valid, digests_valid, compact_valid. rewrite !andb_true_iff, D, forallb_forall, !negb_true_iff, !N.eqb_neq. split.
    - intros (((A & B) & C) & E). split; [exact A|]. split; [|split; assumption]. intros d X. apply D. exact (B (Some d) X).
    - intros (A & B & C & E). split; [|exact E]. split; [|exact C]. split; [exact A|]. intros [d|] X; [|reflexivity]. apply D. exact (B d X). }
  unfold notify_valid. rewrite !andb_true_iff. split.
  - intros ((V & M) & P). exists (msg_params j), (notify_read (msg_params j)). split.
    + apply notification_exact. split; [exact V|]. split; [destruct (msg_method j); (discriminate M || reflexivity)|reflexivity].
    + split; [|exact (proj1 (F _) P)]. destruct (notify_or_none (msg_params j)) as [X|X]; [|exact X]. rewrite X in P. discriminate P.
  - intros (n & p & K & Y & P). apply notification_exact in K. destruct K as (V & M & L). rewrite M, L, (notify_says _ _ Y). split; [split; [exact V|reflexivity]|]. apply F. exact P.
Qed.
Lemma authorize_accepted j : authorize_valid j = true <-> exists u, member "params" j (JArray [JString u]) \/ exists p, member "params" j (JArray [JString u; JString p]).
Proof.
  unfold authorize_valid. split.
  - intros E. assert (N : msg_params j <> []) by (intros X; rewrite X in E; discriminate E). destruct (proj1 (any_params j _) eq_refl) as [X|[X _]]; [|contradiction].
    destruct (msg_params j) as [|[| | | | |u| |] [|[| | | | |p| |] [|]]]; try discriminate E; exists u; [left|right; exists p]; exact X.
  - intros (u & [X|(p & X)]); rewrite (proj2 (any_params j _) (or_introl X)); reflexivity.
Qed.
