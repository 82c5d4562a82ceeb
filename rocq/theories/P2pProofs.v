From Coq Require Import Lia ZifyBool ZifyNat ZifyN.
From Verif Require Import Base BaseProofs WireModel WireSpec WireProofs P2pModel P2pSpec.
Local Open Scope N_scope.

Lemma nth_skipn {A} n (l : list A) k d : nth k (skipn n l) d = nth (n + k) l d.
Proof. revert l. induction n as [|n IH]; intros l; [reflexivity|]. destruct l as [|x l]; [destruct k; reflexivity|]. cbn [skipn Nat.add nth]. apply IH. Qed.
Lemma len_le k n : len (le k n) = N.of_nat k.
Proof. unfold len. now rewrite le_length. Qed.
Lemma len_be k n : len (be k n) = N.of_nat k.
Proof. unfold len. now rewrite be_length. Qed.
Lemma len_sle k z : len (sle k z) = N.of_nat k.
Proof. unfold sle. apply len_le. Qed.

(* ---------------------------------------------------------------- commands *)
Lemma fill_spec x : forall i a, length a = 12%nat -> (i <= 12)%nat -> (forall j, (i <= j < 12)%nat -> nth j a x00 = x00) ->
  forall name rest, x = name ++ x00 :: rest -> no_zero name ->
  command_fill i x a = if (12 <? i + length name)%nat then Undef else Ret (firstn i a ++ name ++ repeat x00 (12 - i - length name)).
Proof.
  induction x as [|c x IH]; intros i a La Li Z name rest E Nz; [destruct name; discriminate|].
  destruct name as [|d name]; cbn [app length] in *.
  - assert (c = x00) by congruence. subst c. cbn [command_fill]. change (Byte.eqb x00 x00) with true. cbn match.
    replace (12 <? i + 0)%nat with false by lia. f_equal. rewrite <- (firstn_skipn i a) at 1. f_equal. rewrite Nat.sub_0_r.
    apply nth_ext with (d := x00) (d' := x00); [rewrite skipn_length, repeat_length; lia|].
    intros n Hn. rewrite skipn_length in Hn. rewrite nth_repeat, nth_skipn. apply Z. lia.
  - assert (c = d) by congruence. subst d. assert (Ex : x = name ++ x00 :: rest) by congruence.
    assert (Nc : c <> x00) by (intros ->; apply Nz; left; reflexivity). cbn [command_fill].
    destruct (Byte.eqb c x00) eqn:Ec; [apply Byte.byte_dec_bl in Ec; contradiction|].
    destruct (i <? 12)%nat eqn:Ei.
    + assert (Lf : length (firstn i a) = i) by (rewrite firstn_length; lia).
      set (a' := firstn i a ++ c :: skipn (S i) a). assert (La' : length a' = 12%nat) by (unfold a'; rewrite app_length; cbn [length]; rewrite Lf, skipn_length; lia).
      rewrite (IH (S i) a' La') with (name := name) (rest := rest); [|lia| |assumption|intros Hin; apply Nz; right; exact Hin].
      * replace (S i + length name)%nat with (i + S (length name))%nat by lia. destruct (12 <? i + S (length name))%nat eqn:El; [reflexivity|]. f_equal.
        assert (F : firstn (S i) a' = firstn i a ++ [c]).
        { unfold a'. rewrite firstn_app, Lf, firstn_firstn. replace (Nat.min (S i) i) with i by lia. replace (S i - i)%nat with 1%nat by lia. reflexivity. }
        rewrite F, <- app_assoc. cbn [app]. do 4 f_equal. lia.
      * intros j Hj. unfold a'. rewrite app_nth2 by lia. rewrite Lf. destruct (j - i)%nat as [|k] eqn:Ek; [lia|]. cbn [nth]. rewrite nth_skipn. apply Z. lia.
    + replace (12 <? i + S (length name))%nat with true by lia. reflexivity.
Qed.
Theorem command_exact name rest : no_zero name ->
  command_of (name ++ x00 :: rest) = if 12 <? len name then Undef else Ret (name ++ repeat x00 (12 - length name)).
Proof.
  intros Nz. unfold command_of. rewrite (fill_spec _ 0 (repeat x00 12)) with (name := name) (rest := rest); try reflexivity; try assumption; [|lia|].
  - unfold len. cbn [Nat.add firstn app]. rewrite Nat.sub_0_r. destruct (12 <? length name)%nat eqn:E; [replace (12 <? N.of_nat (length name)) with true by lia|replace (12 <? N.of_nat (length name)) with false by lia]; reflexivity.
  - intros j Hj. apply nth_repeat.
Qed.
Lemma unterminated x : forall i a, no_zero x -> command_fill i x a = Undef.
Proof.
  induction x as [|c x IH]; intros i a N; [reflexivity|]. cbn [command_fill]. destruct (Byte.eqb c x00) eqn:E.
  - apply Byte.byte_dec_bl in E. exfalso. apply N. left. assumption.
  - destruct (i <? 12)%nat; [|reflexivity]. apply IH. intros H. apply N. right. assumption.
Qed.
Lemma first_zero (x : bytes) : no_zero x \/ exists name rest, x = name ++ x00 :: rest /\ no_zero name.
Proof.
  induction x as [|c x [IH|(n & r & E & N)]]; [left; intros []| |]; (destruct (Byte.byte_eq_dec c x00) as [->|D]; [right; exists []|]).
  - exists x. split; [reflexivity|intros []].
  - left. intros [H|H]; [congruence|contradiction].
  - exists x. split; [reflexivity|intros []].
  - right. exists (c :: n), r. split; [subst; reflexivity|]. intros [H|H]; [congruence|contradiction].
Qed.
Theorem command_iff x c : command_of x = Ret c <-> exists name rest, x = name ++ x00 :: rest /\ no_zero name /\ padded name c.
Proof.
  split.
  - intros E. destruct (first_zero x) as [N|(name & rest & -> & N)]; [unfold command_of in E; rewrite unterminated in E by assumption; discriminate|].
    exists name, rest. split; [reflexivity|]. split; [assumption|]. rewrite command_exact in E by assumption. destruct (12 <? len name) eqn:L; [discriminate|].
    assert (c = name ++ repeat x00 (12 - length name)) by congruence. subst c. unfold len in *. split; [|eauto]. unfold len. rewrite app_length, repeat_length. lia.
  - intros (name & rest & -> & N & L & z & ->). unfold len in L. rewrite app_length, repeat_length in L. rewrite command_exact by assumption.
    unfold len. replace (12 <? N.of_nat (length name)) with false by lia. do 3 f_equal. lia.
Qed.
Lemma no_zero_pad : forall (a b : bytes) m n, no_zero a -> no_zero b -> a ++ repeat x00 m = b ++ repeat x00 n -> a = b.
Proof.
  induction a as [|x a IH]; intros [|y b] m n A B E; cbn [app] in E.
  - reflexivity.
  - exfalso. destruct m; [discriminate|]. apply B. cbn [repeat] in E. left. congruence.
  - exfalso. destruct n; [discriminate|]. apply A. cbn [repeat] in E. left. congruence.
  - assert (x = y) by congruence. subst y. f_equal. apply (IH b m n); [intros H; apply A; right; assumption|intros H; apply B; right; assumption|congruence].
Qed.
Theorem command_names a b ra rb c : no_zero a -> no_zero b -> command_of (a ++ x00 :: ra) = Ret c -> command_of (b ++ x00 :: rb) = Ret c -> a = b.
Proof.
  intros A B. rewrite !command_exact by assumption. destruct (12 <? len a); [discriminate|]. destruct (12 <? len b); [discriminate|]. intros E F.
  apply (no_zero_pad a b (12 - length a) (12 - length b)); [assumption|assumption|congruence].
Qed.

(* ---------------------------------------------------------------- addresses *)
Lemma endpoint_len e : endpoint_wf e -> len (endpoint_write e) = endpoint_size.
Proof. intros [L _]. unfold endpoint_write. rewrite len_app, L. reflexivity. Qed.
Lemma net_len a : net_address_wf a -> len (net_address_write a) = net_address_size.
Proof. intros [_ W]. unfold net_address_write. rewrite len_app, (endpoint_len _ W). reflexivity. Qed.
Theorem address_sizes a seen : net_address_wf a ->
  len (endpoint_write (na_endpoint a)) = endpoint_size /\ len (net_address_write a) = net_address_size /\ len (seen_write a seen) = seen_size.
Proof. intros W. split; [apply endpoint_len, W|]. split; [apply net_len, W|]. unfold seen_write. rewrite len_app, (net_len _ W). reflexivity. Qed.

Theorem order_exact a b : endpoint_wf a -> endpoint_wf b ->
  (endpoint_compare a b = Eq <-> a = b) /\ (endpoint_eqb a b = true <-> a = b) /\ endpoint_compare b a = CompOpp (endpoint_compare a b).
Proof.
  destruct a as [i p], b as [j q]. intros [La _] [Lb _]. unfold endpoint_compare, endpoint_eqb. cbn [ep_ip ep_port] in *. unfold len in *.
  assert (Q : le_val i = le_val j <-> i = j). { split; [|congruence]. intros E. apply le_val_inj; [lia|assumption]. }
  split; [|split].
  - destruct (le_val i ?= le_val j) eqn:C; [|split; [discriminate|]..].
    + apply N.compare_eq in C. apply Q in C. subst j. rewrite N.compare_eq_iff. split; [intros ->; reflexivity|congruence].
    + intros E. assert (i = j) by congruence. apply Q in H. rewrite H, N.compare_refl in C. discriminate.
    + intros E. assert (i = j) by congruence. apply Q in H. rewrite H, N.compare_refl in C. discriminate.
  - rewrite Bool.andb_true_iff, bytes_eqb_eq, N.eqb_eq. split; [intros [-> ->]; reflexivity|intros E; split; congruence].
  - rewrite (N.compare_antisym (le_val i)). destruct (le_val i ?= le_val j); cbn [CompOpp]; [apply N.compare_antisym|reflexivity|reflexivity].
Qed.
Theorem address_form_exact a : net_address_wf a -> (net_address_form a (net_address_write a) <-> ep_port (na_endpoint a) / 256 = ep_port (na_endpoint a) mod 256).
Proof.
  intros [_ [_ P]]. set (p := ep_port (na_endpoint a)) in *. change (2 ^ 16) with 65536 in P. unfold net_address_form, net_address_write, endpoint_write. fold p.
  assert (Q : le 2 p = be 2 p <-> p / 256 = p mod 256).
  { assert (E : le 2 p = [n2b p; n2b (p / 256)]) by reflexivity. unfold be. rewrite E. cbn [rev app]. split.
    - intros F. assert (G : n2b p = n2b (p / 256)) by congruence. apply (f_equal b2n) in G. rewrite !b2n_n2b in G. rewrite (N.mod_small (p / 256)) in G; [congruence|].
      apply N.div_lt_upper_bound; lia.
    - intros F. assert (G : n2b p = n2b (p / 256)).
      { apply b2n_inj. rewrite !b2n_n2b. rewrite (N.mod_small (p / 256)); [congruence|]. apply N.div_lt_upper_bound; lia. }
      rewrite G. reflexivity. }
  rewrite <- Q. split; [|congruence]. intros E. apply app_inv_head in E. apply app_inv_head in E. exact E.
Qed.
Theorem endpoint_exact addr port : (endpoint_of addr port = Undef <-> exists b, addr = Some b /\ 16 < len b) /\
  (forall b, len b <= 16 -> exists e, endpoint_of (Some b) port = Ret e /\ len (ep_ip e) = 16 /\ ep_port e = port /\ exists z, ep_ip e = repeat x00 z ++ b).
Proof.
  split.
  - unfold endpoint_of. destruct addr as [b|]; [|split; [discriminate|intros (b & E & _); discriminate]].
    destruct (16 <? len b) eqn:E; split; try discriminate; try reflexivity.
    + intros _. exists b. split; [reflexivity|lia].
    + intros (b' & Eb & L). assert (b' = b) by congruence. subst. lia.
  - intros b L. unfold endpoint_of. replace (16 <? len b) with false by lia. eexists. split; [reflexivity|]. cbn [ep_ip ep_port]. unfold len in *.
    split; [rewrite app_length, repeat_length; lia|]. eauto.
Qed.
Theorem ipv4_refuted ip port e : len ip = 4 -> endpoint_of (Some ip) port = Ret e -> ep_ip e <> mapped ip.
Proof.
  intros L E. unfold endpoint_of in E. replace (16 <? len ip) with false in E by lia.
  match type of E with Ret ?z = _ => assert (e = z) by congruence end. subst e. cbn [ep_ip]. unfold len in L. replace (16 - length ip)%nat with 12%nat by lia.
  unfold mapped. cbn [repeat app]. congruence.
Qed.

(* ---------------------------------------------------------------- version messages *)
Lemma version0_len m : vmessage_wf m -> len (version0_write m) = 42.
Proof. intros (_ & _ & _ & W & _). unfold version0_write. rewrite !len_app, (net_len _ W), !len_le, len_sle. reflexivity. Qed.
Lemma more_len m : vmessage_wf m ->
  len (net_address_write (vm_from m) ++ le 4 (vm_nonce m) ++ var_string_write (vm_agent m) ++ sle 4 (vm_height m)) = 34 + var_string_size (len (vm_agent m)).
Proof.
  intros (_ & _ & _ & _ & W & _). rewrite !len_app, (net_len _ W), !len_le, len_sle.
  rewrite (proj1 (proj2 (proj2 (proj2 (proj2 (proj2 sizes_exact)))))). change net_address_size with 26. change (N.of_nat 4) with 4. lia.
Qed.
Theorem version_lengths m : vmessage_wf m ->
  len (version0_write m) = 42 /\
  len (version106_write m) = (if (vm_version m <=? 105)%Z then 42 else 76 + var_string_size (len (vm_agent m))) /\
  len (version_write m) = (if (vm_version m <=? 105)%Z then 42 else if (vm_version m <=? 70000)%Z then 76 + var_string_size (len (vm_agent m))
                           else 77 + var_string_size (len (vm_agent m))).
Proof.
  intros W. pose proof (version0_len m W) as L0. pose proof (more_len m W) as L1.
  assert (L2 : len (version106_write m) = if (vm_version m <=? 105)%Z then 42 else 76 + var_string_size (len (vm_agent m))).
  { unfold version106_write. destruct (vm_version m <=? 105)%Z; rewrite len_app, L0; [reflexivity|]. rewrite L1. lia. }
  split; [assumption|]. split; [assumption|]. unfold version_write. rewrite len_app, L2.
  destruct (vm_version m <=? 105)%Z eqn:E1, (vm_version m <=? 70000)%Z eqn:E2; try lia; change (len []) with 0; change (len [vm_relay m]) with 1; lia.
Qed.
Theorem version_sizes_refuted m : vmessage_wf m ->
  len (version0_write m) <> version0_size m /\ len (version106_write m) <> version106_size m /\ len (version_write m) <> version_size m.
Proof.
  intros W. destruct (version_lengths m W) as (A & B & C). rewrite A, B, C. unfold version0_size, version106_size, version_size.
  split; [lia|]. split; [destruct (vm_version m <=? 105)%Z; lia|]. destruct (vm_version m <=? 105)%Z; [lia|]. destruct (vm_version m <=? 70000)%Z; lia.
Qed.

Lemma count_size n c : count_form n c -> var_int_size n <= len c.
Proof.
  intros C. unfold var_int_size. destruct C as [b E L|c [L E]|c [L E]|c [L E]].
  - replace (n <=? 252) with true by lia. reflexivity.
  - pose proof (le_val_bound c) as B. rewrite L, E in B. change (pow256 2) with 65536 in B. unfold len. cbn [length]. rewrite L.
    destruct (n <=? 252); [lia|]. replace (n <=? 65535) with true by lia. lia.
  - pose proof (le_val_bound c) as B. rewrite L, E in B. change (pow256 4) with 4294967296 in B. unfold len. cbn [length]. rewrite L.
    destruct (n <=? 252); [lia|]. destruct (n <=? 65535); [lia|]. replace (n <=? 4294967295) with true by lia. lia.
  - unfold len. cbn [length]. rewrite L. destruct (n <=? 252); [lia|]. destruct (n <=? 65535); [lia|]. destruct (n <=? 4294967295); lia.
Qed.
Theorem protocol_refuted m : vmessage_wf m -> ~ version_form m (version_write m).
Proof.
  intros W (a & Ea & F). pose proof (proj2 (proj2 (version_lengths m W))) as L. destruct W as (_ & _ & _ & [_ [Wr _]] & [_ [Wf _]] & _).
  assert (La : len a = 26) by (rewrite Ea, !len_app, Wr, len_le, len_be; reflexivity).
  destruct F as [[V E]|[V (f & s & Ef & Es & E)]]; rewrite E in L.
  - rewrite !len_app, len_sle, !len_le, La in L. replace (vm_version m <=? 105)%Z with true in L by lia. discriminate.
  - assert (Lf : len f = 26) by (rewrite Ef, !len_app, Wf, len_le, len_be; reflexivity).
    assert (Ls : var_string_size (len (vm_agent m)) <= len s). { destruct Es as [c C]. rewrite len_app. apply count_size in C. unfold var_string_size. lia. }
    rewrite !len_app, !len_sle, !len_le, La, Lf in L. replace (vm_version m <=? 105)%Z with false in L by lia. change (N.of_nat 4) with 4 in L. change (N.of_nat 8) with 8 in L.
    destruct (vm_version m <=? 70000)%Z eqn:V2; [lia|]. replace (70001 <=? vm_version m)%Z with true in L by lia. change (len [vm_relay m]) with 1 in L. lia.
Qed.

Lemma net_inj a b : net_address_wf a -> net_address_wf b -> net_address_write a = net_address_write b -> a = b.
Proof.
  destruct a as [s [i p]], b as [s' [i' p']]. intros (S1 & L1 & P1) (S2 & L2 & P2) E. unfold net_address_write, endpoint_write in E. cbn [na_service na_endpoint ep_ip ep_port] in *.
  unfold len in *. apply app_inj_len in E as [E1 E]; [|rewrite !le_length; reflexivity]. apply app_inj_len in E as [E2 E3]; [|lia].
  apply le_inj in E1; [|assumption|assumption]. apply le_inj in E3; [|assumption|assumption]. congruence.
Qed.
Lemma sle4_inj a b : i32 a -> i32 b -> sle 4 a = sle 4 b -> a = b.
Proof. intros A B E. apply (f_equal sle_val) in E. rewrite !sle_val_sle in E by (apply i32_srange; assumption). assumption. Qed.
Lemma version0_inj m n x y : vmessage_wf m -> vmessage_wf n -> version0_write m ++ x = version0_write n ++ y ->
  vm_version m = vm_version n /\ vm_services m = vm_services n /\ vm_timestamp m = vm_timestamp n /\ vm_receive m = vm_receive n /\ x = y.
Proof.
  intros Wm Wn E. pose proof (version0_len m Wm) as Lm. pose proof (version0_len n Wn) as Ln. unfold len in *.
  apply app_inj_len in E as [E E']; [|lia]. destruct Wm as (M1 & M2 & M3 & M4 & _), Wn as (N1 & N2 & N3 & N4 & _). unfold version0_write in E.
  apply app_inj_len in E as [E1 E]; [|unfold sle; rewrite !le_length; reflexivity].
  apply app_inj_len in E as [E2 E]; [|rewrite !le_length; reflexivity]. apply app_inj_len in E as [E3 E]; [|rewrite !le_length; reflexivity].
  split; [apply sle4_inj; assumption|]. split; [apply (le_inj 8); assumption|]. split; [apply (le_inj 4); assumption|]. split; [apply net_inj; assumption|assumption].
Qed.
Theorem version_determined m n : vmessage_wf m -> vmessage_wf n -> (version_write m = version_write n <-> same_message m n).
Proof.
  intros Wm Wn. split.
  - intros E. unfold version_write, version106_write in E. rewrite <- !app_assoc in E. destruct (version0_inj m n _ _ Wm Wn E) as (V & A & B & C & R).
    rewrite <- V in R. destruct Wm as (_ & _ & _ & _ & M1 & M2 & M3 & M4), Wn as (_ & _ & _ & _ & N1 & N2 & N3 & N4).
    destruct (vm_version m <=? 105)%Z eqn:E1.
    + constructor; try assumption; intros; lia.
    + rewrite <- !app_assoc in R. apply app_inj_len in R as [R1 R]; [|pose proof (net_len _ M1); pose proof (net_len _ N1); unfold len in *; lia].
      apply app_inj_len in R as [R2 R]; [|rewrite !le_length; reflexivity].
      destruct (codec_inj _ _ _ _ _ _ _ codec_var_string M3 N3 R) as [R3 R0]. clear R. rename R0 into R.
      apply app_inj_len in R as [R4 R]; [|unfold sle; rewrite !le_length; reflexivity].
      constructor; try assumption.
      * intros _. split; [apply net_inj; assumption|]. split; [apply (le_inj 4); assumption|]. split; [assumption|apply sle4_inj; assumption].
      * intros L. replace (vm_version m <=? 70000)%Z with false in R by lia. congruence.
  - intros [V A B C D F]. unfold version_write, version106_write, version0_write. rewrite <- V, <- A, <- B, <- C.
    destruct (vm_version m <=? 105)%Z eqn:E1; destruct (vm_version m <=? 70000)%Z eqn:E2; try lia.
    + reflexivity.
    + destruct D as (<- & <- & <- & <-); [lia|]. reflexivity.
    + destruct D as (<- & <- & <- & <-); [lia|]. rewrite F by lia. reflexivity.
Qed.
