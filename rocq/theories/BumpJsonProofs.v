(* Proofs about the JSON form of BUMPs. *)
From Coq Require Import String Lia ZifyBool ZifyNat ZifyN Permutation.
From Verif Require Import Base BaseProofs WireModel WireSpec MerkleModel TextModel TextSpec JsonModel TscModel TscSpec TscJsonProofs BumpModel BumpSpec BumpProofs BumpJsonModel BumpJsonSpec.
Local Open Scope list_scope.
Local Open Scope N_scope.

Section Each.
Context {A B : Type} (f : A -> outcome unit B).
Lemma each_ret l ys : each f l = Ret ys <-> Forall2 (fun x y => f x = Ret y) l ys.
Proof.
  revert ys. induction l as [|x l IH]; intros ys; cbn [each].
  - split; [intros E; assert (ys = []) as -> by congruence; constructor|intros F; inversion F; reflexivity].
  - split.
    + destruct (f x) as [y| |] eqn:E; cbn [and_then]; try discriminate. destruct (each f l) as [zs| |] eqn:F; cbn [and_then]; try discriminate.
      intros X. assert (ys = y :: zs) as -> by congruence. constructor; [exact E|]. apply IH. reflexivity.
    + intros F. inversion F as [|x' y l' zs E F' E1 E2]; subst. rewrite E. cbn [and_then]. apply IH in F'. rewrite F'. reflexivity.
Qed.
Lemma each_undef l : each f l = Undef <-> exists a x r, l = a ++ x :: r /\ Forall (fun y => exists z, f y = Ret z) a /\ f x = Undef.
Proof.
  induction l as [|x l IH]; cbn [each].
  - split; [discriminate|]. intros (a & x & r & E & _). destruct a; discriminate.
  - split.
    + destruct (f x) as [y| |] eqn:E; cbn [and_then]; try discriminate.
      * destruct (each f l) as [zs| |] eqn:F; cbn [and_then]; try discriminate. intros _. destruct (proj1 IH eq_refl) as (a & x' & r & -> & G & U).
        exists (x :: a), x', r. split; [reflexivity|]. split; [constructor; [eauto|exact G]|exact U].
      * intros _. exists [], x, l. split; [reflexivity|]. split; [constructor|exact E].
    + intros (a & x' & r & E & G & U). destruct a as [|y a]; cbn [app] in E.
      * assert (x' = x) as -> by congruence. rewrite U. reflexivity.
      * assert (y = x) as -> by congruence. assert (l = a ++ x' :: r) as El by congruence. inversion G as [|y' a' [z Z] G' E1]; subst. rewrite Z. cbn [and_then].
        rewrite (proj2 IH); [reflexivity|]. exists a, x', r. auto.
Qed.
End Each.

Section BumpJson.
Variable u2 : bool.
Variable odd : bytes -> option digest.
Variable fl : N -> option N.
Variable below : N -> bool.
Variable ins : forall A, (A -> N) -> A -> list A -> list A.

(* ---------------------------------------------------------------- reading *)
Lemma as_u64_exact v n : as_u64 fl v = Ret n <-> number_says fl v n.
Proof.
  unfold number_says. split.
  - destruct v as [|b|z|m|f|s|l|o]; cbn [as_u64]; try discriminate.
    + intros E. right. left. exists z. split; [reflexivity|congruence].
    + intros E. left. congruence.
    + destruct (fl f) as [m|] eqn:F; [|discriminate]. intros E. right. right. exists f. split; [reflexivity|congruence].
  - intros [->|[(z & -> & ->)|(f & -> & E)]]; cbn [as_u64]; [reflexivity|reflexivity|]. rewrite E. reflexivity.
Qed.
Lemma as_u64_undef v : as_u64 fl v = Undef <-> exists f, v = JFloat f /\ fl f = None.
Proof.
  split.
  - destruct v as [|b|z|m|f|s|l|o]; cbn [as_u64]; try discriminate. destruct (fl f) as [m|] eqn:F; [discriminate|]. eauto.
  - intros (f & -> & E). cbn [as_u64]. rewrite E. reflexivity.
Qed.
Lemma set_in_yes k o : set_in k (JObject o) = Ret true <-> says_yes k o.
Proof. unfold set_in, says_yes. cbn [j_get]. destruct (obj_find k o) as [[|[|]| | | | | |]|]; cbn [as_bool]; split; congruence. Qed.
Lemma set_in_no k o : set_in k (JObject o) = Ret false <-> says_no k o.
Proof.
  unfold set_in, says_no. cbn [j_get]. destruct (obj_find k o) as [[|[|]| | | | | |]|]; cbn [as_bool]; split; try congruence; auto; intros [E|E]; congruence.
Qed.
Lemma set_in_defined k j : set_in k j <> Undef.
Proof. unfold set_in. destruct (j_get k j) as [[|[|]| | | | | |]|]; cbn [as_bool]; discriminate. Qed.
Lemma hash_exact o d : and_then (and_then (at_key k_hash (JObject o)) as_text) (read_digest odd) = Ret d <->
  exists s, obj_find k_hash o = Some (JString s) /\ digest_says odd s d.
Proof.
  cbn [at_key]. split.
  - destruct (obj_find k_hash o) as [v|]; cbn [and_then]; [|discriminate]. destruct v as [| | | | |s| |]; cbn [as_text and_then]; try discriminate.
    intros E. exists s. split; [reflexivity|]. apply read_digest_exact. exact E.
  - intros (s & -> & D). cbn [and_then as_text]. apply read_digest_exact. exact D.
Qed.
Lemma hash_undef o : and_then (and_then (at_key k_hash (JObject o)) as_text) (read_digest odd) = Undef <-> obj_find k_hash o = None.
Proof.
  cbn [at_key]. destruct (obj_find k_hash o) as [v|]; cbn [and_then]; [|split; reflexivity]. split; [|discriminate].
  destruct v as [| | | | |s| |]; cbn [as_text and_then]; try discriminate. destruct (read_digest_total odd s) as [[d ->]| ->]; discriminate.
Qed.
Lemma node_read_exact j n : node_of_json odd fl j = Ret n <-> node_says_json odd fl j n.
Proof.
  unfold node_says_json. change (text "offset") with k_offset. change (text "duplicate") with k_duplicate. change (text "hash") with k_hash. change (text "txid") with k_txid. split.
  - unfold node_of_json. destruct (j_get k_offset j) as [v|] eqn:O; [|discriminate]. destruct j as [| | | | | | |o]; try discriminate O. cbn [j_get] in O.
    destruct (as_u64 fl v) as [off| |] eqn:U; cbn [and_then]; try discriminate. apply as_u64_exact in U.
    destruct (set_in k_duplicate (JObject o)) as [[|]| |] eqn:D; cbn [and_then]; try discriminate.
    + intros E. assert (n = dup_node off) as -> by congruence. exists o, v. split; [reflexivity|]. split; [exact O|]. split; [exact U|]. left. apply set_in_yes in D. auto.
    + destruct (and_then (and_then (at_key k_hash (JObject o)) as_text) (read_digest odd)) as [d| |] eqn:Hh; cbn [and_then]; try discriminate.
      destruct (set_in k_txid (JObject o)) as [c| |] eqn:C; cbn [and_then]; try discriminate. intros E. apply hash_exact in Hh. destruct Hh as (s & S & Ds). apply set_in_no in D.
      assert (n = mknode off (if c then flag_client else flag_intermediate) (Some d)) as -> by congruence. exists o, v. split; [reflexivity|]. split; [exact O|]. split; [exact U|].
      right. split; [exact D|]. exists s, d. split; [exact S|]. split; [exact Ds|]. split; [reflexivity|]. destruct c; [left; apply set_in_yes in C|right; apply set_in_no in C]; auto.
  - intros (o & v & -> & O & U & X). unfold node_of_json. cbn [j_get]. rewrite O. apply as_u64_exact in U. rewrite U. cbn [and_then]. destruct n as [off f dg]. cbn [n_offset n_flag n_digest] in *.
    destruct X as [(D & -> & ->)|(D & s & d & S & Ds & -> & X)].
    + apply set_in_yes in D. rewrite D. reflexivity.
    + apply set_in_no in D. rewrite D. cbn [and_then]. rewrite (proj2 (hash_exact o d)) by eauto. cbn [and_then].
      destruct X as [(C & ->)|(C & ->)]; [apply set_in_yes in C|apply set_in_no in C]; rewrite C; reflexivity.
Qed.
Lemma node_read_undef j : node_of_json odd fl j = Undef <-> node_bad fl j.
Proof.
  unfold node_bad. change (text "offset") with k_offset. change (text "duplicate") with k_duplicate. change (text "hash") with k_hash. split.
  - unfold node_of_json. destruct (j_get k_offset j) as [v|] eqn:O; [|discriminate]. destruct j as [| | | | | | |o]; try discriminate O. cbn [j_get] in O.
    destruct (as_u64 fl v) as [off| |] eqn:U; cbn [and_then]; try discriminate.
    + destruct (set_in k_duplicate (JObject o)) as [[|]| |] eqn:D; cbn [and_then]; try discriminate; [|intros _; destruct (set_in_defined _ _ D)].
      destruct (and_then (and_then (at_key k_hash (JObject o)) as_text) (read_digest odd)) as [d| |] eqn:Hh; cbn [and_then]; try discriminate.
      * destruct (set_in k_txid (JObject o)) as [c| |] eqn:C; cbn [and_then]; try discriminate. intros _. destruct (set_in_defined _ _ C).
      * intros _. apply hash_undef in Hh. apply set_in_no in D. apply as_u64_exact in U. exists o, v. split; [reflexivity|]. split; [exact O|]. right. eauto.
    + intros _. apply as_u64_undef in U. exists o, v. split; [reflexivity|]. split; [exact O|]. left. exact U.
  - intros (o & v & -> & O & X). unfold node_of_json. cbn [j_get]. rewrite O. destruct X as [X|((n & U) & D & Hh)].
    + apply as_u64_undef in X. rewrite X. reflexivity.
    + apply as_u64_exact in U. apply set_in_no in D. apply hash_undef in Hh. rewrite U. cbn [and_then]. rewrite D. cbn [and_then]. rewrite Hh. reflexivity.
Qed.

Lemma Forall2_swap {A B} (P Q : A -> B -> Prop) l m : (forall x y, P x y <-> Q x y) -> Forall2 P l m <-> Forall2 Q l m.
Proof. intros E. split; (induction 1; constructor; [apply E; assumption|assumption]). Qed.
Lemma Forall2_rev' {A B} (P : A -> B -> Prop) l m : Forall2 P l m -> Forall2 P (rev l) (rev m).
Proof. induction 1 as [|x y l m E F IH]; cbn [rev]; [constructor|]. apply Forall2_app; [exact IH|]. constructor; [exact E|constructor]. Qed.
Lemma level_read_exact j l : level_of_json odd fl ins j = Ret l <-> level_says odd fl ins j l.
Proof.
  unfold level_of_json, level_says. split.
  - destruct (each (node_of_json odd fl) (rev (elements j))) as [ns| |] eqn:E; cbn [and_then]; try discriminate. intros X. assert (l = insert_all ins ns) as -> by congruence.
    apply each_ret in E. exists (rev ns). rewrite rev_involutive. split; [|reflexivity]. apply Forall2_rev' in E. rewrite rev_involutive in E. revert E. apply Forall2_swap. intros x y. symmetry. apply node_read_exact.
  - intros (ns & F & ->). apply Forall2_rev' in F. assert (E : each (node_of_json odd fl) (rev (elements j)) = Ret (rev ns)).
    { apply each_ret. revert F. apply Forall2_swap. intros x y. apply node_read_exact. }
    rewrite E. reflexivity.
Qed.
Lemma height_ok_exact h : height_ok below h = true <-> (exists n, h = JUint n) \/ (exists z, h = JInt z /\ (0 <= z)%Z) \/ (exists f, h = JFloat f /\ below f = false).
Proof.
  split.
  - destruct h as [|b|z|m|f|s|l|o]; cbn [height_ok]; try discriminate; intros E.
    + right. left. exists z. split; [reflexivity|lia].
    + left. eauto.
    + right. right. exists f. split; [reflexivity|]. destruct (below f); [discriminate|reflexivity].
  - intros [(n & ->)|[(z & -> & L)|(f & -> & E)]]; cbn [height_ok]; [reflexivity|lia|rewrite E; reflexivity].
Qed.
Lemma bump_read_json_exact j b : bump_of_json odd fl below ins j = Ret b <-> bump_says odd fl below ins j b.
Proof.
  unfold bump_says. change (text "path") with k_path. change (text "blockHeight") with k_height. split.
  - unfold bump_of_json. destruct (j_get k_path j) as [p|] eqn:P; [|discriminate]. destruct j as [| | | | | | |o]; try discriminate P. cbn [j_get] in *.
    destruct (obj_find k_height o) as [h|] eqn:Hh; [|discriminate]. destruct (height_ok below h) eqn:Ok; [|discriminate]. destruct p as [| | | | | |l|]; cbn [path_of_json and_then]; try discriminate.
    destruct l as [|x l]; cbn [and_then]; [discriminate|]. destruct (each (level_of_json odd fl ins) (x :: l)) as [q| |] eqn:E; cbn [and_then]; try discriminate.
    destruct (as_u64 fl h) as [n| |] eqn:U; cbn [and_then]; try discriminate. intros X. assert (b = mkbump n q) as -> by congruence.
    exists o, (x :: l), h. split; [reflexivity|]. split; [exact P|]. split; [discriminate|]. split.
    { apply each_ret in E. revert E. apply Forall2_swap. intros a c. symmetry. apply level_read_exact. }
    split; [exact Hh|]. split; [apply as_u64_exact; exact U|]. apply height_ok_exact in Ok.
    split; [intros z ->|intros f ->]; destruct Ok as [(m & Ok)|[(z' & Ok & L)|(f' & Ok & L)]]; try discriminate Ok; congruence.
  - intros (o & p & h & -> & P & Ne & F & Hh & U & Z & Fl). unfold bump_of_json. cbn [j_get]. rewrite P, Hh.
    assert (Ok : height_ok below h = true).
    { apply height_ok_exact. destruct U as [->|[(z & -> & _)|(f & -> & _)]]; [left; eauto|right; left; eauto|right; right; eauto]. }
    rewrite Ok. destruct p as [|x l]; [congruence|]. cbn [path_of_json]. assert (E : each (level_of_json odd fl ins) (x :: l) = Ret (bp_path b)).
    { apply each_ret. revert F. apply Forall2_swap. intros a c. apply level_read_exact. }
    rewrite E. cbn [and_then]. apply as_u64_exact in U. rewrite U. cbn [and_then]. destruct b; reflexivity.
Qed.

(* levels one after the other are their nodes one after the other *)
Lemma level_undef k : level_of_json odd fl ins k = Undef <-> each (node_of_json odd fl) (rev (elements k)) = Undef.
Proof. unfold level_of_json. destruct (each (node_of_json odd fl) (rev (elements k))); cbn [and_then]; split; congruence. Qed.
Lemma level_ret k : (exists l, level_of_json odd fl ins k = Ret l) <-> exists ns, each (node_of_json odd fl) (rev (elements k)) = Ret ns.
Proof. unfold level_of_json. destruct (each (node_of_json odd fl) (rev (elements k))); cbn [and_then]; split; intros [x X]; try discriminate X; eauto. Qed.
Lemma each_app {A B} (f : A -> outcome unit B) a b : each f (a ++ b) = and_then (each f a) (fun x => and_then (each f b) (fun y => Ret (x ++ y))).
Proof.
  induction a as [|x a IH]; cbn [app each].
  - destruct (each f b); reflexivity.
  - destruct (f x); cbn [and_then]; try reflexivity. rewrite IH. destruct (each f a); cbn [and_then]; try reflexivity. destruct (each f b); reflexivity.
Qed.
Lemma levels_flat p : match each (level_of_json odd fl ins) p, each (node_of_json odd fl) (reading_order p) with
  | Ret _, Ret _ | Throw _, Throw _ | Undef, Undef => True | _, _ => False end.
Proof.
  unfold reading_order. induction p as [|k p IH]; [exact I|]. cbn [each flat_map]. rewrite each_app. unfold level_of_json at 1.
  destruct (each (node_of_json odd fl) (rev (elements k))); cbn [and_then]; try exact I.
  destruct (each (level_of_json odd fl ins) p), (each (node_of_json odd fl) (flat_map (fun k => rev (elements k)) p)); cbn [and_then]; try exact I; contradiction.
Qed.
Lemma nodes_ret l : (exists ns, each (node_of_json odd fl) l = Ret ns) <-> Forall (fun k => exists n, node_says_json odd fl k n) l.
Proof.
  split.
  - intros [ns E]. apply each_ret in E. induction E as [|x y l m E F IH]; constructor; [|exact IH]. exists y. apply node_read_exact. exact E.
  - intros F. induction F as [|x l [n N] F [ns IH]]; [exists []; reflexivity|]. exists (n :: ns). cbn [each]. apply node_read_exact in N. rewrite N. cbn [and_then]. rewrite IH. reflexivity.
Qed.
Lemma nodes_undef l : each (node_of_json odd fl) l = Undef <-> exists a x r, l = a ++ x :: r /\ Forall (fun k => exists n, node_says_json odd fl k n) a /\ node_bad fl x.
Proof.
  rewrite each_undef. split; intros (a & x & r & E & F & U); exists a, x, r; (split; [exact E|]); (split; [|apply node_read_undef; exact U]); revert F; apply Forall_impl; intros k [n X]; exists n; apply node_read_exact; exact X.
Qed.
Lemma bump_read_undef j : bump_of_json odd fl below ins j = Undef <-> bump_bad odd fl below j.
Proof.
  unfold bump_bad. change (text "path") with k_path. change (text "blockHeight") with k_height. split.
  - unfold bump_of_json. destruct (j_get k_path j) as [p|] eqn:P; [|discriminate]. destruct j as [| | | | | | |o]; try discriminate P. cbn [j_get] in *.
    destruct (obj_find k_height o) as [h|] eqn:Hh; [|discriminate]. destruct (height_ok below h) eqn:Ok; [|discriminate]. destruct p as [| | | | | |l|]; cbn [path_of_json and_then]; try discriminate.
    destruct l as [|x l]; cbn [and_then]; [discriminate|]. intros E. exists o, (x :: l), h. split; [reflexivity|]. split; [exact P|]. split; [discriminate|]. split; [exact Hh|]. split; [exact Ok|].
    pose proof (levels_flat (x :: l)) as L. destruct (each (level_of_json odd fl ins) (x :: l)) as [q| |]; cbn [and_then] in E; try discriminate.
    + right. destruct (each (node_of_json odd fl) (reading_order (x :: l))) as [ns| |] eqn:En; try contradiction. split; [apply nodes_ret; eauto|].
      destruct (as_u64 fl h) as [n| |] eqn:U; cbn [and_then] in E; try discriminate. apply as_u64_undef. exact U.
    + left. destruct (each (node_of_json odd fl) (reading_order (x :: l))) as [ns| |] eqn:En; try contradiction. apply nodes_undef. exact En.
  - intros (o & p & h & -> & P & Ne & Hh & Ok & X). unfold bump_of_json. cbn [j_get]. rewrite P, Hh, Ok. destruct p as [|x l]; [congruence|]. cbn [path_of_json].
    pose proof (levels_flat (x :: l)) as L. destruct X as [X|[F X]].
    + apply nodes_undef in X. rewrite X in L. destruct (each (level_of_json odd fl ins) (x :: l)); try contradiction. reflexivity.
    + apply nodes_ret in F. destruct F as [ns F]. rewrite F in L. destruct (each (level_of_json odd fl ins) (x :: l)); try contradiction. cbn [and_then]. apply as_u64_undef in X. rewrite X. reflexivity.
Qed.

(* ---------------------------------------------------------------- writing *)
Lemma node_json_exact n : node_json u2 n = if node_valid n then Ret (node_object u2 n) else Throw tt.
Proof.
  unfold node_json. destruct (node_valid n) eqn:V; cbn [negb]; [|reflexivity]. unfold node_valid in V. unfold node_object. destruct (n_digest n) as [d|] eqn:D.
  - destruct (is_duplicate n); [discriminate|]. cbv zeta. destruct (is_client n); reflexivity.
  - rewrite V. reflexivity.
Qed.
Lemma level_json_exact l : level_json u2 l = if forallb node_valid l then Ret (JArray (map (node_object u2) l)) else Throw tt.
Proof.
  unfold level_json. assert (E : each (node_json u2) l = if forallb node_valid l then Ret (map (node_object u2) l) else Throw tt).
  { induction l as [|n l IH]; [reflexivity|]. cbn [each forallb map]. rewrite node_json_exact. destruct (node_valid n); cbn [and_then andb]; [|reflexivity]. rewrite IH. destruct (forallb node_valid l); reflexivity. }
  rewrite E. destruct (forallb node_valid l); reflexivity.
Qed.
Lemma bump_json_exact b : bump_json u2 b = if forallb (forallb node_valid) (bp_path b)
  then Ret (JObject [(text "blockHeight", JUint (bp_height b)); (text "path", JArray (map (fun l => JArray (map (node_object u2) l)) (bp_path b)))]) else Throw tt.
Proof.
  unfold bump_json. assert (E : each (level_json u2) (bp_path b) = if forallb (forallb node_valid) (bp_path b) then Ret (map (fun l => JArray (map (node_object u2) l)) (bp_path b)) else Throw tt).
  { induction (bp_path b) as [|n l IH]; [reflexivity|]. cbn [each forallb map]. rewrite level_json_exact. destruct (forallb node_valid n); cbn [and_then andb]; [|reflexivity]. rewrite IH. destruct (forallb (forallb node_valid) l); reflexivity. }
  rewrite E. destruct (forallb (forallb node_valid) (bp_path b)); reflexivity.
Qed.
Lemma object_says n : node_wf n -> node_says_json odd fl (node_object u2 n) (clean_node n).
Proof.
  intros [Wo W]. destruct n as [o f [d|]]; cbn [n_offset n_flag n_digest] in *; unfold node_object, clean_node; cbn [n_offset n_flag n_digest].
  - destruct W as [L Nd]. unfold is_client. cbn [n_flag]. unfold clean_flag. destruct (byte_eqb f flag_duplicate) eqn:Ed; [apply byte_eqb_eq in Ed; congruence|].
    eexists; eexists. split; [reflexivity|]. split; [reflexivity|]. split; [left; reflexivity|]. right. split; [left; destruct (byte_eqb f flag_client); reflexivity|].
    exists (digest_text u2 d), d. split; [reflexivity|]. split; [apply text_says; exact L|]. split; [reflexivity|].
    destruct (byte_eqb f flag_client) eqn:Ec; [left|right].
    + split; [reflexivity|]. cbn [n_flag]. apply byte_eqb_eq in Ec. exact Ec.
    + split; [left; reflexivity|reflexivity].
  - eexists; eexists. split; [reflexivity|]. split; [reflexivity|]. split; [left; reflexivity|]. left. split; [reflexivity|]. split; [|reflexivity]. rewrite W. reflexivity.
Qed.
Lemma clean_offset l : map n_offset (map clean_node l) = map n_offset l.
Proof. rewrite map_map. reflexivity. Qed.
Lemma node_wf_valid n : node_wf n -> node_valid n = true.
Proof.
  intros [_ W]. unfold node_valid, is_duplicate. destruct (n_digest n) as [d|].
  - destruct W as [_ W]. destruct (byte_eqb (n_flag n) flag_duplicate) eqn:E; [apply byte_eqb_eq in E; congruence|reflexivity].
  - rewrite W. reflexivity.
Qed.
Lemma bump_json_back b : ordered_insert ins -> Forall (Forall node_wf) (bp_path b) -> Forall sorted (bp_path b) -> bp_path b <> [] ->
  exists j, bump_json u2 b = Ret j /\ bump_of_json odd fl below ins j = Ret (clean b).
Proof.
  intros Ins W S Ne. rewrite bump_json_exact.
  assert (V : forallb (forallb node_valid) (bp_path b) = true).
  { apply forallb_forall. intros l L. apply forallb_forall. intros n N. rewrite Forall_forall in W. specialize (W l L). rewrite Forall_forall in W. apply node_wf_valid, W, N. }
  rewrite V. eexists. split; [reflexivity|]. apply bump_read_json_exact. eexists; eexists; eexists. split; [reflexivity|]. split; [reflexivity|]. split; [destruct (bp_path b); [congruence|discriminate]|].
  split; [|split; [reflexivity|split; [left; reflexivity|split; discriminate]]].
  cbn [clean bp_path]. clear Ne. induction (bp_path b) as [|l p IH]; cbn [map]; [constructor|]. inversion W as [|l' p' Wl Wp E1]; subst. inversion S as [|l' p' Sl Sp E1]; subst.
  constructor; [|apply IH; [exact Wp|exact Sp|]].
  - exists (map clean_node l). split.
    + cbn [elements]. clear - Wl. induction Wl as [|n l W F IH]; cbn [map]; constructor; [apply object_says; exact W|exact IH].
    + symmetry. apply (fold_ins_is ins Ins); [rewrite clean_offset; exact Sl|]. symmetry. apply Permutation_rev.
  - cbn [forallb] in V. apply andb_true_iff in V. apply V.
Qed.
Lemma clean_known b : Forall (Forall node_wf) (bp_path b) -> (clean b = b <-> Forall (Forall known_flag) (bp_path b)).
Proof.
  intros W. assert (N : forall n, clean_node n = n <-> known_flag n).
  { intros [o f d]. unfold clean_node, known_flag, clean_flag. cbn [n_offset n_flag n_digest]. split.
    - intros E. assert (X : (if byte_eqb f flag_duplicate then f else if byte_eqb f flag_client then f else flag_intermediate) = f) by congruence.
      destruct (byte_eqb f flag_duplicate) eqn:A; [apply byte_eqb_eq in A; auto|]. destruct (byte_eqb f flag_client) eqn:B; [apply byte_eqb_eq in B; auto|]. left. congruence.
    - intros [->|[->| ->]]; reflexivity. }
  destruct b as [h p]. cbn [bp_path] in *. unfold clean. cbn [bp_height bp_path]. clear W.
  assert (L : forall l, map clean_node l = l <-> Forall known_flag l).
  { induction l as [|n l IH]; cbn [map]; [split; [constructor|reflexivity]|]. split.
    - intros E. assert (E1 : clean_node n = n) by congruence; assert (E2 : map clean_node l = l) by congruence; constructor; [apply N; exact E1|apply IH; exact E2].
    - intros F. inversion F as [|n' l' A B E1]; subst. apply N in A. apply IH in B. congruence. }
  assert (P : map (map clean_node) p = p <-> Forall (Forall known_flag) p).
  { induction p as [|l p IH]; cbn [map]; [split; [constructor|reflexivity]|]. split.
    - intros E. injection E as E1 E2; constructor; [apply L; exact E1|apply IH; exact E2].
    - intros F. inversion F as [|n' l' A B E1]; subst. apply L in A. apply IH in B. unfold level in *. rewrite A, B. reflexivity. }
  rewrite <- P. split; intros E; congruence.
Qed.
Lemma bump_json_round_trip b : ordered_insert ins -> Forall (Forall node_wf) (bp_path b) -> Forall sorted (bp_path b) -> bp_path b <> [] ->
  exists j, bump_json u2 b = Ret j /\ (bump_of_json odd fl below ins j = Ret b <-> Forall (Forall known_flag) (bp_path b)).
Proof.
  intros Ins W S Ne. destruct (bump_json_back b Ins W S Ne) as (j & E & R). exists j. split; [exact E|]. rewrite R, <- (clean_known b W). split; congruence.
Qed.
Lemma bump_json_empty h : exists j, bump_json u2 (mkbump h []) = Ret j /\ bump_of_json odd fl below ins j = Throw tt.
Proof. eexists. split; reflexivity. Qed.
End BumpJson.
