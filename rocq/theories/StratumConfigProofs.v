(* Proofs about mining.configure and version masks. *)
From Coq Require Import String Sorted Lia ZifyBool ZifyNat ZifyN.
From Verif Require Import Base BaseProofs TextModel TextFormProofs WireModel WireSpec JsonModel StratumModel StratumSpec StratumProofs StratumFields StratumConfigModel StratumConfigSpec DictProofs.
Local Open Scope N_scope.

(* ---------------------------------------------------------------- maps of maps *)
Definition has {A} (m : dict A) (n : bytes) : Prop := exists q, maps m n q.
Definition get2 (m : dict ext_request) (n k : bytes) : option json := match obj_find n m with Some q => obj_find k q | None => None end.
Lemma get2_maps m n k v : get2 m n k = Some v <-> exists q, maps m n q /\ maps q k v.
Proof.
  unfold get2, maps. destruct (obj_find n m) as [q|]; split.
  - eauto.
  - intros (q' & E & X). assert (q = q') as -> by congruence. exact X.
  - discriminate.
  - intros (q' & E & X). discriminate E.
Qed.
Lemma has_set {A} n' (q : A) m n : has (obj_set n' q m) n <-> n = n' \/ has m n.
Proof.
  unfold has. split.
  - intros (x & X). apply maps_set in X. destruct X as [[-> _]|[_ X]]; eauto.
  - intros [->|[x X]]; [exists q; apply maps_set; auto|]. destruct (bytes_eqb n n') eqn:E.
    + apply bytes_eqb_eq in E. subst. exists q. apply maps_set. auto.
    + exists x. apply maps_set. right. split; [|exact X]. intros ->. rewrite text_eqb_refl in E. discriminate E.
Qed.
Lemma get2_set n0 k0 v0 q m n k : get2 (obj_set n0 (obj_set k0 v0 q) m) n k = if bytes_eqb n n0 then (if bytes_eqb k k0 then Some v0 else obj_find k q) else get2 m n k.
Proof. unfold get2. rewrite find_set. destruct (bytes_eqb n n0); [apply find_set|reflexivity]. Qed.
Lemma dict2_ext (a b : dict ext_request) : requests_ok a -> requests_ok b -> (forall n, has a n <-> has b n) -> (forall n k, get2 a n k = get2 b n k) -> a = b.
Proof.
  intros [Sa Fa] [Sb Fb] H G. apply sorted_ext; [exact Sa|exact Sb|]. rewrite Forall_forall in Fa, Fb.
  assert (X : forall n p q, maps a n p -> maps b n q -> p = q).
  { intros n p q P Q. apply sorted_ext; [exact (Fa _ (maps_in _ _ _ P))|exact (Fb _ (maps_in _ _ _ Q))|]. intros k v. specialize (G n k). unfold get2 in G. unfold maps in *. rewrite P, Q in G. rewrite G. reflexivity. }
  intros n q. split; intros M.
  - destruct (proj1 (H n) (ex_intro _ q M)) as [p P]. rewrite (X n q p M P). exact P.
  - destruct (proj2 (H n) (ex_intro _ q M)) as [p P]. rewrite <- (X n p q P M). exact P.
Qed.
Lemma ok_set n q m : requests_ok m -> sorted q -> requests_ok (obj_set n q m).
Proof. intros [S F] Q. split; [apply sorted_set; exact S|]. apply set_forall; [exact F|exact Q]. Qed.
Lemma ok_maps m n q : requests_ok m -> maps m n q -> sorted q.
Proof. intros [_ F] M. rewrite Forall_forall in F. exact (F _ (maps_in _ _ _ M)). Qed.

(* ---------------------------------------------------------------- requests *)
Lemma take_ok : forall ps m m', requests_ok m -> take_params ps m = Ret m' -> requests_ok m'.
Proof.
  induction ps as [|[p v] ps IH]; intros m m' O E; cbn [take_params] in E; [congruence|].
  destruct (split_dots p) as [|n [|k [|]]]; try discriminate E. destruct (obj_find n m) as [q|] eqn:Q; [|discriminate E]. eapply IH; [|exact E]. apply ok_set; [exact O|]. apply sorted_set. eapply ok_maps; eassumption.
Qed.
Lemma take_has : forall ps m m', take_params ps m = Ret m' -> forall n, has m' n <-> has m n.
Proof.
  induction ps as [|[p v] ps IH]; intros m m' E n; cbn [take_params] in E; [assert (m = m') as -> by congruence; tauto|].
  destruct (split_dots p) as [|n0 [|k [|]]]; try discriminate E. destruct (obj_find n0 m) as [q|] eqn:Q; [|discriminate E]. rewrite (IH _ _ E n), has_set. split; [intros [->|X]; [exists q; exact Q|exact X]|auto].
Qed.
Lemma take_keys : forall ps m m', take_params ps m = Ret m' -> forall p v, maps ps p v -> exists n k, p = dotted n k /\ plain n /\ plain k /\ has m n.
Proof.
  induction ps as [|[p0 v0] ps IH]; intros m m' E p v M; cbn [take_params] in E; [discriminate M|].
  destruct (split_dots p0) as [|n [|k [|]]] eqn:Z; try discriminate E. destruct (obj_find n m) as [q|] eqn:Q; [|discriminate E]. apply split_two in Z. destruct Z as (P & K & ->).
  apply maps_cons in M. destruct M as [[-> ->]|[_ M]]; [exists n, k; split; [reflexivity|]; split; [exact P|]; split; [exact K|exists q; exact Q]|].
  destruct (IH _ _ E _ _ M) as (n' & k' & X & Y & Z & W). exists n', k'. split; [exact X|]. split; [exact Y|]. split; [exact Z|]. apply has_set in W. destruct W as [->|W]; [exists q; exact Q|exact W].
Qed.
Lemma take_get : forall ps m m', sorted ps -> take_params ps m = Ret m' ->
  (forall n k, plain n -> plain k -> has m n -> get2 m' n k = match obj_find (dotted n k) ps with Some v => Some v | None => get2 m n k end) /\
  (forall n k, ~ (plain n /\ plain k) -> get2 m' n k = get2 m n k).
Proof.
  induction ps as [|[p0 v0] ps IH]; intros m m' S E; cbn [take_params] in E.
  - assert (m = m') as -> by congruence. split; intros; reflexivity.
  - destruct (split_dots p0) as [|n0 [|k0 [|]]] eqn:Z; try discriminate E. destruct (obj_find n0 m) as [q|] eqn:Q; [|discriminate E]. apply split_two in Z. destruct Z as (P0 & K0 & ->).
    destruct (IH _ _ (sorted_tail _ _ S) E) as [A B]. split.
    + intros n k P K H. rewrite (A n k P K) by (apply has_set; auto). rewrite get2_set. cbn [obj_find].
      destruct (bytes_eqb (dotted n k) (dotted n0 k0)) eqn:D.
      * apply bytes_eqb_eq in D. destruct (dotted_inj _ _ _ _ P P0 D) as [-> ->]. rewrite !text_eqb_refl. destruct (obj_find (dotted n0 k0) ps) as [w|] eqn:W; [|reflexivity]. exfalso. exact (sorted_absent _ _ _ S w W).
      * destruct (obj_find (dotted n k) ps); [reflexivity|]. destruct (bytes_eqb n n0) eqn:N; [|reflexivity]. apply bytes_eqb_eq in N. subst n0. destruct (bytes_eqb k k0) eqn:KK; [apply bytes_eqb_eq in KK; subst k0; rewrite text_eqb_refl in D; discriminate D|].
        unfold get2. rewrite Q. reflexivity.
    + intros n k N. rewrite (B n k N), get2_set. destruct (bytes_eqb n n0) eqn:NN; [|reflexivity]. apply bytes_eqb_eq in NN. subst n0. destruct (bytes_eqb k k0) eqn:KK; [apply bytes_eqb_eq in KK; subst k0; exfalso; auto|]. unfold get2. rewrite Q. reflexivity.
Qed.
Lemma take_total : forall ps m, (forall p v, In (p, v) ps -> exists n k, p = dotted n k /\ plain n /\ plain k /\ has m n) -> exists m', take_params ps m = Ret m'.
Proof.
  induction ps as [|[p v] ps IH]; intros m H; cbn [take_params]; [eauto|]. destruct (H p v (or_introl eq_refl)) as (n & k & -> & P & K & [q Q]). rewrite (proj2 (split_two _ n k)) by auto. unfold maps in Q. rewrite Q.
  apply IH. intros p' v' I. destruct (H p' v' (or_intror I)) as (n' & k' & X & Y & Z & W). exists n', k'. split; [exact X|]. split; [exact Y|]. split; [exact Z|]. apply has_set. auto.
Qed.
Lemma take_throws : forall ps m, take_params ps m <> Undef.
Proof.
  induction ps as [|[p v] ps IH]; intros m; cbn [take_params]; [discriminate|]. destruct (split_dots p) as [|n [|k [|]]]; try discriminate. destruct (obj_find n m); [apply IH|discriminate].
Qed.

Lemma names_start : forall l (m : requests), requests_ok m -> (forall n k, get2 m n k = None) ->
  let m' := fold_left (fun m s => obj_set s [] m) l m in requests_ok m' /\ (forall n, has m' n <-> In n l \/ has m n) /\ (forall n k, get2 m' n k = None).
Proof.
  induction l as [|s l IH]; intros m O G; cbn [fold_left]; [split; [exact O|]; split; [intros n; cbn [In]; tauto|exact G]|].
  destruct (IH (obj_set s [] m)) as (A & B & C); [apply ok_set; [exact O|apply sorted_nil]| |].
  - intros n k. unfold get2. rewrite find_set. destruct (bytes_eqb n s); [reflexivity|]. apply G.
  - split; [exact A|]. split; [|exact C]. intros n. rewrite (B n), has_set. cbn [In]. split; [intros [X|[->|X]]; auto|intros [[->|X]|X]; auto].
Qed.
Lemma start_ok l : let m := fold_left (fun m s => obj_set s [] m) l [] in requests_ok m /\ (forall n, has m n <-> In n l) /\ (forall n k, get2 m n k = None).
Proof.
  destruct (names_start l []) as (A & B & C); [split; constructor|reflexivity|]. split; [exact A|]. split; [|exact C]. intros n. rewrite (B n). split; [intros [X|[q X]]; [exact X|discriminate X]|auto].
Qed.

Lemma plain_dec s : {plain s} + {~ plain s}.
Proof. unfold plain. destruct (in_dec Byte.byte_eq_dec dot s) as [I|I]; [right; auto|left; exact I]. Qed.

Lemma requests_sound c m : sorted (cf_params c) -> requests_of c = Ret m -> requests_ok m /\ says_requests c m.
Proof.
  intros S E. unfold requests_of in E. destruct (start_ok (cf_supported c)) as (O & H & G). set (m0 := fold_left _ _ _) in *. split; [eapply take_ok; eassumption|].
  pose proof (take_has _ _ _ E) as H'. pose proof (take_keys _ _ _ E) as K'. destruct (take_get _ _ _ S E) as [A B]. split; [|split].
  - intros n. rewrite <- H, <- H'. reflexivity.
  - intros n k v. rewrite <- get2_maps. split.
    + intros X. destruct (plain_dec n) as [P|P]; [|rewrite B in X by tauto; rewrite G in X; discriminate X]. destruct (plain_dec k) as [K|K]; [|rewrite B in X by tauto; rewrite G in X; discriminate X].
      assert (Hn : has m n) by (apply get2_maps in X; destruct X as (q & X & _); exists q; exact X). apply H' in Hn. split; [apply H; exact Hn|]. split; [exact P|]. split; [exact K|].
      rewrite (A n k P K Hn), G in X. unfold maps. destruct (obj_find (dotted n k) (cf_params c)); [exact X|discriminate X].
    + intros (I & P & K & M). rewrite (A n k P K) by (apply H; exact I). unfold maps in M. rewrite M. reflexivity.
  - intros p v M. destruct (K' p v M) as (n & k & X & Y & Z & W). exists n, k. split; [exact X|]. split; [exact Y|]. split; [exact Z|]. apply H. exact W.
Qed.
Lemma says_unique c m m' : requests_ok m -> requests_ok m' -> says_requests c m -> says_requests c m' -> m = m'.
Proof.
  intros O O' (A & B & _) (A' & B' & _). apply dict2_ext; [exact O|exact O'| |].
  - intros n. unfold has. rewrite <- A, <- A'. reflexivity.
  - intros n k. assert (X : forall v, get2 m n k = Some v <-> get2 m' n k = Some v) by (intros v; rewrite !get2_maps, B, B'; reflexivity). destruct (get2 m n k) as [v|]; [symmetry; apply X; reflexivity|]. destruct (get2 m' n k) as [v|]; [|reflexivity]. symmetry. symmetry. apply X. reflexivity.
Qed.
Lemma requests_exact c m : sorted (cf_params c) -> requests_of c = Ret m <-> requests_ok m /\ says_requests c m.
Proof.
  intros S. split; [apply requests_sound; exact S|]. intros [O W]. destruct (start_ok (cf_supported c)) as (_ & H & _).
  assert (T : exists m', requests_of c = Ret m').
  { unfold requests_of. apply take_total. intros p v I. destruct W as (_ & _ & W). destruct (W p v (in_maps _ _ _ S I)) as (n & k & X & Y & Z & V). exists n, k. split; [exact X|]. split; [exact Y|]. split; [exact Z|]. apply H. exact V. }
  destruct T as [m' T]. rewrite T. destruct (requests_sound c m' S T) as [O' W']. rewrite (says_unique c m m' O O' W W'). reflexivity.
Qed.
Lemma requests_throw c : sorted (cf_params c) ->
  requests_of c = Throw tt <-> exists p v, maps (cf_params c) p v /\ ~ exists n k, p = dotted n k /\ plain n /\ plain k /\ In n (cf_supported c).
Proof.
  intros S. destruct (start_ok (cf_supported c)) as (_ & H & _). split.
  - intros E. assert (D : forall p, {exists n k, p = dotted n k /\ plain n /\ plain k /\ In n (cf_supported c)} + {~ exists n k, p = dotted n k /\ plain n /\ plain k /\ In n (cf_supported c)}).
    { intros p. destruct (split_dots p) as [|n [|k [|]]] eqn:Z.
      - right. intros (n & k & -> & P & K & _). rewrite (proj2 (split_two _ n k)) in Z by auto. discriminate Z.
      - right. intros (n' & k & -> & P & K & _). rewrite (proj2 (split_two _ n' k)) in Z by auto. discriminate Z.
      - apply split_two in Z. destruct Z as (P & K & ->). destruct (in_dec (list_eq_dec Byte.byte_eq_dec) n (cf_supported c)) as [I|I]; [left; exists n, k; auto|]. right. intros (n' & k' & X & P' & K' & I'). destruct (dotted_inj _ _ _ _ P P' X) as [-> _]. contradiction.
      - right. intros (n' & k' & -> & P & K & _). rewrite (proj2 (split_two _ n' k')) in Z by auto. discriminate Z. }
    destruct (Forall_Exists_dec (fun e => exists n k, fst e = dotted n k /\ plain n /\ plain k /\ In n (cf_supported c)) (fun e => D (fst e)) (cf_params c)) as [F|F].
    + exfalso. destruct (take_total (cf_params c) (fold_left (fun m s => obj_set s [] m) (cf_supported c) [])) as [m' T].
      * intros p v I. rewrite Forall_forall in F. destruct (F _ I) as (n & k & X & Y & Z & V). exists n, k. split; [exact X|]. split; [exact Y|]. split; [exact Z|]. apply H. exact V.
      * unfold requests_of in E. rewrite T in E. discriminate E.
    + apply Exists_exists in F. destruct F as ([p v] & I & F). exists p, v. split; [apply in_maps; assumption|exact F].
  - intros (p & v & M & N). destruct (requests_of c) as [m|[]|] eqn:E; [|reflexivity|exfalso; exact (take_throws _ _ E)]. exfalso. apply N. destruct (requests_sound c m S E) as (_ & _ & _ & W). exact (W p v M).
Qed.

(* ---------------------------------------------------------------- what is made of requests *)
Lemma add_keys : forall q o p v, maps (add_params q o) p v -> maps o p v \/ exists k, In (k, v) q /\ p = dotted k k.
Proof.
  unfold add_params. induction q as [|[k w] q IH]; intros o p v M; cbn [fold_left fst snd] in M; [auto|]. destruct (IH _ _ _ M) as [X|(k' & I & ->)]; [|right; exists k'; split; [right; exact I|reflexivity]].
  apply maps_set in X. destruct X as [[-> ->]|[_ X]]; [right; exists k; split; [left; reflexivity|reflexivity]|auto].
Qed.
Lemma add_has : forall q o p, has (add_params q o) p <-> has o p \/ exists k v, In (k, v) q /\ p = dotted k k.
Proof.
  unfold add_params. induction q as [|[k w] q IH]; intros o p; cbn [fold_left fst snd]; [split; [auto|intros [X|(k & v & [] & _)]; exact X]|]. rewrite IH, has_set. split.
  - intros [[->|X]|(k' & v & I & ->)]; [right; exists k, w; split; [left; reflexivity|reflexivity]|auto|right; exists k', v; split; [right; exact I|reflexivity]].
  - intros [X|(k' & v & [I|I] & ->)]; [auto|left; left; congruence|right; exists k', v; auto].
Qed.
Lemma add_sorted : forall q o, sorted o -> sorted (add_params q o).
Proof. unfold add_params. induction q as [|e q IH]; intros o S; cbn [fold_left]; [exact S|]. apply IH. apply sorted_set. exact S. Qed.
Lemma all_keys : forall r o p v, maps (fold_left (fun o (e : bytes * ext_request) => add_params (snd e) o) r o) p v -> maps o p v \/ exists n q k, In (n, q) r /\ In (k, v) q /\ p = dotted k k.
Proof.
  induction r as [|[n q] r IH]; intros o p v M; cbn [fold_left snd] in M; [auto|]. destruct (IH _ _ _ M) as [X|(n' & q' & k & I & J & ->)]; [|right; exists n', q', k; split; [right; exact I|auto]].
  apply add_keys in X. destruct X as [X|(k & I & ->)]; [auto|]. right. exists n, q, k. split; [left; reflexivity|auto].
Qed.
Lemma all_has : forall r o p, has (fold_left (fun o (e : bytes * ext_request) => add_params (snd e) o) r o) p <-> has o p \/ exists n q k v, In (n, q) r /\ In (k, v) q /\ p = dotted k k.
Proof.
  induction r as [|[n q] r IH]; intros o p; cbn [fold_left snd]; [split; [auto|intros [X|(? & ? & ? & ? & [] & _)]; exact X]|]. rewrite IH, add_has. split.
  - intros [[X|(k & v & I & ->)]|(n' & q' & k & v & I & J & ->)]; [auto|right; exists n, q, k, v; split; [left; reflexivity|auto]|right; exists n', q', k, v; split; [right; exact I|auto]].
  - intros [X|(n' & q' & k & v & [I|I] & J & ->)]; [auto| |right; exists n', q', k, v; auto]. assert (q = q') as <- by congruence. left. right. exists k, v. auto.
Qed.
Lemma all_sorted : forall r o, sorted o -> sorted (fold_left (fun o (e : bytes * ext_request) => add_params (snd e) o) r o).
Proof. induction r as [|e r IH]; intros o S; cbn [fold_left]; [exact S|]. apply IH. apply add_sorted. exact S. Qed.

Lemma dots_count a b : count_occ Byte.byte_eq_dec (dotted a b) dot = S (count_occ Byte.byte_eq_dec a dot + count_occ Byte.byte_eq_dec b dot).
Proof. unfold dotted. rewrite count_occ_app, count_occ_cons_eq by reflexivity. lia. Qed.
Lemma plain_count s : plain s <-> count_occ Byte.byte_eq_dec s dot = 0%nat.
Proof. apply count_occ_not_In. Qed.
Lemma dotted_same n k j : plain n -> plain k -> dotted n k = dotted j j -> n = j /\ k = j.
Proof.
  intros P K E. pose proof (dots_count n k) as A. rewrite E, dots_count in A. apply plain_count in P as P'. apply plain_count in K. rewrite P', K in A.
  assert (J : plain j) by (apply plain_count; lia). apply (dotted_inj n k j j P J E).
Qed.

Lemma requests_back r : requests_ok r -> requests_of (configure_of r) = Ret r <-> Forall self_named r.
Proof.
  intros O. assert (S : sorted (cf_params (configure_of r))) by (apply all_sorted; apply sorted_nil). rewrite (requests_exact _ _ S). destruct O as [Sr Fr]. split.
  - intros [_ (_ & B & _)]. rewrite Forall_forall in Fr |- *. intros [n q] I. unfold self_named. cbn [fst snd]. specialize (Fr _ I). cbn [snd] in Fr. pose proof (in_maps _ _ _ Sr I) as M.
    assert (K : forall k v, maps q k v -> k = n /\ plain n).
    { intros k v X. destruct (proj1 (B n k v) (ex_intro _ q (conj M X))) as (_ & P & Q & Y). cbn [configure_of cf_params] in Y. apply all_keys in Y. destruct Y as [Y|(n' & q' & j & _ & _ & E)]; [discriminate Y|]. destruct (dotted_same n k j P Q E) as [-> ->]. auto. }
    destruct q as [|[k v] q]; [auto|]. right. destruct (K k v) as [-> P]; [apply maps_cons; auto|]. split; [exact P|]. exists v. destruct q as [|[k w] q]; [reflexivity|]. exfalso.
    assert (X : maps ((k, w) :: q) k w) by (apply maps_cons; auto). assert (N : k <> n) by (intros ->; exact (sorted_absent _ _ _ Fr _ X)). destruct (K k w) as [Y _]; [|contradiction]. apply maps_cons. auto.
  - intros F. split; [split; assumption|].
    assert (Hk : forall p v, maps (cf_params (configure_of r)) p v <-> exists n, plain n /\ maps r n [(n, v)] /\ p = dotted n n).
    { intros p v. cbn [configure_of cf_params]. split.
      - intros M. apply all_keys in M. destruct M as [M|(n & q & k & I & J & ->)]; [discriminate M|]. rewrite Forall_forall in F. destruct (F _ I) as [X|(P & w & X)]; cbn [fst snd] in *; subst q; [destruct J|].
        destruct J as [J|[]]. assert (n = k) as -> by congruence. assert (w = v) as -> by congruence. exists k. split; [exact P|]. split; [apply in_maps; assumption|reflexivity].
      - intros (n & P & M & ->). assert (H : has (fold_left (fun o (e : bytes * ext_request) => add_params (snd e) o) r []) (dotted n n)).
        { apply all_has. right. exists n, [(n, v)], n, v. split; [apply maps_in; exact M|]. split; [left; reflexivity|reflexivity]. }
        destruct H as [w H]. pose proof (all_keys _ _ _ _ H) as X. destruct X as [X|(n' & q' & j & I & J & E)]; [discriminate X|]. destruct (dotted_same n n j P P E) as [-> _].
        rewrite Forall_forall in F. destruct (F _ I) as [X|(P' & w' & X)]; cbn [fst snd] in *; subst q'; [destruct J|]. destruct J as [J|[]]. assert (n' = j) as -> by congruence. assert (w' = w) as -> by congruence.
        pose proof (in_maps _ _ _ Sr I) as M'. unfold maps in M, M'. rewrite M in M'. assert (v = w) as -> by congruence. exact H. }
    split; [|split].
    + intros n. cbn [configure_of cf_supported]. split.
      * intros I. apply in_map_iff in I. destruct I as ([n' q] & <- & I). exists q. apply in_maps; assumption.
      * intros [q M]. apply in_map_iff. exists (n, q). split; [reflexivity|apply maps_in; exact M].
    + intros n k v. split.
      * intros (q & M & X). pose proof (maps_in _ _ _ M) as I. rewrite Forall_forall in F. destruct (F _ I) as [Y|(P & w & Y)]; cbn [fst snd] in *; subst q; [discriminate X|]. apply maps_cons in X. destruct X as [[-> ->]|[_ X]]; [|discriminate X].
        split; [cbn [configure_of cf_supported]; apply in_map_iff; eexists; split; [|exact I]; reflexivity|]. split; [exact P|]. split; [exact P|]. apply Hk. exists n. auto.
      * intros (_ & P & K & M). apply Hk in M. destruct M as (j & Pj & M & E). destruct (dotted_same n k j P K E) as [-> ->]. exists [(j, v)]. split; [exact M|]. apply maps_cons. auto.
    + intros p v M. apply Hk in M. destruct M as (n & P & M & ->). exists n, n. split; [reflexivity|]. split; [exact P|]. split; [exact P|]. cbn [configure_of cf_supported]. apply in_map_iff. eexists. split; [|apply maps_in; exact M]. reflexivity.
Qed.
Lemma requests_back_throws r : requests_ok r ->
  requests_of (configure_of r) = Throw tt <-> exists n q k v, maps r n q /\ maps q k v /\ (~ plain k \/ forall q', ~ maps r k q').
Proof.
  intros [Sr Fr]. assert (S : sorted (cf_params (configure_of r))) by (apply all_sorted; apply sorted_nil). rewrite (requests_throw _ S). rewrite Forall_forall in Fr. split.
  - intros (p & v & M & N). cbn [configure_of cf_params] in M. apply all_keys in M. destruct M as [M|(n & q & k & I & J & ->)]; [discriminate M|]. exists n, q, k, v. split; [apply in_maps; assumption|]. split; [apply in_maps; [exact (Fr _ I)|exact J]|].
    destruct (plain_dec k) as [P|P]; [|auto]. right. intros q' M'. apply N. exists k, k. split; [reflexivity|]. split; [exact P|]. split; [exact P|]. cbn [configure_of cf_supported]. apply in_map_iff. eexists. split; [|apply maps_in; exact M']. reflexivity.
  - intros (n & q & k & v & M & X & D).
    assert (H : has (cf_params (configure_of r)) (dotted k k)). { apply all_has. right. exists n, q, k, v. split; [apply maps_in; exact M|]. split; [apply maps_in; exact X|reflexivity]. }
    destruct H as [w H]. exists (dotted k k), w. split; [exact H|]. intros (n' & k' & E & P & K & I). symmetry in E. destruct (dotted_same n' k' k P K E) as [-> _]. destruct D as [D|D]; [contradiction|].
    cbn [configure_of cf_supported] in I. apply in_map_iff in I. destruct I as ([n' q'] & Y & I). cbn [fst] in Y. subst n'. apply (D q'). apply in_maps; assumption.
Qed.

(* ---------------------------------------------------------------- the parameters of the message *)
Lemma strings_back l : all_strings (map JString l) = Some l.
Proof. induction l as [|s l IH]; [reflexivity|]. cbn [map all_strings]. rewrite IH. reflexivity. Qed.
Lemma strings_exact : forall l ss, all_strings l = Some ss <-> l = map JString ss.
Proof.
  intros l ss. split; [|intros ->; apply strings_back]. revert ss. induction l as [|j l IH]; intros ss E; cbn [all_strings] in E.
  - assert (ss = []) as -> by congruence. reflexivity.
  - destruct j; try discriminate E. destruct (all_strings l) as [t|]; [|discriminate E]. assert (ss = s :: t) as -> by congruence. cbn [map]. rewrite (IH t eq_refl). reflexivity.
Qed.
Lemma distinct_exact l : distinct l = true <-> NoDup l.
Proof.
  induction l as [|s l IH]; cbn [distinct]; [split; [constructor|reflexivity]|]. rewrite andb_true_iff, negb_true_iff, IH. split.
  - intros [E D]. constructor; [|exact D]. intros I. assert (X : existsb (bytes_eqb s) l = true) by (apply existsb_exists; exists s; split; [exact I|apply text_eqb_refl]). congruence.
  - intros N. assert (A : ~ In s l) by (inversion N; assumption). assert (B : NoDup l) by (inversion N; assumption). split; [|exact B]. destruct (existsb (bytes_eqb s) l) eqn:X; [|reflexivity]. apply existsb_exists in X. destruct X as (t & I & E). apply bytes_eqb_eq in E. subst t. contradiction.
Qed.
Lemma configure_survives c : configure_read (configure_write c) = c <-> NoDup (cf_supported c) \/ c = mkconfigure [] [].
Proof.
  unfold configure_write. cbn [configure_read]. rewrite strings_back. rewrite <- distinct_exact. destruct (distinct (cf_supported c)); split.
  - auto.
  - intros _. destruct c; reflexivity.
  - intros <-. auto.
  - intros [X|X]; [discriminate X|]. symmetry. exact X.
Qed.
Lemma configure_valid_exact p : configure_valid p = true <-> exists ss o, NoDup ss /\ p = [JArray (map JString ss); JObject o].
Proof.
  split.
  - destruct p as [|[| | | | | |l|] [|[| | | | | | |o] [|]]]; try discriminate. cbn [configure_valid]. destruct (all_strings l) as [ss|] eqn:E; [|discriminate]. intros D. exists ss, o. split; [apply distinct_exact; exact D|]. apply strings_exact in E. subst l. reflexivity.
  - intros (ss & o & N & ->). cbn [configure_valid]. rewrite strings_back. apply distinct_exact. exact N.
Qed.

(* ---------------------------------------------------------------- answers *)
Lemma sort_acc : forall o acc ps acc' ps', sorted o -> sort_answers o acc ps = Ret (acc', ps') ->
  (forall n, plain n -> obj_find n acc' = match obj_find n o with Some v => Some (acc_read v) | None => obj_find n acc end) /\
  (forall n, ~ plain n -> obj_find n acc' = obj_find n acc) /\ (sorted acc -> sorted acc').
Proof.
  induction o as [|[p v] o IH]; intros acc ps acc' ps' S E; cbn [sort_answers] in E.
  - assert (acc = acc') as -> by congruence. auto.
  - destruct (split_dots p) as [|n0 [|k [|]]] eqn:Z; try discriminate E.
    + apply split_one in Z. destruct Z as [P0 ->]. destruct (IH _ _ _ _ (sorted_tail _ _ S) E) as (A & B & C). split; [|split].
      * intros n P. rewrite (A n P), find_set. cbn [obj_find]. destruct (bytes_eqb n n0) eqn:N; [|reflexivity]. apply bytes_eqb_eq in N. subst n0. destruct (obj_find n o) as [w|] eqn:W; [|reflexivity]. exfalso. exact (sorted_absent _ _ _ S w W).
      * intros n N. rewrite (B n N), find_set. destruct (bytes_eqb n n0) eqn:X; [|reflexivity]. apply bytes_eqb_eq in X. subst n0. contradiction.
      * intros Sa. apply C. apply sorted_set. exact Sa.
    + apply split_two in Z. destruct Z as (P0 & K0 & ->). destruct (IH _ _ _ _ (sorted_tail _ _ S) E) as (A & B & C). split; [|split; [exact B|exact C]].
      intros n P. rewrite (A n P). cbn [obj_find]. rewrite text_eqb_false; [reflexivity|]. intros ->. exact (dotted_not_plain _ _ P).
Qed.
Lemma sort_params : forall o acc ps acc' ps', sorted o -> sort_answers o acc ps = Ret (acc', ps') ->
  (forall n k, plain n -> plain k -> get2 ps' n k = match obj_find (dotted n k) o with Some v => Some v | None => get2 ps n k end) /\
  (forall n k, ~ (plain n /\ plain k) -> get2 ps' n k = get2 ps n k) /\
  (forall n, has ps' n <-> has ps n \/ exists k v, plain n /\ plain k /\ maps o (dotted n k) v) /\ (requests_ok ps -> requests_ok ps').
Proof.
  induction o as [|[p v] o IH]; intros acc ps acc' ps' S E; cbn [sort_answers] in E.
  - assert (ps = ps') as -> by congruence. split; [reflexivity|]. split; [reflexivity|]. split; [|auto]. intros n. split; [auto|]. intros [X|(k & v & _ & _ & X)]; [exact X|discriminate X].
  - destruct (split_dots p) as [|n0 [|k0 [|]]] eqn:Z; try discriminate E.
    + apply split_one in Z. destruct Z as [P0 ->]. destruct (IH _ _ _ _ (sorted_tail _ _ S) E) as (A & B & C & D). split; [|split; [exact B|split; [|exact D]]].
      * intros n k P K. rewrite (A n k P K). cbn [obj_find]. rewrite text_eqb_false; [reflexivity|]. intros <-. exact (dotted_not_plain _ _ P0).
      * intros n. rewrite (C n). split; (intros [X|(k & w & P & K & M)]; [auto|right; exists k, w; split; [exact P|split; [exact K|]]]).
        -- apply maps_cons. right. split; [intros <-; exact (dotted_not_plain _ _ P0)|exact M].
        -- apply maps_cons in M. destruct M as [[M _]|[_ M]]; [exfalso; subst n0; exact (dotted_not_plain _ _ P0)|exact M].
    + apply split_two in Z. destruct Z as (P0 & K0 & ->). destruct (IH _ _ _ _ (sorted_tail _ _ S) E) as (A & B & C & D).
      assert (G : forall n k, get2 (obj_set n0 (obj_set k0 v (match obj_find n0 ps with Some q => q | None => [] end)) ps) n k = if bytes_eqb n n0 then (if bytes_eqb k k0 then Some v else get2 ps n k) else get2 ps n k).
      { intros n k. rewrite get2_set. destruct (bytes_eqb n n0) eqn:N; [|reflexivity]. apply bytes_eqb_eq in N. subst n0. destruct (bytes_eqb k k0); [reflexivity|]. unfold get2. destruct (obj_find n ps); reflexivity. }
      split; [|split; [|split]].
      * intros n k P K. rewrite (A n k P K), G. cbn [obj_find]. destruct (bytes_eqb (dotted n k) (dotted n0 k0)) eqn:X.
        -- apply bytes_eqb_eq in X. destruct (dotted_inj _ _ _ _ P P0 X) as [-> ->]. rewrite !text_eqb_refl. destruct (obj_find (dotted n0 k0) o) as [w|] eqn:W; [|reflexivity]. exfalso. exact (sorted_absent _ _ _ S w W).
        -- destruct (obj_find (dotted n k) o); [reflexivity|]. destruct (bytes_eqb n n0) eqn:N; [|reflexivity]. apply bytes_eqb_eq in N. subst n0. destruct (bytes_eqb k k0) eqn:KK; [apply bytes_eqb_eq in KK; subst k0; rewrite text_eqb_refl in X; discriminate X|reflexivity].
      * intros n k N. rewrite (B n k N), G. destruct (bytes_eqb n n0) eqn:NN; [|reflexivity]. apply bytes_eqb_eq in NN. subst n0. destruct (bytes_eqb k k0) eqn:KK; [apply bytes_eqb_eq in KK; subst k0; exfalso; auto|reflexivity].
      * intros n. rewrite (C n), has_set. split.
        -- intros [[->|X]|(k & w & P & K & M)]; [right; exists k0, v; split; [exact P0|split; [exact K0|apply maps_cons; auto]]|auto|].
           destruct (bytes_eqb (dotted n k) (dotted n0 k0)) eqn:X; [apply bytes_eqb_eq in X; right; exists k, v; split; [exact P|split; [exact K|rewrite X; apply maps_cons; auto]]|].
           right. exists k, w. split; [exact P|]. split; [exact K|]. apply maps_cons. right. split; [|exact M]. intros Y. rewrite Y, text_eqb_refl in X. discriminate X.
        -- intros [X|(k & w & P & K & M)]; [auto|]. apply maps_cons in M. destruct M as [[M _]|[_ M]]; [destruct (dotted_inj _ _ _ _ P P0 M) as [-> _]; auto|]. right. exists k, w. auto.
      * intros O. apply D. apply ok_set; [exact O|]. apply sorted_set. destruct (obj_find n0 ps) as [q|] eqn:Q; [eapply ok_maps; eassumption|apply sorted_nil].
Qed.
Lemma sort_keys : forall o acc ps x, sort_answers o acc ps = Ret x -> forall p v, maps o p v -> plain p \/ exists n k, p = dotted n k /\ plain n /\ plain k.
Proof.
  induction o as [|[p0 v0] o IH]; intros acc ps x E p v M; [discriminate M|]. cbn [sort_answers] in E. apply maps_cons in M. destruct (split_dots p0) as [|n0 [|k0 [|]]] eqn:Z; try discriminate E.
  - apply split_one in Z. destruct Z as [P0 ->]. destruct M as [[-> _]|[_ M]]; [auto|eauto].
  - apply split_two in Z. destruct M as [[-> _]|[_ M]]; [|eauto]. right. exists n0, k0. tauto.
Qed.
Lemma sort_total : forall o acc ps, (forall p v, In (p, v) o -> plain p \/ exists n k, p = dotted n k /\ plain n /\ plain k) -> exists x, sort_answers o acc ps = Ret x.
Proof.
  induction o as [|[p v] o IH]; intros acc ps H; cbn [sort_answers]; [eauto|]. destruct (H p v (or_introl eq_refl)) as [P|(n & k & -> & P & K)].
  - rewrite split_plain by exact P. apply IH. intros p' v' I. apply (H p' v'). right. exact I.
  - rewrite (proj2 (split_two _ n k)) by auto. apply IH. intros p' v' I. apply (H p' v'). right. exact I.
Qed.

Lemma map_find {A B} (f : bytes -> A -> B) (o : dict A) n : obj_find n (map (fun e => (fst e, f (fst e) (snd e))) o) = option_map (f n) (obj_find n o).
Proof.
  induction o as [|[k v] o IH]; [reflexivity|]. cbn [map obj_find fst snd]. destruct (bytes_eqb n k) eqn:E; [|exact IH]. apply bytes_eqb_eq in E. subst k. reflexivity.
Qed.
Lemma map_sorted {A B} (f : bytes -> A -> B) (o : dict A) : sorted o -> sorted (map (fun e => (fst e, f (fst e) (snd e))) o).
Proof.
  induction o as [|[k v] o IH]; intros S; [constructor|]. cbn [map fst snd]. constructor; [apply IH; exact (sorted_tail _ _ S)|]. pose proof (sorted_head _ _ S) as H. rewrite Forall_forall in H |- *. intros x I. apply in_map_iff in I. destruct I as (y & <- & I). exact (H y I).
Qed.

Lemma results_sound o m : sorted o -> results_of o = Ret m -> results_ok m /\ says_results o m.
Proof.
  intros S E. unfold results_of in E. destruct (sort_answers o [] []) as [[acc ps]|[]|] eqn:Q; cbn [bind fst snd] in E; try discriminate E.
  destruct (sort_acc _ _ _ _ _ S Q) as (A & B & C). destruct (sort_params _ _ _ _ _ S Q) as (P & P' & Hp & Op). pose proof (sort_keys _ _ _ _ Q) as K.
  specialize (C sorted_nil). specialize (Op (conj sorted_nil (Forall_nil _))).
  destruct (forallb (fun e => match obj_find (fst e) acc with Some _ => true | None => false end) ps) eqn:F; [|discriminate E].
  set (f := fun (n : bytes) (a : accepted) => mkresult a (match obj_find n ps with Some q => q | None => [] end)).
  assert (M : m = map (fun e => (fst e, f (fst e) (snd e))) acc) by (unfold f; congruence). clear E. subst m.
  assert (FH : forall n, has ps n -> has acc n).
  { intros n [q X]. rewrite forallb_forall in F. specialize (F _ (maps_in _ _ _ X)). cbn [fst] in F. unfold has, maps. destruct (obj_find n acc) as [a|]; [eauto|discriminate F]. }
  assert (AN : forall n a, maps acc n a -> plain n). { intros n a X. destruct (plain_dec n) as [Y|Y]; [exact Y|]. unfold maps in X. rewrite (B n Y) in X. discriminate X. }
  split; [split|split; [|split]].
  - apply map_sorted. exact C.
  - rewrite Forall_forall. intros x I. apply in_map_iff in I. destruct I as ([n a] & <- & I). cbn [fst snd f rs_params]. destruct (obj_find n ps) as [q|] eqn:X; [eapply ok_maps; eassumption|apply sorted_nil].
  - intros n a. split.
    + intros (x & X & Y). unfold maps in X. rewrite map_find in X. destruct (obj_find n acc) as [b|] eqn:Z; [|discriminate X]. cbn [option_map] in X. assert (x = f n b) as -> by congruence. cbn [f rs_accepted] in Y. subst b.
      pose proof (AN n a Z) as Pn. split; [exact Pn|]. rewrite (A n Pn) in Z. unfold maps. destruct (obj_find n o) as [j|]; [|discriminate Z]. exists j. split; [reflexivity|congruence].
    + intros (Pn & j & X & Y). unfold maps in *. exists (f n a). split; [|reflexivity]. rewrite map_find, (A n Pn), X, Y. reflexivity.
  - intros n k v. split.
    + intros (x & X & Y). unfold maps in X. rewrite map_find in X. destruct (obj_find n acc) as [b|] eqn:Z; [|discriminate X]. cbn [option_map] in X. assert (x = f n b) as -> by congruence. cbn [f rs_params] in Y.
      assert (G : get2 ps n k = Some v) by (unfold get2; destruct (obj_find n ps); [exact Y|discriminate Y]). destruct (plain_dec n) as [Pn|Pn]; [|rewrite P' in G by tauto; discriminate G]. destruct (plain_dec k) as [Pk|Pk]; [|rewrite P' in G by tauto; discriminate G].
      split; [exact Pn|]. split; [exact Pk|]. rewrite (P n k Pn Pk) in G. unfold maps. destruct (obj_find (dotted n k) o); [exact G|discriminate G].
    + intros (Pn & Pk & X). assert (G : get2 ps n k = Some v) by (rewrite (P n k Pn Pk); unfold maps in X; rewrite X; reflexivity). assert (Hn : has ps n) by (apply get2_maps in G; destruct G as (q & Y & _); exists q; exact Y).
      destruct (FH n Hn) as [a Z]. exists (f n a). unfold maps. rewrite map_find. unfold maps in Z. rewrite Z. split; [reflexivity|]. cbn [f rs_params]. unfold get2 in G. destruct (obj_find n ps); [exact G|discriminate G].
  - intros p v X. destruct (K p v X) as [Y|(n & k & -> & Pn & Pk)]; [auto|]. right. assert (Hn : has ps n) by (apply Hp; right; exists k, v; auto). destruct (FH n Hn) as [a Z]. unfold maps in Z. rewrite (A n Pn) in Z.
    destruct (obj_find n o) as [j|] eqn:W; [|discriminate Z]. exists n, k, j. auto.
Qed.
Lemma results_unique o m m' : results_ok m -> results_ok m' -> says_results o m -> says_results o m' -> m = m'.
Proof.
  intros [S F] [S' F'] (A & B & _) (A' & B' & _). rewrite Forall_forall in F, F'. apply sorted_ext; [exact S|exact S'|].
  assert (X : forall n x y, maps m n x -> maps m' n y -> x = y).
  { intros n x y Mx My. assert (E : rs_accepted x = rs_accepted y).
    { destruct (proj1 (A' n (rs_accepted x)) (proj2 (A' n (rs_accepted x)) (proj1 (A n (rs_accepted x)) (ex_intro _ x (conj Mx eq_refl))))) as (_ & _).
      destruct (proj2 (A' n (rs_accepted x)) (proj1 (A n (rs_accepted x)) (ex_intro _ x (conj Mx eq_refl)))) as (z & Mz & E). rewrite (maps_fun _ _ _ _ My Mz). symmetry. exact E. }
    assert (P : rs_params x = rs_params y).
    { apply sorted_ext; [exact (F _ (maps_in _ _ _ Mx))|exact (F' _ (maps_in _ _ _ My))|]. intros k v. split; intros M.
      - destruct (proj2 (B' n k v) (proj1 (B n k v) (ex_intro _ x (conj Mx M)))) as (z & Mz & E'). rewrite (maps_fun _ _ _ _ My Mz). exact E'.
      - destruct (proj2 (B n k v) (proj1 (B' n k v) (ex_intro _ y (conj My M)))) as (z & Mz & E'). rewrite (maps_fun _ _ _ _ Mx Mz). exact E'. }
    destruct x as [xa xp], y as [ya yp]. cbn [rs_accepted rs_params] in E, P. congruence. }
  intros n x. split; intros M.
  - destruct (proj2 (A' n (rs_accepted x)) (proj1 (A n (rs_accepted x)) (ex_intro _ x (conj M eq_refl)))) as (z & Mz & _). rewrite (X n x z M Mz). exact Mz.
  - destruct (proj2 (A n (rs_accepted x)) (proj1 (A' n (rs_accepted x)) (ex_intro _ x (conj M eq_refl)))) as (z & Mz & _). rewrite <- (X n z x Mz M). exact Mz.
Qed.
Lemma results_exact o m : sorted o -> results_of o = Ret m <-> results_ok m /\ says_results o m.
Proof.
  intros S. split; [apply results_sound; exact S|]. intros [O W].
  assert (T : exists m', results_of o = Ret m').
  { destruct W as (W1 & W2 & W3). destruct (sort_total o [] []) as [[acc ps] Q].
    - intros p v I. destruct (W3 p v (in_maps _ _ _ S I)) as [X|(n & k & j & X & Y & Z & _)]; [auto|]. right. exists n, k. auto.
    - unfold results_of. rewrite Q. cbn [bind fst snd]. destruct (sort_acc _ _ _ _ _ S Q) as (A & _ & _). destruct (sort_params _ _ _ _ _ S Q) as (_ & _ & Hp & Op).
      assert (F : forallb (fun e => match obj_find (fst e) acc with Some _ => true | None => false end) ps = true); [|rewrite F; eauto].
      apply forallb_forall. intros [n q] I. cbn [fst]. specialize (Op (conj sorted_nil (Forall_nil _))). assert (Hn : has ps n) by (exists q; apply in_maps; [apply Op|exact I]). apply Hp in Hn. destruct Hn as [[? X]|(k & v & Pn & Pk & M)]; [discriminate X|].
      destruct (W3 _ _ M) as [X|(n' & k' & j & X & Pn' & Pk' & Mj)]; [exfalso; exact (dotted_not_plain _ _ X)|]. destruct (dotted_inj _ _ _ _ Pn Pn' X) as [-> _]. rewrite (A n' Pn'). unfold maps in Mj. rewrite Mj. reflexivity. }
  destruct T as [m' T]. rewrite T. destruct (results_sound o m' S T) as [O' W']. rewrite (results_unique o m m' O O' W W'). reflexivity.
Qed.

(* what is made of results *)
Lemma fold_has n : forall (q : ext_request) o p, has (fold_left (fun o e => obj_set (dotted n (fst e)) (snd e) o) q o) p <-> has o p \/ exists k v, In (k, v) q /\ p = dotted n k.
Proof.
  induction q as [|[k w] q IH]; intros o p; cbn [fold_left fst snd]; [split; [auto|intros [X|(? & ? & [] & _)]; exact X]|]. rewrite IH, has_set. split.
  - intros [[->|X]|(k' & v & I & ->)]; [right; exists k, w; split; [left; reflexivity|reflexivity]|auto|right; exists k', v; split; [right; exact I|reflexivity]].
  - intros [X|(k' & v & [I|I] & ->)]; [auto|left; left; congruence|right; exists k', v; auto].
Qed.
Lemma fold_sorted n : forall (q : ext_request) o, sorted o -> sorted (fold_left (fun o e => obj_set (dotted n (fst e)) (snd e) o) q o).
Proof. induction q as [|e q IH]; intros o S; cbn [fold_left]; [exact S|]. apply IH. apply sorted_set. exact S. Qed.
Lemma fold_maps n : plain n -> forall (q : ext_request) o p v, sorted q -> Forall (fun e => plain (fst e)) q ->
  maps (fold_left (fun o e => obj_set (dotted n (fst e)) (snd e) o) q o) p v <-> (exists k, maps q k v /\ p = dotted n k) \/ ((forall k w, maps q k w -> p <> dotted n k) /\ maps o p v).
Proof.
  intros P. induction q as [|[k w] q IH]; intros o p v S F; cbn [fold_left fst snd].
  - split; [intros X; right; split; [intros k w Y; discriminate Y|exact X]|]. intros [(k & X & _)|[_ X]]; [discriminate X|exact X].
  - assert (Fq : Forall (fun e => plain (fst e)) q) by (inversion F; assumption). rewrite (IH _ p v (sorted_tail _ _ S) Fq), maps_set. split.
    + intros [(k' & M & ->)|[N [[-> ->]|[D M]]]].
      * left. exists k'. split; [|reflexivity]. apply maps_cons. right. split; [|exact M]. intros ->. exact (sorted_absent _ _ _ S _ M).
      * left. exists k. split; [apply maps_cons; auto|reflexivity].
      * right. split; [|exact M]. intros k' w' X. apply maps_cons in X. destruct X as [[-> _]|[_ X]]; [exact D|eauto].
    + intros [(k' & M & ->)|[N M]].
      * apply maps_cons in M. destruct M as [[-> ->]|[D M]]; [|left; exists k'; auto]. right. split; [|auto]. intros k' w' X E. destruct (dotted_inj _ _ _ _ P P E) as [_ ->]. exact (sorted_absent _ _ _ S _ X).
      * right. split; [intros k' w' X; apply (N k' w'); apply maps_cons; right; split; [|exact X]; intros ->; exact (sorted_absent _ _ _ S _ X)|]. right. split; [|exact M]. apply (N k w). apply maps_cons. auto.
Qed.

Lemma answer_has : forall r o o', answer_of_from r o = Ret o' -> forall p, has o' p <-> has o p \/ (exists x, In (p, x) r) \/ (exists n x k v, In (n, x) r /\ good x /\ In (k, v) (rs_params x) /\ p = dotted n k).
Proof.
  induction r as [|[n x] r IH]; intros o o' E p; cbn [answer_of_from] in E.
  - assert (o = o') as -> by congruence. split; [auto|]. intros [X|[(? & [])|(? & ? & ? & ? & [] & _)]]; exact X.
  - destruct (rs_accepted x) as [b|s|] eqn:A; cbn [acc_json acc_bool bind] in E; [destruct b| |discriminate E].
    + rewrite (IH _ _ E p), fold_has, has_set. unfold good. split.
      * intros [[[->|X]|(k & v & I & ->)]|[(y & I)|(n' & y & k & v & I & G & J & ->)]]; [right; left; exists x; left; reflexivity|auto|right; right; exists n, x, k, v; split; [left; reflexivity|auto]|right; left; exists y; right; exact I|right; right; exists n', y, k, v; split; [right; exact I|auto]].
      * intros [X|[(y & [I|I])|(n' & y & k & v & [I|I] & G & J & ->)]]; [auto|left; left; left; congruence|right; left; exists y; exact I| |right; right; exists n', y, k, v; auto].
        assert (n = n') as <- by congruence. assert (x = y) as <- by congruence. left. right. exists k, v. auto.
    + rewrite (IH _ _ E p), has_set. unfold good. split.
      * intros [[->|X]|[(y & I)|(n' & y & k & v & I & G & J & ->)]]; [right; left; exists x; left; reflexivity|auto|right; left; exists y; right; exact I|right; right; exists n', y, k, v; split; [right; exact I|auto]].
      * intros [X|[(y & [I|I])|(n' & y & k & v & [I|I] & G & J & ->)]]; [auto|left; left; congruence|right; left; exists y; exact I| |right; right; exists n', y, k, v; auto]. congruence.
    + rewrite (IH _ _ E p), has_set. unfold good. split.
      * intros [[->|X]|[(y & I)|(n' & y & k & v & I & G & J & ->)]]; [right; left; exists x; left; reflexivity|auto|right; left; exists y; right; exact I|right; right; exists n', y, k, v; split; [right; exact I|auto]].
      * intros [X|[(y & [I|I])|(n' & y & k & v & [I|I] & G & J & ->)]]; [auto|left; left; congruence|right; left; exists y; exact I| |right; right; exists n', y, k, v; auto]. congruence.
Qed.
Lemma answer_sorted : forall r o o', sorted o -> answer_of_from r o = Ret o' -> sorted o'.
Proof.
  induction r as [|[n x] r IH]; intros o o' S E; cbn [answer_of_from] in E; [congruence|]. destruct (rs_accepted x) as [b|s|]; cbn [acc_json acc_bool bind] in E; [destruct b| |discriminate E].
  - eapply IH; [|exact E]. apply fold_sorted. apply sorted_set. exact S.
  - eapply IH; [|exact E]. apply sorted_set. exact S.
  - eapply IH; [|exact E]. apply sorted_set. exact S.
Qed.
Lemma acc_json_read a j : acc_json a = Ret j -> acc_read j = a.
Proof. destruct a; cbn; try discriminate; intros X; assert (E := X); injection E as <-; reflexivity. Qed.
Lemma answer_maps : forall r o o', sorted r -> Forall (fun e => sorted (rs_params (snd e))) r -> Forall told r -> answer_of_from r o = Ret o' ->
  (forall n, plain n -> obj_find n o' = match obj_find n r with Some x => match acc_json (rs_accepted x) with Ret j => Some j | _ => None end | None => obj_find n o end) /\
  (forall n k, plain n -> plain k -> obj_find (dotted n k) o' = match match obj_find n r with Some x => obj_find k (rs_params x) | None => None end with Some v => Some v | None => obj_find (dotted n k) o end).
Proof.
  induction r as [|[n0 x0] r IH]; intros o o' S F T E; cbn [answer_of_from] in E.
  - assert (o = o') as -> by congruence. split; reflexivity.
  - assert (T0 : told (n0, x0)) by (inversion T; assumption). assert (Tr : Forall told r) by (inversion T; assumption). assert (F0 : sorted (rs_params x0)) by (inversion F; assumption). assert (Fr : Forall (fun e => sorted (rs_params (snd e))) r) by (inversion F; assumption).
    destruct T0 as [P0 T0]. cbn [fst snd] in *.
    assert (Z : exists j o1, acc_json (rs_accepted x0) = Ret j /\ answer_of_from r o1 = Ret o' /\
      o1 = fold_left (fun o e => obj_set (dotted n0 (fst e)) (snd e) o) (rs_params x0) (obj_set n0 j o) /\ Forall (fun p => plain (fst p)) (rs_params x0)).
    { destruct T0 as [[G K]|K].
      - unfold good in G. rewrite G in *. cbn [acc_json acc_bool bind] in E |- *. eexists. eexists. split; [reflexivity|]. split; [exact E|]. split; [reflexivity|exact K].
      - rewrite K in *. cbn [fold_left] in *. destruct (rs_accepted x0) as [b|s|]; cbn [acc_json acc_bool bind] in E |- *; [|eexists; eexists; split; [reflexivity|]; split; [exact E|]; split; [reflexivity|constructor]|discriminate E].
        eexists. eexists. split; [reflexivity|]. split; [|split; [reflexivity|constructor]]. destruct b; exact E. }
    destruct Z as (j & o1 & Zj & Z & -> & K). destruct (IH _ _ (sorted_tail _ _ S) Fr Tr Z) as [A B]. split.
    + intros n P. rewrite (A n P). cbn [obj_find]. destruct (bytes_eqb n n0) eqn:N.
      * apply bytes_eqb_eq in N. subst n0. rewrite Zj. destruct (obj_find n r) as [y|] eqn:Y; [exfalso; exact (sorted_absent _ _ _ S y Y)|]. apply fold_maps; [exact P|exact F0|exact K|]. right. split; [intros k w _ X; rewrite X in P; exact (dotted_not_plain _ _ P)|]. apply maps_set. auto.
      * destruct (obj_find n r); [reflexivity|]. assert (N' : n <> n0) by (intros ->; rewrite text_eqb_refl in N; discriminate N).
        assert (X : forall v, maps (fold_left (fun o e => obj_set (dotted n0 (fst e)) (snd e) o) (rs_params x0) (obj_set n0 j o)) n v <-> maps o n v).
        { intros v. rewrite (fold_maps n0 P0 _ _ n v F0 K), maps_set. split; [intros [(k & _ & X)|[_ [[X _]|[_ X]]]]; [exfalso; rewrite X in P; exact (dotted_not_plain _ _ P)|contradiction|exact X]|].
          intros X. right. split; [intros k w _ Y; rewrite Y in P; exact (dotted_not_plain _ _ P)|auto]. }
        unfold maps in X. destruct (obj_find n o) as [v|]; [apply X; reflexivity|]. destruct (obj_find n (fold_left _ _ _)) as [v|]; [|reflexivity]. symmetry. apply X. reflexivity.
    + intros n k P Pk. rewrite (B n k P Pk). cbn [obj_find]. destruct (bytes_eqb n n0) eqn:N.
      * apply bytes_eqb_eq in N. subst n0. destruct (obj_find n r) as [y|] eqn:Y; [exfalso; exact (sorted_absent _ _ _ S y Y)|].
        assert (X : forall v, maps (fold_left (fun o e => obj_set (dotted n (fst e)) (snd e) o) (rs_params x0) (obj_set n j o)) (dotted n k) v <-> maps (rs_params x0) k v \/ (obj_find k (rs_params x0) = None /\ maps o (dotted n k) v)).
        { intros v. rewrite (fold_maps n P _ _ (dotted n k) v F0 K), maps_set. split.
          - intros [(k' & M & X)|[M [[X _]|[_ X]]]]; [destruct (dotted_inj _ _ _ _ P P X) as [_ ->]; auto|exfalso; rewrite <- X in P; exact (dotted_not_plain _ _ P)|]. right. split; [|exact X]. destruct (obj_find k (rs_params x0)) as [w|] eqn:W; [exfalso; exact (M k w W eq_refl)|reflexivity].
          - intros [M|[M X]]; [left; exists k; auto|]. right. split; [intros k' w Y' Z'; destruct (dotted_inj _ _ _ _ P P Z') as [_ ->]; unfold maps in Y'; congruence|]. right. split; [|exact X]. intros Y'. rewrite <- Y' in P. exact (dotted_not_plain _ _ P). }
        unfold maps in X. destruct (obj_find k (rs_params x0)) as [v|]; [apply X; auto|]. destruct (obj_find (dotted n k) o) as [v|]; [apply X; auto|]. destruct (obj_find (dotted n k) (fold_left _ _ _)) as [v|]; [|reflexivity]. destruct (proj1 (X v) eq_refl) as [Y1|[_ Y1]]; discriminate Y1.
      * destruct (match obj_find n r with Some x => obj_find k (rs_params x) | None => None end); [reflexivity|]. assert (N' : n <> n0) by (intros ->; rewrite text_eqb_refl in N; discriminate N).
        assert (X : forall v, maps (fold_left (fun o e => obj_set (dotted n0 (fst e)) (snd e) o) (rs_params x0) (obj_set n0 j o)) (dotted n k) v <-> maps o (dotted n k) v).
        { intros v. rewrite (fold_maps n0 P0 _ _ (dotted n k) v F0 K), maps_set. split.
          - intros [(k' & _ & X)|[_ [[X _]|[_ X]]]]; [destruct (dotted_inj _ _ _ _ P P0 X) as [X' _]; contradiction|exfalso; rewrite <- X in P0; exact (dotted_not_plain _ _ P0)|exact X].
          - intros X. right. split; [intros k' w _ Y; destruct (dotted_inj _ _ _ _ P P0 Y) as [Y' _]; contradiction|]. right. split; [|exact X]. intros Y. rewrite <- Y in P0. exact (dotted_not_plain _ _ P0). }
        unfold maps in X. destruct (obj_find (dotted n k) o) as [v|]; [apply X; reflexivity|]. destruct (obj_find (dotted n k) (fold_left _ _ _)) as [v|]; [|reflexivity]. symmetry. apply X. reflexivity.
Qed.

Lemma results_back r o : results_ok r -> answer_of r = Ret o -> results_of o = Ret r <-> Forall told r.
Proof.
  intros [Sr Fr] E. unfold answer_of in E. assert (So : sorted o) by (eapply answer_sorted; [apply sorted_nil|exact E]). rewrite (results_exact o r So). pose proof (answer_has _ _ _ E) as H. split.
  - intros [_ (A & B & C)].
    assert (PN : forall n x, In (n, x) r -> plain n). { intros n x I. apply in_maps in I; [|exact Sr]. apply (A n (rs_accepted x)). exists x. auto. }
    apply Forall_forall. intros [n x] I. split; cbn [fst snd]; [eapply PN; exact I|]. destruct (rs_accepted x) as [[]|s|] eqn:Q.
    + left. split; [exact Q|]. apply Forall_forall. intros [k v] J. cbn [fst]. assert (Hk : has o (dotted n k)) by (apply H; right; right; exists n, x, k, v; auto). destruct Hk as [w M]. destruct (C _ _ M) as [X|(n' & k' & j & X & Pn & Pk & _)]; [exfalso; exact (dotted_not_plain _ _ X)|].
      destruct (dotted_inj _ _ _ _ (PN n x I) Pn X) as [_ ->]. exact Pk.
    + right. destruct (rs_params x) as [|[k v] q] eqn:W; [reflexivity|]. exfalso. assert (Y : maps o (dotted n k) v). { apply (B n k v). exists x. split; [apply in_maps; assumption|]. rewrite W. apply maps_cons. auto. }
      destruct (proj1 (H (dotted n k)) (ex_intro _ v Y)) as [[? X]|[(y & J)|(n' & y & k' & v' & J & G & _ & X)]]; [discriminate X|exact (dotted_not_plain _ _ (PN _ _ J))|].
      destruct (dotted_inj _ _ _ _ (PN n x I) (PN _ _ J) X) as [-> _]. apply in_maps in I; [|exact Sr]. apply in_maps in J; [|exact Sr]. rewrite (maps_fun _ _ _ _ I J) in Q. unfold good in G. congruence.
    + right. destruct (rs_params x) as [|[k v] q] eqn:W; [reflexivity|]. exfalso. assert (Y : maps o (dotted n k) v). { apply (B n k v). exists x. split; [apply in_maps; assumption|]. rewrite W. apply maps_cons. auto. }
      destruct (proj1 (H (dotted n k)) (ex_intro _ v Y)) as [[? X]|[(y & J)|(n' & y & k' & v' & J & G & _ & X)]]; [discriminate X|exact (dotted_not_plain _ _ (PN _ _ J))|].
      destruct (dotted_inj _ _ _ _ (PN n x I) (PN _ _ J) X) as [-> _]. apply in_maps in I; [|exact Sr]. apply in_maps in J; [|exact Sr]. rewrite (maps_fun _ _ _ _ I J) in Q. unfold good in G. congruence.
    + right. destruct (rs_params x) as [|[k v] q] eqn:W; [reflexivity|]. exfalso. assert (Y : maps o (dotted n k) v). { apply (B n k v). exists x. split; [apply in_maps; assumption|]. rewrite W. apply maps_cons. auto. }
      destruct (proj1 (H (dotted n k)) (ex_intro _ v Y)) as [[? X]|[(y & J)|(n' & y & k' & v' & J & G & _ & X)]]; [discriminate X|exact (dotted_not_plain _ _ (PN _ _ J))|].
      destruct (dotted_inj _ _ _ _ (PN n x I) (PN _ _ J) X) as [-> _]. apply in_maps in I; [|exact Sr]. apply in_maps in J; [|exact Sr]. rewrite (maps_fun _ _ _ _ I J) in Q. unfold good in G. congruence.
  - intros T. split; [split; assumption|]. destruct (answer_maps _ _ _ Sr Fr T E) as [A B]. rewrite Forall_forall in T, Fr.
    assert (J : forall n x, maps r n x -> plain n /\ exists j, acc_json (rs_accepted x) = Ret j /\ maps o n j).
    { intros n x M. destruct (T _ (maps_in _ _ _ M)) as [P _]. cbn [fst] in P. split; [exact P|]. pose proof (A n P) as Y. unfold maps in M. rewrite M in Y.
      destruct (rs_accepted x) as [b|s|] eqn:Q; cbn [acc_json] in Y |- *; [eauto|eauto|]. exfalso.
      assert (Hn : has o n) by (apply H; right; left; exists x; apply maps_in; exact M). destruct Hn as [v Hn]. unfold maps in Hn. congruence. }
    split; [|split].
    + intros n a. split.
      * intros (x & M & <-). destruct (J n x M) as (P & j & Q & Mo). split; [exact P|]. exists j. split; [exact Mo|]. apply acc_json_read. exact Q.
      * intros (P & j & M & Q). unfold maps in M. rewrite (A n P) in M. destruct (obj_find n r) as [x|] eqn:X; [|discriminate M]. exists x. split; [exact X|]. destruct (acc_json (rs_accepted x)) eqn:Y; try discriminate M. assert (a0 = j) as -> by congruence. rewrite <- Q. symmetry. apply acc_json_read. exact Y.
    + intros n k v. split.
      * intros (x & M & X). destruct (T _ (maps_in _ _ _ M)) as [P [[_ K]|K]]; cbn [fst snd] in *; [|rewrite K in X; discriminate X]. rewrite Forall_forall in K. pose proof (K _ (maps_in _ _ _ X)) as Pk. cbn [fst] in Pk. split; [exact P|]. split; [exact Pk|].
        unfold maps. rewrite (B n k P Pk). unfold maps in M, X. rewrite M, X. reflexivity.
      * intros (P & Pk & M). unfold maps in M. rewrite (B n k P Pk) in M. destruct (obj_find n r) as [x|] eqn:X; [|discriminate M]. exists x. split; [exact X|]. unfold maps. destruct (obj_find k (rs_params x)); [exact M|discriminate M].
    + intros p v M. destruct (proj1 (H p) (ex_intro _ v M)) as [[? X]|[(x & I)|(n & x & k & w & I & G & K & ->)]]; [discriminate X| |].
      * left. destruct (T _ I) as [P _]. exact P.
      * right. pose proof (in_maps _ _ _ Sr I) as Mr. destruct (J n x Mr) as (P & j & _ & Mo). exists n, k, j. split; [reflexivity|]. split; [exact P|]. split; [|exact Mo].
        destruct (T _ I) as [_ [[_ F]|F]]; cbn [snd] in F; [rewrite Forall_forall in F; exact (F _ K)|rewrite F in K; destruct K].
Qed.
Lemma answer_throws : forall r o, answer_of_from r o = Throw tt <-> exists n x, In (n, x) r /\ rs_accepted x = AccNone.
Proof.
  induction r as [|[n x] r IH]; intros o; cbn [answer_of_from].
  - split; [discriminate|]. intros (n & x & [] & _).
  - destruct (rs_accepted x) as [[]|s|] eqn:A; cbn [acc_json acc_bool bind].
    + rewrite IH. split; [intros (n' & y & I & Y); exists n', y; split; [right; exact I|exact Y]|]. intros (n' & y & [I|I] & Y); [congruence|exists n', y; auto].
    + rewrite IH. split; [intros (n' & y & I & Y); exists n', y; split; [right; exact I|exact Y]|]. intros (n' & y & [I|I] & Y); [congruence|exists n', y; auto].
    + rewrite IH. split; [intros (n' & y & I & Y); exists n', y; split; [right; exact I|exact Y]|]. intros (n' & y & [I|I] & Y); [congruence|exists n', y; auto].
    + split; [|reflexivity]. intros _. exists n, x. split; [left; reflexivity|exact A].
Qed.
