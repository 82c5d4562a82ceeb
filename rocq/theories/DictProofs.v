(* Maps with text keys. *)
From Coq Require Import String Sorted Lia ZifyBool ZifyNat ZifyN.
From Verif Require Import Base BaseProofs TextModel WireModel JsonModel StratumModel StratumConfigModel StratumConfigSpec.
Local Open Scope N_scope.

Lemma text_eqb_refl s : bytes_eqb s s = true.
Proof. apply bytes_eqb_eq. reflexivity. Qed.
Lemma text_eqb_false a b : a <> b -> bytes_eqb a b = false.
Proof. intros N. destruct (bytes_eqb a b) eqn:E; [|reflexivity]. apply bytes_eqb_eq in E. contradiction. Qed.
Lemma byte_eqb_refl x : byte_eqb x x = true.
Proof. apply byte_eqb_eq. reflexivity. Qed.

(* ---------------------------------------------------------------- the order *)
Lemma text_lt_irrefl : forall a, text_lt a a = false.
Proof. induction a as [|x a IH]; [reflexivity|]. cbn [text_lt]. rewrite IH, andb_false_r. lia. Qed.
Lemma text_lt_trans : forall a b c, text_lt a b = true -> text_lt b c = true -> text_lt a c = true.
Proof.
  induction a as [|x a IH]; intros [|y b] [|z c]; cbn [text_lt]; try discriminate; auto.
  rewrite !orb_true_iff, !andb_true_iff, !byte_eqb_eq. intros [A|[-> A]] [B|[-> B]].
  - left. lia.
  - left. exact A.
  - left. exact B.
  - right. split; [reflexivity|]. eapply IH; eassumption.
Qed.
Lemma text_lt_total : forall a b, text_lt a b = false -> a <> b -> text_lt b a = true.
Proof.
  induction a as [|x a IH]; intros [|y b]; cbn [text_lt]; try (intros; congruence); auto.
  rewrite orb_false_iff, andb_false_iff. intros [A B] N. rewrite orb_true_iff, andb_true_iff, byte_eqb_eq. destruct (N.lt_trichotomy (b2n x) (b2n y)) as [C|[C|C]].
  - lia.
  - apply b2n_inj in C. subst y. right. split; [reflexivity|]. destruct B as [B|B]; [rewrite byte_eqb_refl in B; discriminate B|]. apply IH; [exact B|congruence].
  - left. lia.
Qed.

(* ---------------------------------------------------------------- find and set *)
Lemma find_set {A} k k' (v : A) : forall o, obj_find k (obj_set k' v o) = if bytes_eqb k k' then Some v else obj_find k o.
Proof.
  induction o as [|[j w] o IH]; cbn [obj_set obj_find]; [reflexivity|].
  destruct (bytes_eqb k' j) eqn:E; [|destruct (text_lt k' j)]; cbn [obj_find].
  - apply bytes_eqb_eq in E. subst j. destruct (bytes_eqb k k'); reflexivity.
  - reflexivity.
  - rewrite IH. destruct (bytes_eqb k j) eqn:F; [|reflexivity]. apply bytes_eqb_eq in F. subst j. destruct (bytes_eqb k k') eqn:G; [|reflexivity].
    apply bytes_eqb_eq in G. subst k'. rewrite text_eqb_refl in E. discriminate E.
Qed.
Lemma maps_set {A} k k' (v w : A) o : maps (obj_set k' v o) k w <-> (k = k' /\ w = v) \/ (k <> k' /\ maps o k w).
Proof.
  unfold maps. rewrite find_set. destruct (bytes_eqb k k') eqn:E.
  - apply bytes_eqb_eq in E. subst k'. split; [intros X; left; split; [reflexivity|congruence]|]. intros [[_ ->]|[X _]]; congruence.
  - assert (N : k <> k') by (intros ->; rewrite text_eqb_refl in E; discriminate E). split; [auto|]. intros [[X _]|[_ X]]; congruence.
Qed.
Lemma maps_fun {A} (o : dict A) k v w : maps o k v -> maps o k w -> v = w.
Proof. unfold maps. congruence. Qed.
Lemma maps_cons {A} k k' (v w : A) o : maps ((k', v) :: o) k w <-> (k = k' /\ w = v) \/ (k <> k' /\ maps o k w).
Proof.
  unfold maps. cbn [obj_find]. destruct (bytes_eqb k k') eqn:E.
  - apply bytes_eqb_eq in E. subst k'. split; [intros X; left; split; [reflexivity|congruence]|]. intros [[_ ->]|[X _]]; congruence.
  - assert (N : k <> k') by (intros ->; rewrite text_eqb_refl in E; discriminate E). split; [auto|]. intros [[X _]|[_ X]]; congruence.
Qed.
Lemma maps_nil {A} k (v : A) : ~ maps [] k v.
Proof. discriminate. Qed.
Lemma maps_in {A} (o : dict A) k v : maps o k v -> In (k, v) o.
Proof.
  induction o as [|[j w] o IH]; [discriminate|]. intros M. apply maps_cons in M. destruct M as [[-> ->]|[_ M]]; [left; reflexivity|right; apply IH; exact M].
Qed.

(* ---------------------------------------------------------------- sorted maps *)
Lemma sorted_nil {A} : sorted (@nil (bytes * A)).
Proof. constructor. Qed.
Lemma sorted_tail {A} e (o : dict A) : sorted (e :: o) -> sorted o.
Proof. intros S. apply StronglySorted_inv in S. apply S. Qed.
Lemma sorted_head {A} e (o : dict A) : sorted (e :: o) -> Forall (fun x => text_lt (fst e) (fst x) = true) o.
Proof. intros S. apply StronglySorted_inv in S. apply S. Qed.
Lemma sorted_absent {A} k v (o : dict A) : sorted ((k, v) :: o) -> forall w, ~ maps o k w.
Proof.
  intros S w M. apply maps_in in M. apply sorted_head in S. rewrite Forall_forall in S. specialize (S _ M). cbn [fst] in S. rewrite text_lt_irrefl in S. discriminate S.
Qed.
Lemma in_maps {A} (o : dict A) k v : sorted o -> In (k, v) o -> maps o k v.
Proof.
  induction o as [|[j w] o IH]; [contradiction|]. intros S [E|I].
  - apply maps_cons. left. split; congruence.
  - apply maps_cons. right. specialize (IH (sorted_tail _ _ S) I). split; [|exact IH]. intros ->. exact (sorted_absent _ _ _ S _ IH).
Qed.
Lemma set_forall {A} (P : bytes * A -> Prop) k v : forall o, Forall P o -> P (k, v) -> Forall P (obj_set k v o).
Proof.
  induction o as [|[j w] o IH]; intros F X; cbn [obj_set]; [constructor; auto|]. assert (Fo : Forall P o) by (inversion F; assumption). assert (Fj : P (j, w)) by (inversion F; assumption).
  destruct (bytes_eqb k j); [constructor; assumption|]. destruct (text_lt k j); constructor; auto.
Qed.
Lemma sorted_set {A} k (v : A) : forall o, sorted o -> sorted (obj_set k v o).
Proof.
  induction o as [|[j w] o IH]; intros S; cbn [obj_set]; [constructor; constructor|]. pose proof (sorted_head _ _ S) as H. cbn [fst] in H. pose proof (sorted_tail _ _ S) as T. destruct (bytes_eqb k j) eqn:E; [|destruct (text_lt k j) eqn:L].
  - apply bytes_eqb_eq in E. subst j. constructor; assumption.
  - constructor; [exact S|]. constructor; [exact L|]. eapply Forall_impl; [|exact H]. intros [i u] X. cbn [fst] in *. eapply text_lt_trans; eassumption.
  - constructor; [apply IH; exact T|]. apply set_forall; [exact H|]. cbn [fst]. apply text_lt_total; [exact L|]. intros ->. rewrite text_eqb_refl in E. discriminate E.
Qed.
Lemma sorted_ext {A} : forall (a b : dict A), sorted a -> sorted b -> (forall k v, maps a k v <-> maps b k v) -> a = b.
Proof.
  induction a as [|[k v] a IH]; intros [|[j w] b] Sa Sb E.
  - reflexivity.
  - exfalso. apply (maps_nil j w). apply E. apply maps_cons. auto.
  - exfalso. apply (maps_nil k v). apply E. apply maps_cons. auto.
  - assert (K : k = j).
    { assert (X : maps ((j, w) :: b) k v) by (apply E; apply maps_cons; auto). assert (Y : maps ((k, v) :: a) j w) by (apply E; apply maps_cons; auto).
      apply maps_cons in X. apply maps_cons in Y. destruct X as [[X _]|[_ X]]; [exact X|]. destruct Y as [[Y _]|[_ Y]]; [congruence|].
      apply maps_in in X. apply maps_in in Y. apply sorted_head in Sa. apply sorted_head in Sb. rewrite Forall_forall in Sa, Sb. specialize (Sa _ Y). specialize (Sb _ X). cbn [fst] in *.
      pose proof (text_lt_trans _ _ _ Sa Sb) as Z. rewrite text_lt_irrefl in Z. discriminate Z. }
    subst j. assert (V : v = w).
    { assert (X : maps ((k, w) :: b) k v) by (apply E; apply maps_cons; auto). apply maps_cons in X. destruct X as [[_ X]|[X _]]; congruence. }
    subst w. f_equal. apply IH; [exact (sorted_tail _ _ Sa)|exact (sorted_tail _ _ Sb)|]. intros i u. split; intros M.
    + assert (N : i <> k) by (intros ->; exact (sorted_absent _ _ _ Sa _ M)). assert (X : maps ((k, v) :: b) i u) by (apply E; apply maps_cons; auto). apply maps_cons in X. destruct X as [[X _]|[_ X]]; [contradiction|exact X].
    + assert (N : i <> k) by (intros ->; exact (sorted_absent _ _ _ Sb _ M)). assert (X : maps ((k, v) :: a) i u) by (apply E; apply maps_cons; auto). apply maps_cons in X. destruct X as [[X _]|[_ X]]; [contradiction|exact X].
Qed.

(* ---------------------------------------------------------------- dots *)
Lemma split_some s : exists p t, split_dots s = p :: t.
Proof. induction s as [|c s (p & t & E)]; cbn [split_dots]; [eauto|]. destruct (byte_eqb c dot); [eauto|]. rewrite E. eauto. Qed.
Lemma split_plain s : plain s -> split_dots s = [s].
Proof.
  unfold plain. induction s as [|c s IH]; intros P; cbn [split_dots]; [reflexivity|]. destruct (byte_eqb c dot) eqn:E; [apply byte_eqb_eq in E; exfalso; apply P; left; exact E|].
  rewrite IH; [reflexivity|]. intros I. apply P. right. exact I.
Qed.
Lemma split_dotted a b : plain a -> split_dots (dotted a b) = a :: split_dots b.
Proof.
  unfold plain, dotted. induction a as [|c a IH]; intros P; cbn [app split_dots]; [rewrite byte_eqb_refl; reflexivity|].
  destruct (byte_eqb c dot) eqn:E; [apply byte_eqb_eq in E; exfalso; apply P; left; exact E|]. rewrite IH; [reflexivity|]. intros I. apply P. right. exact I.
Qed.
Lemma split_one s n : split_dots s = [n] <-> plain s /\ s = n.
Proof.
  split; [|intros [P ->]; apply split_plain; exact P]. revert n. induction s as [|c s IH]; intros n; cbn [split_dots].
  - intros E. split; [intros []|congruence].
  - destruct (byte_eqb c dot) eqn:D; [destruct (split_some s) as (p & t & ->); discriminate|]. destruct (split_some s) as (p & t & E). rewrite E. intros X. assert (t = []) as -> by congruence. assert (c :: p = n) as <- by congruence.
    destruct (IH p E) as [P ->]. split; [|reflexivity]. intros [I|I]; [subst c; rewrite byte_eqb_refl in D; discriminate D|exact (P I)].
Qed.
Lemma split_two s n k : split_dots s = [n; k] <-> plain n /\ plain k /\ s = dotted n k.
Proof.
  split.
  - revert n. induction s as [|c s IH]; intros n; cbn [split_dots]; [discriminate|]. destruct (byte_eqb c dot) eqn:D.
    + intros X. assert (n = []) as -> by congruence. assert (E : split_dots s = [k]) by congruence. apply split_one in E. destruct E as [P ->]. apply byte_eqb_eq in D. subst c. split; [intros []|]. split; [exact P|reflexivity].
    + destruct (split_some s) as (p & t & E). rewrite E. intros X. assert (t = [k]) as -> by congruence. assert (c :: p = n) as <- by congruence.
      destruct (IH p E) as (P & Q & ->). split; [|split; [exact Q|reflexivity]]. intros [I|I]; [subst c; rewrite byte_eqb_refl in D; discriminate D|exact (P I)].
  - intros (P & Q & ->). rewrite split_dotted by exact P. rewrite split_plain by exact Q. reflexivity.
Qed.
Lemma dotted_inj a b c d : plain a -> plain c -> dotted a b = dotted c d -> a = c /\ b = d.
Proof.
  unfold plain, dotted. revert c. induction a as [|x a IH]; intros [|y c] P Q E; cbn [app] in E.
  - split; congruence.
  - exfalso. apply Q. left. congruence.
  - exfalso. apply P. left. congruence.
  - assert (x = y) as -> by congruence. destruct (IH c) as [-> ->]; [intros I; apply P; right; exact I|intros I; apply Q; right; exact I|congruence|auto].
Qed.
Lemma dotted_not_plain a b : ~ plain (dotted a b).
Proof. unfold plain, dotted. intros P. apply P. apply in_or_app. right. left. reflexivity. Qed.
