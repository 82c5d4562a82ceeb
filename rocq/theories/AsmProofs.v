From Coq Require Import String Lia ZifyBool ZifyNat ZifyN.
From Verif Require Import Base BaseProofs TextModel TextFormProofs EnvelopeProofs ScriptModel ScriptSpec ScriptProofs ProgramProofs StraightEval TscModel TscJsonProofs Bip44Model AsmModel AsmSpec.
Local Open Scope list_scope.
Local Open Scope N_scope.

Section Asm.
Variable up : bool.

(* ---- facts about all opcodes, by looking at each *)
Lemma all_bytes (f : byte -> bool) : forallb (fun n => f (n2b (N.of_nat n))) (List.seq 0 256) = true -> forall o, f o = true.
Proof.
  intros F o. rewrite forallb_forall in F. specialize (F (N.to_nat (b2n o))). rewrite N2Nat.id, n2b_b2n in F. apply F. apply List.in_seq.
  pose proof (b2n_lt o). lia.
Qed.
Definition codes : list byte := map (fun n => n2b (N.of_nat n)) (List.seq 0x4f 107).
Lemma in_codes o : 0x4e < b2n o < 0xba -> In o codes.
Proof.
  intros L. unfold codes. apply in_map_iff. exists (N.to_nat (b2n o)). split; [rewrite N2Nat.id; apply n2b_b2n|]. apply List.in_seq. lia.
Qed.
Fixpoint distinct (l : list bytes) : bool := match l with [] => true | x :: r => forallb (fun y => negb (bytes_eqb x y)) r && distinct r end.
Lemma distinct_inj {A} (f : A -> bytes) l : distinct (map f l) = true -> forall a b, In a l -> In b l -> f a = f b -> a = b.
Proof.
  induction l as [|x r IH]; intros D a b Ia Ib E; [destruct Ia|]. cbn [map distinct] in D. apply andb_prop in D. destruct D as (D & D'). rewrite forallb_forall in D.
  assert (G : forall y, In y r -> f x <> f y). { intros y Iy X. specialize (D (f y) (in_map f _ _ Iy)). rewrite X, bytes_eqb_refl in D. discriminate D. }
  destruct Ia as [<- | Ia]; destruct Ib as [<- | Ib]; [reflexivity|exfalso; exact (G _ Ib E)|exfalso; exact (G _ Ia (eq_sym E))|exact (IH D' a b Ia Ib E)].
Qed.
Lemma op_texts a b : 0x4e < b2n a < 0xba -> 0x4e < b2n b < 0xba -> op_text a = op_text b -> a = b.
Proof. intros A B. apply (distinct_inj op_text codes); [vm_compute; reflexivity|apply in_codes; exact A|apply in_codes; exact B]. Qed.
Definition no_space (s : bytes) : bool := negb (existsb (byte_eqb x20) s).
Lemma no_space_in s : no_space s = true <-> ~ In x20 s.
Proof.
  unfold no_space. rewrite negb_true_iff. split.
  - intros E I. assert (X : existsb (byte_eqb x20) s = true) by (apply existsb_exists; exists x20; split; [exact I|reflexivity]). congruence.
  - intros N. destruct (existsb (byte_eqb x20) s) eqn:E; [|reflexivity]. exfalso. apply N. apply existsb_exists in E. destruct E as (y & I & E). apply byte_eqb_eq in E. subst y. exact I.
Qed.
Lemma op_text_plain o : no_space (op_text o) = true.
Proof. revert o. apply all_bytes. vm_compute. reflexivity. Qed.
Lemma op_text_hex o : 0x4e < b2n o -> hex_read (op_text o) = None /\ op_text o <> [] /\ op_text o <> text "0".
Proof.
  intros L. assert (G : (b2n o <=? 0x4e) || (match hex_read (op_text o) with None => true | _ => false end && negb (bytes_eqb (op_text o) []) && negb (bytes_eqb (op_text o) (text "0"))) = true).
  { revert o L. intros o _. revert o. apply all_bytes. vm_compute. reflexivity. }
  replace (b2n o <=? 0x4e) with false in G by lia. cbn [orb] in G. destruct (hex_read (op_text o)); [discriminate G|]. cbn [andb] in G. apply andb_prop in G. destruct G as (G1 & G2).
  split; [reflexivity|]. split; intros X; rewrite X, bytes_eqb_refl in *; discriminate.
Qed.
Lemma hex_plain (s b : bytes) : hex_read s = Some b -> ~ In x20 s.
Proof.
  assert (G : forall n s b, (length s <= n)%nat -> hex_read s = Some b -> ~ In x20 s).
  { induction n as [|n IH]; intros [|c [|d r]] v L E; cbn [length] in L; try lia; try discriminate E; try (solve [intros []]).
    cbn [hex_read] in E. destruct (hex_digit c) as [x|] eqn:C; [|discriminate E]. destruct (hex_digit d) as [y|] eqn:D; [|discriminate E]. destruct (hex_read r) as [w|] eqn:R; [|discriminate E].
    intros [X|[X|X]]; [subst c; vm_compute in C; discriminate C|subst d; vm_compute in D; discriminate D|]. apply (IH r w); [lia|exact R|exact X]. }
  apply (G (length s)). lia.
Qed.

(* ---- words *)
Definition word_text (w : word) : bytes := match w with Zero => text "0" | Data d => hex_of up d | Code o => op_text o end.
Definition word_at (i : instr) : word :=
  if byte_eqb (i_op i) x00 then Zero else if is_push_data (i_op i) then Data (i_data i) else Code (i_op i).
Lemma asm_word i : asm_instr up i = word_text (word_at i).
Proof. unfold asm_instr, word_at. destruct (byte_eqb (i_op i) x00); [reflexivity|]. destruct (is_push_data (i_op i)); reflexivity. Qed.
Lemma b2n_0 o : b2n o = 0 -> o = x00.
Proof. intros E. rewrite <- (n2b_b2n o), E. reflexivity. Qed.
Lemma word_at_exact i w : word_of i w <-> w = word_at i.
Proof.
  unfold word_of, word_at, is_push_data. destruct (byte_eqb (i_op i) x00) eqn:Z.
  - apply byte_eqb_eq in Z. rewrite Z. change (b2n x00) with 0. split; [intros [(_ & X)|[(X & _)|(X & _)]]; [exact X|lia|lia]|intros X; left; split; [reflexivity|exact X]].
  - assert (NZ : i_op i <> x00). { intros X. rewrite X in Z. discriminate Z. }
    assert (P : 0 < b2n (i_op i)). { destruct (N.eq_dec (b2n (i_op i)) 0) as [X|X]; [apply b2n_0 in X; contradiction|lia]. }
    destruct (b2n (i_op i) <=? 0x4e) eqn:L.
    + split; [intros [(X & _)|[(_ & X)|(X & _)]]; [contradiction|exact X|lia]|intros X; right; left; split; [lia|exact X]].
    + split; [intros [(X & _)|[(X & _)|(_ & X)]]; [contradiction|lia|exact X]|intros X; right; right; split; [lia|exact X]].
Qed.
Lemma alike_exact p q : alike p q <-> map word_at p = map word_at q.
Proof.
  unfold alike. split.
  - induction 1 as [|i j p q (w & A & B) _ IH]; [reflexivity|]. cbn [map]. apply word_at_exact in A, B. congruence.
  - revert q. induction p as [|i p IH]; intros [|j q] E; cbn [map] in E; try discriminate E; [constructor|].
    constructor; [exists (word_at i); split; apply word_at_exact; congruence|apply IH; congruence].
Qed.
Definition defined_word (w : word) : Prop := match w with Code o => 0x4e < b2n o < 0xba | _ => True end.
Lemma word_texts v w : defined_word v -> defined_word w -> word_text v = word_text w -> v = w.
Proof.
  assert (Z : forall d, text "0" <> hex_of up d). { intros d X. pose proof (hex_of_read up d) as R. rewrite <- X in R. discriminate R. }
  assert (O : forall o d, 0x4e < b2n o -> op_text o <> hex_of up d). { intros o d L X. destruct (op_text_hex o L) as (N & _). rewrite X, hex_of_read in N. discriminate N. }
  destruct v as [|d|o], w as [|e|c]; cbn [word_text defined_word]; intros A B E.
  - reflexivity.
  - exfalso. exact (Z _ E).
  - exfalso. destruct (op_text_hex c ltac:(lia)) as (_ & _ & X). congruence.
  - exfalso. exact (Z _ (eq_sym E)).
  - f_equal. pose proof (hex_of_read up d) as R. rewrite E, hex_of_read in R. congruence.
  - exfalso. exact (O c d ltac:(lia) (eq_sym E)).
  - exfalso. destruct (op_text_hex o ltac:(lia)) as (_ & _ & X). congruence.
  - exfalso. exact (O o e ltac:(lia) E).
  - f_equal. exact (op_texts o c A B E).
Qed.
Lemma word_plain w : ~ In x20 (word_text w).
Proof.
  destruct w as [|d|o]; cbn [word_text].
  - apply no_space_in. reflexivity.
  - apply (hex_plain _ d). apply hex_of_read.
  - apply no_space_in. apply op_text_plain.
Qed.
Lemma word_empty w : defined_word w -> word_text w = [] <-> w = Data [].
Proof.
  destruct w as [|d|o]; cbn [word_text defined_word]; intros D.
  - split; intros E; discriminate E.
  - split; intros E; [pose proof (hex_of_read up d) as R; rewrite E in R; cbn [hex_read] in R; congruence|].
    assert (d = []) as -> by congruence. destruct up; reflexivity.
  - destruct (op_text_hex o ltac:(lia)) as (_ & X & _). split; intros E; [contradiction|discriminate E].
Qed.

(* ---- texts with spaces *)
Lemma split_space (a b c d : bytes) : ~ In x20 a -> ~ In x20 c -> a ++ x20 :: b = c ++ x20 :: d -> a = c /\ b = d.
Proof.
  revert c. induction a as [|x a IH]; intros [|y c] A C E; cbn [app] in E.
  - split; [reflexivity|congruence].
  - exfalso. apply C. left. congruence.
  - exfalso. apply A. left. congruence.
  - assert (x = y) as -> by congruence. destruct (IH c) as (-> & ->); [intros X; apply A; right; exact X|intros X; apply C; right; exact X|congruence|]. split; reflexivity.
Qed.
Lemma spaced_inj : forall l m, Forall (fun x => ~ In x20 x) l -> Forall (fun x => ~ In x20 x) m -> l <> [] -> m <> [] -> spaced l = spaced m -> l = m.
Proof.
  induction l as [|x l IH]; intros m Fl Fm Nl Nm E; [contradiction|]. destruct m as [|y m]; [contradiction|].
  apply Forall_cons_iff in Fl, Fm. destruct Fl as (X & Fl), Fm as (Y & Fm).
  destruct l as [|x' l], m as [|y' m].
  - cbn [spaced] in E. congruence.
  - exfalso. change (x = y ++ x20 :: spaced (y' :: m)) in E. apply X. rewrite E. apply in_app_iff. right. left. reflexivity.
  - exfalso. change (x ++ x20 :: spaced (x' :: l) = y) in E. apply Y. rewrite <- E. apply in_app_iff. right. left. reflexivity.
  - change (x ++ x20 :: spaced (x' :: l) = y ++ x20 :: spaced (y' :: m)) in E. destruct (split_space _ _ _ _ X Y E) as (-> & E'). f_equal.
    apply IH; [exact Fl|exact Fm|discriminate|discriminate|exact E'].
Qed.
Lemma spaced_nil l : spaced l = [] <-> l = [] \/ l = [[]].
Proof.
  destruct l as [|x [|y l]].
  - split; [intros _; left; reflexivity|reflexivity].
  - cbn [spaced]. split; [intros ->; right; reflexivity|intros [E|E]; [discriminate E|congruence]].
  - change (spaced (x :: y :: l)) with (x ++ x20 :: spaced (y :: l)). split; [destruct x; discriminate|intros [E|E]; discriminate E].
Qed.

(* ---- programs *)
Lemma known_defined i : known_op (i_op i) -> defined_word (word_at i).
Proof.
  unfold known_op, word_at, is_push_data. intros (V & _). destruct (byte_eqb (i_op i) x00) eqn:Z; [exact Logic.I|]. destruct (b2n (i_op i) <=? 0x4e) eqn:L; [exact Logic.I|]. cbn [defined_word]. lia.
Qed.
Lemma empty_exact p : (forall i, In i p -> instr_fits i) -> empty_push p <-> map word_at p = [Data []].
Proof.
  intros W. unfold empty_push. split.
  - intros (o & O & ->). cbn [In] in O. destruct O as [<- | [<- | [<- | []]]]; reflexivity.
  - destruct p as [|i [|j p]]; cbn [map]; intros E; try discriminate E. destruct (W i (or_introl eq_refl)) as (W1 & W2).
    assert (F : word_at i = Data []) by congruence. symmetry in F. apply word_at_exact in F. unfold word_of in F. destruct F as [(_ & X)|[(L & X)|(_ & X)]]; try discriminate X.
    assert (D : i_data i = []) by congruence. destruct (N.le_gt_cases (b2n (i_op i)) 75) as [Q|Q]; [specialize (W2 Q); rewrite D in W2; unfold len in W2; cbn [length] in W2; lia|].
    exists (i_op i). split; [|destruct i as [o d]; cbn [i_op i_data] in *; subst d; reflexivity].
    rewrite <- (n2b_b2n (i_op i)). assert (b2n (i_op i) = 0x4c \/ b2n (i_op i) = 0x4d \/ b2n (i_op i) = 0x4e) as [X1|[X1|X1]] by lia; rewrite X1; cbn [In]; [left|right; left|right; right; left]; reflexivity.
Qed.
Lemma segment_fits i c : is_inst i c -> instr_fits i.
Proof.
  unfold is_inst, instr_fits. intros F. destruct i as [o d]; cbn [i_op i_data] in *. inversion F; subst.
  - rewrite b2n_n2b. rewrite N.mod_small by lia. split; [intros X; lia|intros _; reflexivity].
  - change (b2n x4c) with 0x4c. split; intros X; lia.
  - change (b2n x4d) with 0x4d. split; intros X; lia.
  - change (b2n x4e) with 0x4e. split; intros X; lia.
  - split; [intros _; reflexivity|intros X; lia].
Qed.
Lemma decompiled b p : decompile b = Ret p -> (forall i, In i p -> instr_fits i) /\ Forall defined_word (map word_at p).
Proof.
  intros D. destruct (decompile_segments b p D) as (s & S0 & _ & K). clear D. split.
  - clear K. induction S0 as [|i p c s F _ IH]; intros j I; [destruct I|]. destruct I as [<- |I]; [exact (segment_fits _ _ F)|exact (IH _ I)].
  - clear S0. apply Forall_map. unfold ops in K. apply (proj1 (Forall_map _ _ _)) in K. eapply Forall_impl; [|exact K]. intros i. exact (known_defined i).
Qed.
Lemma asm_text b p : decompile b = Ret p -> asm up b = Ret (spaced (map word_text (map word_at p))).
Proof. intros D. unfold asm. rewrite D, map_map. f_equal. f_equal. apply map_ext. exact asm_word. Qed.
Lemma word_lists : forall v w, Forall defined_word v -> Forall defined_word w -> map word_text v = map word_text w -> v = w.
Proof.
  induction v as [|x v IH]; intros [|y w] A B E; cbn [map] in E; try discriminate E; [reflexivity|].
  apply Forall_cons_iff in A, B. destruct A as (A & A'), B as (B & B'). f_equal; [apply word_texts; [exact A|exact B|congruence]|apply IH; [exact A'|exact B'|congruence]].
Qed.
Lemma words_plain v : Forall (fun x => ~ In x20 x) (map word_text v).
Proof. apply Forall_map. apply Forall_forall. intros w _. apply word_plain. Qed.
Lemma words_nil v : Forall defined_word v -> spaced (map word_text v) = [] <-> v = [] \/ v = [Data []].
Proof.
  intros F. rewrite spaced_nil. destruct v as [|x [|y v]]; cbn [map].
  - split; intros _; left; reflexivity.
  - apply Forall_cons_iff in F. destruct F as (F & _). split.
    + intros [E|E]; [discriminate E|]. right. f_equal. apply word_empty; [exact F|]. congruence.
    + intros [E|E]; [discriminate E|]. right. f_equal. apply word_empty; [exact F|]. congruence.
  - split; intros [E|E]; discriminate E.
Qed.
Theorem asm_exact a b p q : decompile a = Ret p -> decompile b = Ret q ->
  asm up a = asm up b <-> alike p q \/ (p = [] /\ empty_push q) \/ (empty_push p /\ q = []).
Proof.
  intros A B. rewrite (asm_text _ _ A), (asm_text _ _ B). destruct (decompiled _ _ A) as (Wp & Fp), (decompiled _ _ B) as (Wq & Fq).
  rewrite alike_exact, (empty_exact p Wp), (empty_exact q Wq).
  assert (NP : p = [] <-> map word_at p = []) by (destruct p; split; intros X; try reflexivity; discriminate X).
  assert (NQ : q = [] <-> map word_at q = []) by (destruct q; split; intros X; try reflexivity; discriminate X).
  rewrite NP, NQ. clear NP NQ A B Wp Wq. revert Fp Fq. generalize (map word_at p). generalize (map word_at q). intros w v Fv Fw. split.
  - intros E. assert (E' : spaced (map word_text v) = spaced (map word_text w)) by congruence. clear E.
    destruct v as [|x v].
    + symmetry in E'. apply (words_nil w Fw) in E'. destruct E' as [-> | ->]; [left; reflexivity|right; left; split; reflexivity].
    + destruct w as [|y w].
      * apply (words_nil _ Fv) in E'. destruct E' as [E' | E']; [discriminate E'|right; right; split; [exact E'|reflexivity]].
      * left. apply word_lists; [exact Fv|exact Fw|]. apply spaced_inj; [apply words_plain|apply words_plain|discriminate|discriminate|exact E'].
  - intros [-> | [(-> & ->)|(-> & ->)]]; [reflexivity| |]; cbn [map word_text spaced]; destruct up; reflexivity.
Qed.

(* ---- minimal scripts *)
Lemma same_op i j : instr_fits i -> instr_fits j -> word_at i = word_at j -> i_op i = i_op j -> i = j.
Proof.
  intros (I1 & I2) (J1 & J2) E O. destruct i as [o d], j as [o' d']; cbn [i_op i_data] in *. subst o'. f_equal. symmetry in E. apply word_at_exact in E. unfold word_of in E. cbn [i_op i_data] in E.
  destruct E as [(Z & _)|[(L & X)|(L & X)]].
  - subst o. change (b2n x00) with 0 in *. specialize (I2 ltac:(lia)). specialize (J2 ltac:(lia)). unfold len in *. destruct d, d'; cbn [length] in *; try lia. reflexivity.
  - unfold word_at, is_push_data in X. cbn [i_op i_data] in X. replace (byte_eqb o x00) with false in X; [|destruct (byte_eqb o x00) eqn:Z; [apply byte_eqb_eq in Z; subst o; change (b2n x00) with 0 in L; lia|reflexivity]].
    replace (b2n o <=? 0x4e) with true in X by lia. congruence.
  - rewrite (I1 L), (J1 L). reflexivity.
Qed.
Lemma push_form o d c : inst_form o d c -> 0 < b2n o <= 0x4e -> is_minimal_push o d = true ->
  b2n o = (if len d <=? 75 then len d else if len d <=? 255 then 0x4c else if len d <=? 65535 then 0x4d else 0x4e) /\
  c = (if len d <=? 75 then n2b (len d) :: d else if len d <=? 255 then x4c :: le 1 (len d) ++ d else if len d <=? 65535 then x4d :: le 2 (len d) ++ d else x4e :: le 4 (len d) ++ d).
Proof.
  intros F L M. unfold is_minimal_push, is_push_data in M. replace (b2n o <=? 0x4e) with true in M by lia. cbn [negb] in M. destruct (small_push d); [discriminate M|].
  destruct F as [d Ld|d Ld|d Ld|d Ld|o Lo].
  - rewrite b2n_n2b in *. rewrite N.mod_small in * by lia. replace (len d <=? 75) with true by lia. split; reflexivity.
  - change (75 <? len d = true) in M. change (b2n x4c) with 0x4c. replace (len d <=? 75) with false by lia. replace (len d <=? 255) with true by lia. split; reflexivity.
  - change (256 <? len d = true) in M. change (b2n x4d) with 0x4d. replace (len d <=? 75) with false by lia. replace (len d <=? 255) with false by lia. replace (len d <=? 65535) with true by lia. split; reflexivity.
  - change (65536 <? len d = true) in M. change (b2n x4e) with 0x4e. replace (len d <=? 75) with false by lia. replace (len d <=? 255) with false by lia. replace (len d <=? 65535) with false by lia. split; reflexivity.
  - lia.
Qed.
Lemma minimal_one i j c d : is_inst i c -> is_inst j d -> is_minimal_instruction i = true -> is_minimal_instruction j = true -> word_at i = word_at j -> i = j.
Proof.
  intros Fi Fj Mi Mj E. pose proof (segment_fits _ _ Fi) as Wi. pose proof (segment_fits _ _ Fj) as Wj. apply same_op; [exact Wi|exact Wj|exact E|].
  pose proof (proj2 (word_at_exact i _) eq_refl) as Ai. pose proof (proj2 (word_at_exact j _) eq_refl) as Aj. rewrite <- E in Aj. unfold word_of in Ai, Aj.
  destruct Ai as [(A & A')|[(A & A')|(A & A')]]; destruct Aj as [(B & B')|[(B & B')|(B & B')]]; try congruence.
  assert (D : i_data i = i_data j) by congruence. unfold is_minimal_instruction in Mi, Mj. apply andb_prop in Mi, Mj. destruct Mi as (_ & Mi), Mj as (_ & Mj).
  destruct (push_form _ _ _ Fi A Mi) as (Oi & _), (push_form _ _ _ Fj B Mj) as (Oj & _). rewrite <- D, <- Oi in Oj.
  rewrite <- (n2b_b2n (i_op i)), <- (n2b_b2n (i_op j)), Oj. reflexivity.
Qed.
Lemma form_unique o d c c' : inst_form o d c -> inst_form o d c' -> c = c'.
Proof.
  assert (Q : forall k, k <= 75 -> n2b k <> x4c /\ n2b k <> x4d /\ n2b k <> x4e).
  { intros k L. repeat split; intros X; apply (f_equal b2n) in X; rewrite b2n_n2b, N.mod_small in X by lia; vm_compute in X; subst k; lia. }
  assert (R : forall k, k <= 75 -> b2n (n2b k) = k) by (intros k L; rewrite b2n_n2b; apply N.mod_small; lia).
  intros A B. destruct A as [d Ld|d Ld|d Ld|d Ld|o Lo]; inversion B; subst; try reflexivity; exfalso;
    try (match goal with H : len ?l <= 75 |- _ => destruct (Q _ H) as (Q1 & Q2 & Q3); rewrite ?(R _ H) in * end); try congruence; try lia;
    change (b2n x4c) with 0x4c in *; change (b2n x4d) with 0x4d in *; change (b2n x4e) with 0x4e in *; lia.
Qed.
Lemma minimal_programs : forall p s q t, segments p s -> segments q t -> forallb is_minimal_instruction p = true -> forallb is_minimal_instruction q = true ->
  map word_at p = map word_at q -> p = q /\ s = t.
Proof.
  intros p s q t A. revert q t. induction A as [|i p c s F A IH]; intros q t B Mp Mq E; destruct B as [|j q d t G B]; cbn [map] in E; try discriminate E; [split; reflexivity|].
  cbn [forallb] in Mp, Mq. apply andb_prop in Mp, Mq. destruct Mp as (Mi & Mp), Mq as (Mj & Mq).
  assert (i = j) as <- by (apply (minimal_one i j c d); [exact F|exact G|exact Mi|exact Mj|congruence]).
  destruct (IH q t B Mp Mq ltac:(congruence)) as (-> & ->). rewrite (form_unique _ _ _ _ F G). split; reflexivity.
Qed.
Theorem asm_unique a b : is_minimal_script a = Ret true -> is_minimal_script b = Ret true -> asm up a = asm up b -> a = b.
Proof.
  unfold is_minimal_script. intros A B E. destruct (decompile a) as [p|e|] eqn:Da; [|discriminate A|discriminate A]. destruct (decompile b) as [q|e|] eqn:Db; [|discriminate B|discriminate B].
  assert (Mp : forallb is_minimal_instruction p = true) by congruence. assert (Mq : forallb is_minimal_instruction q = true) by congruence. clear A B.
  apply (proj1 (asm_exact _ _ _ _ Da Db)) in E.
  assert (NE : forall r, forallb is_minimal_instruction r = true -> empty_push r -> False).
  { intros r M (o & O & ->). cbn [In] in O. destruct O as [<- | [<- | [<- | []]]]; discriminate M. }
  destruct E as [E|[(_ & E)|(E & _)]]; [|exfalso; exact (NE _ Mq E)|exfalso; exact (NE _ Mp E)]. apply alike_exact in E.
  destruct (decompile_segments _ _ Da) as (s & S1 & -> & _), (decompile_segments _ _ Db) as (t & S2 & -> & _). destruct (minimal_programs _ _ _ _ S1 S2 Mp Mq E) as (_ & ->). reflexivity.
Qed.
Theorem asm_throws b e : asm up b = Throw e <-> decompile b = Throw e.
Proof. unfold asm. destruct (decompile b); split; intros X; congruence. Qed.

(* ---- the text of an instruction *)
Definition all_codes : list byte := map (fun n => n2b (N.of_nat n)) (List.seq 0 0xba ++ [255%nat]).
Lemma in_all_codes o : named o -> In o all_codes.
Proof.
  intros [L|X]; unfold all_codes; apply in_map_iff.
  - exists (N.to_nat (b2n o)). split; [rewrite N2Nat.id; apply n2b_b2n|]. apply in_app_iff. left. apply List.in_seq. lia.
  - subst o. exists 255%nat. split; [reflexivity|]. apply in_app_iff. right. left. reflexivity.
Qed.
Lemma code_texts a b : named a -> named b -> code_text a = code_text b -> a = b.
Proof. intros A B. apply (distinct_inj code_text all_codes); [vm_compute; reflexivity|apply in_all_codes; exact A|apply in_all_codes; exact B]. Qed.
Lemma code_plain o : ~ In x7b (code_text o).
Proof.
  assert (G : existsb (byte_eqb x7b) (code_text o) = false). { apply Bool.negb_true_iff. revert o. apply (all_bytes (fun o => negb (existsb (byte_eqb x7b) (code_text o)))). vm_compute. reflexivity. }
  intros X. assert (Y : existsb (byte_eqb x7b) (code_text o) = true) by (apply existsb_exists; exists x7b; split; [exact X|reflexivity]). congruence.
Qed.
Lemma split_brace (a b c d : bytes) : ~ In x7b a -> ~ In x7b c -> a ++ x7b :: b = c ++ x7b :: d -> a = c /\ b = d.
Proof.
  revert c. induction a as [|x a IH]; intros [|y c] A C E; cbn [app] in E.
  - split; [reflexivity|congruence].
  - exfalso. apply C. left. congruence.
  - exfalso. apply A. left. congruence.
  - assert (x = y) as -> by congruence. destruct (IH c) as (-> & ->); [intros X; apply A; right; exact X|intros X; apply C; right; exact X|congruence|]. split; reflexivity.
Qed.
Theorem instr_text_exact i j : instr_fits i -> instr_fits j -> named (i_op i) -> named (i_op j) -> instr_text up i = instr_text up j <-> i = j.
Proof.
  intros (I1 & _) (J1 & _) Ni Nj. split; [|intros ->; reflexivity]. unfold instr_text.
  change (text "{" ++ hex_of up (i_data i) ++ text "}") with (x7b :: hex_of up (i_data i) ++ text "}"). change (text "{" ++ hex_of up (i_data j) ++ text "}") with (x7b :: hex_of up (i_data j) ++ text "}").
  assert (O : code_text (i_op i) = code_text (i_op j) -> i_data i = i_data j -> i = j).
  { intros O D. apply code_texts in O; [|exact Ni|exact Nj]. destruct i as [o d], j as [o' d']; cbn [i_op i_data] in *. congruence. }
  destruct (is_push_data (i_op i)) eqn:P, (is_push_data (i_op j)) eqn:Q; intros E.
  - destruct (split_brace _ _ _ _ (code_plain _) (code_plain _) E) as (A & B). apply O; [exact A|]. apply app_inv_tail in B. pose proof (hex_of_read up (i_data i)) as R. rewrite B, hex_of_read in R. congruence.
  - exfalso. apply (code_plain (i_op j)). rewrite <- E. apply in_app_iff. right. left. reflexivity.
  - exfalso. apply (code_plain (i_op i)). rewrite E. apply in_app_iff. right. left. reflexivity.
  - apply O; [exact E|]. unfold is_push_data in P, Q. rewrite (I1 ltac:(lia)), (J1 ltac:(lia)). reflexivity.
Qed.
Theorem unnamed_text o : ~ named o -> asm_instr up {| i_op := o; i_data := [] |} = text "OP_UNKNOWN" /\ instr_text up {| i_op := o; i_data := [] |} = text "OP_UNKNOWN".
Proof.
  intros N0. assert (G : ((b2n o <? 0xba) || byte_eqb o xff) || (bytes_eqb (asm_instr up {| i_op := o; i_data := [] |}) (text "OP_UNKNOWN") && bytes_eqb (instr_text up {| i_op := o; i_data := [] |}) (text "OP_UNKNOWN")) = true).
  { clear N0. revert o. apply (all_bytes (fun o => ((b2n o <? 0xba) || byte_eqb o xff) || (bytes_eqb (asm_instr up {| i_op := o; i_data := [] |}) (text "OP_UNKNOWN") && bytes_eqb (instr_text up {| i_op := o; i_data := [] |}) (text "OP_UNKNOWN")))).
    destruct up; vm_compute; reflexivity. }
  destruct (b2n o <? 0xba) eqn:A; [exfalso; apply N0; left; lia|]. destruct (byte_eqb o xff) eqn:B; [exfalso; apply N0; right; apply byte_eqb_eq; exact B|]. cbn [orb] in G. apply andb_prop in G. destruct G as (G1 & G2).
  split; apply bytes_eqb_eq; assumption.
Qed.
End Asm.

