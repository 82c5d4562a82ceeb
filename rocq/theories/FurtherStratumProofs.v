(* Lemmas on dotted names, submit requests and empty proofs. *)
From Coq Require Import String.
From Verif Require Import Base BaseProofs TextModel FurtherSpec.
From Verif Require JsonModel StratumModel StratumSpec StratumProofs StratumFields StratumConfigModel WorkModel MerkleModel.
Local Open Scope list_scope.
Local Open Scope N_scope.

(* ---- names with dots ---- *)
Lemma split_nonempty s : StratumConfigModel.split_dots s <> [].
Proof. destruct s as [|c r]; [discriminate|]. cbn [StratumConfigModel.split_dots]. destruct (byte_eqb c StratumConfigModel.dot); [discriminate|]. destruct (StratumConfigModel.split_dots r); discriminate. Qed.
Lemma joined_cons c p t : joined ((c :: p) :: t) = c :: joined (p :: t).
Proof. destruct t; reflexivity. Qed.
Lemma split_joined s : joined (StratumConfigModel.split_dots s) = s.
Proof.
  induction s as [|c r IH]; [reflexivity|]. cbn [StratumConfigModel.split_dots]. assert (N := split_nonempty r).
  destruct (byte_eqb c StratumConfigModel.dot) eqn:E.
  - apply byte_eqb_eq in E. subst c. destruct (StratumConfigModel.split_dots r) as [|p t] eqn:D; [congruence|]. cbn [joined app]. cbn [joined] in IH. rewrite IH. reflexivity.
  - destruct (StratumConfigModel.split_dots r) as [|p t] eqn:D; [congruence|]. rewrite joined_cons, IH. reflexivity.
Qed.
Lemma split_parts s : Forall (fun p => ~ In "."%byte p) (StratumConfigModel.split_dots s).
Proof.
  induction s as [|c r IH]; [repeat constructor; intros []|]. cbn [StratumConfigModel.split_dots].
  destruct (byte_eqb c StratumConfigModel.dot) eqn:E; [constructor; [intros []|exact IH]|].
  assert (C : c <> "."%byte) by (intros ->; assert (byte_eqb "."%byte StratumConfigModel.dot = true) by reflexivity; congruence).
  destruct (StratumConfigModel.split_dots r) as [|p t]; [repeat constructor; intros [X|[]]; congruence|].
  inversion IH as [|? ? P T]; subst. constructor; [|exact T]. intros [X|X]; [congruence|exact (P X)].
Qed.
Lemma split_plain p : ~ In "."%byte p -> StratumConfigModel.split_dots p = [p].
Proof.
  induction p as [|c p IH]; intros N; [reflexivity|]. cbn [StratumConfigModel.split_dots].
  destruct (byte_eqb c StratumConfigModel.dot) eqn:E; [apply byte_eqb_eq in E; subst c; exfalso; apply N; left; reflexivity|].
  rewrite IH; [reflexivity|]. intros X. apply N. right. exact X.
Qed.
Lemma split_first p r : ~ In "."%byte p -> StratumConfigModel.split_dots (p ++ "."%byte :: r) = p :: StratumConfigModel.split_dots r.
Proof.
  induction p as [|c p IH]; intros N; [reflexivity|]. cbn [app StratumConfigModel.split_dots].
  destruct (byte_eqb c StratumConfigModel.dot) eqn:E; [apply byte_eqb_eq in E; subst c; exfalso; apply N; left; reflexivity|].
  rewrite IH; [reflexivity|]. intros X. apply N. right. exact X.
Qed.
Lemma joined_split ps : ps <> [] -> Forall (fun p => ~ In "."%byte p) ps -> StratumConfigModel.split_dots (joined ps) = ps.
Proof.
  intros N F. induction F as [|p r P F IH]; [congruence|]. destruct r as [|q r]; [apply split_plain, P|].
  cbn [joined]. change (text ".") with ["."%byte]. cbn [app]. rewrite split_first by exact P. f_equal. apply IH. discriminate.
Qed.
Theorem split_exact s ps : StratumConfigModel.split_dots s = ps <-> ps <> [] /\ joined ps = s /\ Forall (fun p => ~ In "."%byte p) ps.
Proof.
  split; [intros <-; split; [apply split_nonempty|]; split; [apply split_joined|apply split_parts]|].
  intros (N & <- & F). apply joined_split; assumption.
Qed.
Theorem dotted_exact a b : StratumConfigModel.dotted a b = joined [a; b].
Proof. reflexivity. Qed.

(* ---- submit requests ---- *)
Theorem submit_valid_exact j : StratumModel.submit_valid j = Ret true <->
  StratumModel.request_valid j = true /\ exists s, StratumModel.ss_name s <> [] /\ StratumSpec.says_share (StratumModel.msg_params j) s.
Proof.
  unfold StratumModel.submit_valid. destruct (StratumModel.request_valid j); [|split; [discriminate|intros [X _]; discriminate X]]. split.
  - destruct (StratumModel.submit_read (StratumModel.msg_params j)) as [s| |] eqn:E; cbn [StratumModel.bind]; try discriminate. intros V.
    assert (N : StratumModel.ss_name s <> []) by (intros X; unfold StratumModel.sshare_valid in V; rewrite X in V; discriminate V).
    split; [reflexivity|]. exists s. split; [exact N|]. apply StratumFields.share_exact; [|exact E]. intros ->. apply N. reflexivity.
  - intros (_ & s & N & P). apply StratumFields.share_exact in P; [|intros ->; apply N; reflexivity]. rewrite P. cbn [StratumModel.bind].
    unfold StratumModel.sshare_valid. destruct (StratumModel.ss_name s); [congruence|reflexivity].
Qed.
Theorem submit_invalid j : StratumModel.request_valid j = false -> StratumModel.submit_valid j = Ret false.
Proof. intros E. unfold StratumModel.submit_valid. rewrite E. reflexivity. Qed.
Theorem submit_any_method mem id m s : StratumSpec.identifier id -> StratumSpec.has_name m -> StratumSpec.share_fields s ->
  StratumModel.submit_valid (StratumModel.request id m (StratumModel.submit_write mem s)) = Ret (StratumModel.sshare_valid s).
Proof.
  intros A M F. unfold StratumModel.submit_valid. destruct (StratumProofs.request_back id m (StratumModel.submit_write mem s) A) as (_ & P & _ & V).
  rewrite (proj2 V) by exact M. rewrite P, (StratumFields.share_back mem s F). cbn [StratumModel.bind]. reflexivity.
Qed.

(* ---- the proof that stands for none ---- *)
Theorem empty_exact p : p = WorkModel.empty_wproof <->
  (let z := WorkModel.wp_puzzle p in let c := WorkModel.pz_candidate z in let h := WorkModel.so_share (WorkModel.wp_solution p) in
   WorkModel.ca_category c = 0%Z /\ WorkModel.ca_digest c = repeat x00 32 /\ WorkModel.ca_target c = 0 /\ WorkModel.ca_path c = MerkleModel.mkpath 0 [] /\
   WorkModel.pz_header z = [] /\ WorkModel.pz_body z = [] /\ WorkModel.pz_mask z = (-1)%Z /\
   WorkModel.sh_timestamp h = 0 /\ WorkModel.sh_nonce h = 0 /\ WorkModel.sh_extra2 h = [] /\ WorkModel.sh_bits h = None /\ WorkModel.so_extra1 (WorkModel.wp_solution p) = 0).
Proof.
  split; [intros ->; repeat split|]. destruct p as [[[a b c d] e f g] [[h i j k] l]]. cbn. intros (-> & -> & -> & -> & -> & -> & -> & -> & -> & -> & -> & ->). reflexivity.
Qed.
