(* Proofs about Stratum messages. *)
From Coq Require Import String Lia ZifyBool ZifyNat ZifyN.
From Verif Require Import Base BaseProofs TextModel TextProofs TextFormProofs WireModel WireSpec MerkleModel WorkModel JsonModel StratumModel StratumSpec.
Local Open Scope N_scope.

(* ---------------------------------------------------------------- methods *)
Lemma method_back m : method_from_string (method_to_string m) = if existsb (fun x => bytes_eqb (snd x) (method_to_string m)) named then m else unset.
Proof. destruct m; vm_compute; reflexivity. Qed.
Lemma methods_exact m : method_from_string (method_to_string m) = m <-> m = unset \/ has_name m.
Proof. unfold has_name. destruct m; vm_compute; (split; [try discriminate; intros _; tauto|]); intuition discriminate. Qed.
Lemma method_names s m : m <> unset -> method_from_string s = m <-> In (m, s) named.
Proof.
  intros N. unfold method_from_string.
  repeat match goal with |- context [if bytes_eqb s ?t then _ else _] =>
    let E := fresh "E" in destruct (bytes_eqb s t) eqn:E;
    [apply bytes_eqb_eq in E; subst s; split; [intros <-; unfold named, In; tauto|intros I; unfold named, In in I; destruct m; cbn in I; intuition (try discriminate; try congruence)]|] end.
  split; [congruence|]. intros I. exfalso. unfold named, In in I.
  repeat match type of I with _ \/ _ => destruct I as [I|I] | False => contradiction end;
    assert (X : bytes_eqb s s = true) by (apply bytes_eqb_eq; reflexivity); injection I; intros <- _;
    match goal with E : bytes_eqb ?t ?t = false |- _ => vm_compute in E; discriminate E end.
Qed.

(* ---------------------------------------------------------------- messages *)
Lemma identifier_valid j : id_valid j = true <-> identifier j.
Proof.
  unfold id_valid, identifier. destruct j; cbn; split; try discriminate; eauto; intros [[x X]|[x X]]; discriminate.
Qed.

Lemma request_back id m p : identifier id ->
  msg_id (request id m p) = id /\ msg_params (request id m p) = p /\
  (msg_method (request id m p) = m <-> m = unset \/ has_name m) /\ (request_valid (request id m p) = true <-> has_name m).
Proof.
  intros I. assert (G : j_get k_id (request id m p) = Some id /\ j_get k_method (request id m p) = Some (JString (method_to_string m)) /\ j_get k_params (request id m p) = Some (JArray p)) by (repeat split; reflexivity).
  destruct G as (A & B & C). apply identifier_valid in I. unfold msg_id, msg_params, msg_method, request_valid, has_params. unfold msg_method. rewrite A, B, C, I.
  split; [reflexivity|]. split; [reflexivity|]. split; [apply methods_exact|]. rewrite !andb_true_r.
  destruct m; vm_compute; (split; [try discriminate; intros _; tauto|]); intuition discriminate.
Qed.
Lemma response_back id r : identifier id ->
  response_valid (response id r) = true /\ msg_id (response id r) = id /\ msg_result (response id r) = r /\ msg_error (response id r) = None.
Proof.
  intros I. apply identifier_valid in I.
  assert (A : j_get k_id (response id r) = Some id) by reflexivity. assert (B : j_get k_result (response id r) = Some r) by reflexivity.
  assert (C : j_get k_error (response id r) = Some JNull) by reflexivity.
  assert (V : response_valid (response id r) = true) by (unfold response_valid; rewrite A, B, C, I; reflexivity).
  split; [exact V|]. unfold msg_id, msg_result, msg_error. rewrite A, B, C, I, V. auto.
Qed.
Lemma response_error_back id r e : identifier id -> u32 (er_code e) ->
  response_valid (response_error id r e) = true /\ msg_id (response_error id r e) = id /\ msg_result (response_error id r e) = r /\ msg_error (response_error id r e) = Some e.
Proof.
  intros I U. apply identifier_valid in I.
  assert (A : j_get k_id (response_error id r e) = Some id) by reflexivity. assert (B : j_get k_result (response_error id r e) = Some r) by reflexivity.
  assert (C : j_get k_error (response_error id r e) = Some (JArray [JUint (er_code e); JString (er_message e)])) by reflexivity.
  assert (V : response_valid (response_error id r e) = true) by (unfold response_valid; rewrite A, B, C, I; reflexivity).
  split; [exact V|]. unfold msg_id, msg_result, msg_error. rewrite A, B, C, I, V. cbn [negb is_null error_read]. split; [reflexivity|]. split; [reflexivity|].
  unfold u32 in U. rewrite N.mod_small by exact U. destruct e; reflexivity.
Qed.
Lemma boolean_back id b : identifier id -> boolean_valid (boolean_response id b) = true /\ boolean_result (boolean_response id b) = Ret b.
Proof.
  intros I. destruct (response_back id (JBool b) I) as (V & _ & R & E). unfold boolean_result, boolean_valid, boolean_response, is_error. rewrite V, R, E. split; reflexivity.
Qed.
Lemma boolean_error_back id e : identifier id -> u32 (er_code e) ->
  boolean_valid (boolean_error id e) = true /\ boolean_result (boolean_error id e) = Ret false /\ msg_error (boolean_error id e) = Some e.
Proof.
  intros I U. destruct (response_error_back id (JBool false) e I U) as (V & _ & R & E). unfold boolean_result, boolean_valid, boolean_error, is_error. rewrite V, R, E. repeat split; reflexivity.
Qed.
(* a boolean response never throws *)
Lemma boolean_total j : exists b, boolean_result j = Ret b /\ (b = true <-> response_valid j = true /\ msg_result j = JBool true /\ msg_error j = None).
Proof.
  unfold boolean_result, boolean_valid, is_error. destruct (response_valid j); cbn [andb].
  - destruct (msg_error j) as [e|]; cbn.
    + rewrite orb_true_r. cbn. exists false. split; [reflexivity|]. split; [discriminate|]. intros (_ & _ & X). discriminate X.
    + rewrite orb_false_r, andb_true_r. destruct (msg_result j) as [| [] | | | | | |]; cbn; eexists; (split; [reflexivity|]); split; try discriminate; auto; intros (_ & X & _); discriminate X.
  - exists false. split; [reflexivity|]. split; [discriminate|]. intros (X & _). discriminate X.
Qed.

(* every notification that is made lacks its method *)
Lemma notification_lost m p :
  notification_valid (notification m p) = false /\ request_valid (notification m p) = false /\ response_valid (notification m p) = false /\
  msg_method (notification m p) = unset /\ msg_params (notification m p) = [].
Proof. repeat split. Qed.

Lemma method_of_message j m : m <> unset ->
  msg_method j = m <-> exists n, In (m, n) named /\ j_get k_method j = Some (JString n).
Proof.
  intros N. unfold msg_method. destruct (j_get k_method j) as [[| | | | |s| |]|];
    try (split; [congruence|intros (? & _ & X); discriminate X]).
  rewrite (method_names s m N). split; [intros X; exists s; auto|]. intros (n & X & Y). assert (s = n) as -> by congruence. exact X.
Qed.
Lemma named_set m n : In (m, n) named -> m <> unset.
Proof. intros I ->. unfold named, In in I. intuition discriminate. Qed.

Lemma params_of_message j p : has_params j = true /\ msg_params j = p <-> j_get k_params j = Some (JArray p).
Proof.
  unfold has_params, msg_params. destruct (j_get k_params j) as [[| | | | | |l|]|]; split; try (intros [X Y]; discriminate X); try discriminate.
  - intros [_ <-]. reflexivity.
  - intros X. assert (l = p) by congruence. auto.
Qed.

Lemma request_exact j id m p : request_valid j = true /\ msg_id j = id /\ msg_method j = m /\ msg_params j = p <-> is_request j id m p.
Proof.
  unfold is_request, StratumSpec.member. fold k_id k_method k_params. unfold request_valid. rewrite !andb_true_iff. split.
  - intros (((U & P) & I) & J & M & L). assert (N : m <> unset) by (intros ->; rewrite M in U; discriminate U).
    unfold msg_id in J. destruct (j_get k_id j) as [q|]; [|discriminate I]. rewrite I in J. subst q.
    split; [reflexivity|]. split; [apply identifier_valid; exact I|]. split; [apply method_of_message; assumption|]. apply params_of_message. auto.
  - intros (I & V & M & L). apply identifier_valid in V. destruct M as (n & M & Q).
    assert (N : m <> unset) by (eapply named_set; exact M). assert (M' : msg_method j = m) by (apply method_of_message; eauto).
    apply params_of_message in L. unfold msg_id. rewrite I, V, M'. destruct L. repeat split; auto. destruct m; try reflexivity. contradiction.
Qed.
Lemma notification_exact j m p : notification_valid j = true /\ msg_method j = m /\ msg_params j = p <-> is_notification j m p.
Proof.
  unfold is_notification, StratumSpec.member. fold k_id k_method k_params. unfold notification_valid. rewrite !andb_true_iff. split.
  - intros (((U & P) & I) & M & L). assert (N : m <> unset) by (intros ->; rewrite M in U; discriminate U).
    destruct (j_get k_id j) as [[]|]; try discriminate I.
    split; [reflexivity|]. split; [apply method_of_message; assumption|]. apply params_of_message. auto.
  - intros (I & M & L). destruct M as (n & M & Q).
    assert (N : m <> unset) by (eapply named_set; exact M). assert (M' : msg_method j = m) by (apply method_of_message; eauto).
    apply params_of_message in L. rewrite I, M'. destruct L. repeat split; auto. destruct m; try reflexivity. contradiction.
Qed.
Lemma error_exact e x : error_valid e = true /\ error_read e = x <-> exists c, e = JArray [JUint c; JString (er_message x)] /\ er_code x = c mod 2 ^ 32.
Proof.
  split.
  - intros [V R]. destruct e as [| | | | | |[|a [|b [|]]]|]; try discriminate V; destruct a; try discriminate V; destruct b; try discriminate V.
    subst x. cbn [error_read er_message er_code]. exists n. auto.
  - intros (c & -> & E). split; [reflexivity|]. destruct x as [k m]. cbn [error_read er_message er_code] in *. subst k. reflexivity.
Qed.
Lemma response_exact j id r e : response_valid j = true /\ msg_id j = id /\ msg_result j = r /\ msg_error j = e <-> is_response j id r e.
Proof.
  unfold is_response, StratumSpec.member. fold k_id k_result k_error. unfold msg_error, msg_id, msg_result. split.
  - intros (V & I & R & E). rewrite V in E. cbn [negb] in E. unfold response_valid in V.
    destruct (j_get k_id j) as [q|]; [|discriminate V]. destruct (j_get k_result j) as [s|]; [|discriminate V]. destruct (j_get k_error j) as [f|]; [|discriminate V].
    apply andb_true_iff in V. destruct V as [V W]. rewrite V in I. subst q s. split; [reflexivity|]. split; [apply identifier_valid; exact V|]. split; [reflexivity|].
    destruct (is_null f) eqn:F.
    + subst e. destruct f; try discriminate F. reflexivity.
    + subst e. cbn [orb] in W. destruct (proj1 (error_exact f (error_read f)) (conj W eq_refl)) as (c & -> & C). exists c. auto.
  - intros (I & V & R & E). apply identifier_valid in V. unfold response_valid. rewrite I, R, V. destruct e as [e|].
    + destruct E as (c & E & C). rewrite E. cbn [is_null error_valid orb andb negb error_read]. rewrite <- C. destruct e; auto.
    + rewrite E. auto.
Qed.
(* a message is never a notification and one of the others *)
Lemma kinds_apart j : notification_valid j = true -> request_valid j = false /\ response_valid j = false.
Proof.
  unfold notification_valid, request_valid, response_valid. rewrite !andb_true_iff. intros (_ & I). destruct (j_get k_id j) as [[]|]; try discriminate I.
  cbn [id_valid is_unsigned is_string orb andb]. rewrite andb_false_r. split; [reflexivity|]. destruct (j_get k_result j), (j_get k_error j); reflexivity.
Qed.

(* ---------------------------------------------------------------- errors *)
Lemma messages_exact c : error_message c = [] <-> ~ In c error_codes.
Proof.
  unfold error_message, error_codes, In.
  repeat match goal with |- context [if c =? ?k then _ else _] => let E := fresh "E" in destruct (c =? k) eqn:E; [apply N.eqb_eq in E; subst c; split; [intros X; vm_compute in X; discriminate X|intros X; exfalso; apply X; tauto]|] end.
  split; [lia|reflexivity].
Qed.
Lemma messages_differ a b : In a error_codes -> In b error_codes -> error_message a = error_message b -> a = b.
Proof.
  intros A B E. assert (X : forallb (fun x => forallb (fun y => negb (bytes_eqb (error_message x) (error_message y)) || (x =? y)) error_codes) error_codes = true) by (vm_compute; reflexivity).
  rewrite forallb_forall in X. specialize (X a A). rewrite forallb_forall in X. specialize (X b B). rewrite E in X.
  assert (Y : bytes_eqb (error_message b) (error_message b) = true) by (apply bytes_eqb_eq; reflexivity). rewrite Y in X. cbn in X. lia.
Qed.
