From Coq Require Import ZArith Lia ZifyBool ZifyNat ZifyN.
From Verif Require Import Base BaseProofs Bip44Model TimeModel TimeSpec.
Local Open Scope Z_scope.

Ltac div_lia := Z.to_euclidean_division_equations; lia.
(* ---- days before a year *)
Definition before (y : Z) : Z := 365 * (y - 1) + (y - 1) / 4 - (y - 1) / 100 + (y - 1) / 400.
Lemma leap_exact y : leap y = true <-> y mod 4 = 0 /\ (y mod 100 <> 0 \/ y mod 400 = 0).
Proof. unfold leap. rewrite andb_true_iff, orb_true_iff, negb_true_iff, !Z.eqb_eq, Z.eqb_neq. reflexivity. Qed.
Lemma before_next y : before (y + 1) = before y + year_days y.
Proof.
  unfold before, year_days. destruct (leap y) eqn:L.
  - apply (proj1 (leap_exact y)) in L. replace (y + 1 - 1) with y by lia. div_lia.
  - assert (N0 : ~ (y mod 4 = 0 /\ (y mod 100 <> 0 \/ y mod 400 = 0))). { intros X. apply (proj2 (leap_exact y)) in X. congruence. }
    replace (y + 1 - 1) with y by lia. clear L. div_lia.
Qed.
Lemma total_year_days n : forall a, total year_days a n = before (a + Z.of_nat n) - before a.
Proof.
  induction n as [|n IH]; intros a; cbn [total]; [replace (a + Z.of_nat 0) with a by lia; lia|].
  rewrite IH. replace (a + Z.of_nat (S n)) with (a + 1 + Z.of_nat n) by lia. pose proof (before_next a). lia.
Qed.
Lemma year_start_closed y : year_start y = before y - 719162.
Proof.
  unfold year_start. change 719162 with (before 1970). destruct (1970 <=? y) eqn:L; rewrite total_year_days.
  - replace (1970 + Z.of_nat (Z.to_nat (y - 1970))) with y by lia. reflexivity.
  - replace (y + Z.of_nat (Z.to_nat (1970 - y))) with 1970 by lia. lia.
Qed.
Lemma year_start_next y : year_start (y + 1) = year_start y + year_days y.
Proof. rewrite !year_start_closed, before_next. lia. Qed.
(* ---- days before a month *)
Lemma months m : 1 <= m <= 12 -> In m [1; 2; 3; 4; 5; 6; 7; 8; 9; 10; 11; 12].
Proof. intros L. cbn [In]. lia. Qed.
Definition offset (l : bool) (m : Z) : Z :=
  let b := if l then 1 else 0 in
  if m <=? 1 then 0 else if m <=? 2 then 31 else if m <=? 3 then 59 + b else if m <=? 4 then 90 + b else if m <=? 5 then 120 + b else if m <=? 6 then 151 + b
  else if m <=? 7 then 181 + b else if m <=? 8 then 212 + b else if m <=? 9 then 243 + b else if m <=? 10 then 273 + b else if m <=? 11 then 304 + b else 334 + b.
Definition march (m : Z) : Z := if 2 <? m then m - 3 else m + 9.
Ltac small := cbv beta iota zeta delta [offset march Z.ltb Z.leb Z.compare Pos.compare Pos.compare_cont] in *.
Lemma month_start_offset y m : 1 <= m <= 12 -> month_start y m = offset (leap y) m.
Proof.
  intros L. apply months in L. unfold month_start, month_days. cbn [In] in L.
  repeat (destruct L as [<- | L]; [destruct (leap y); reflexivity|]). destruct L.
Qed.
Lemma month_days_offset y m : 1 <= m <= 12 -> month_days y m = (if m <? 12 then offset (leap y) (m + 1) else year_days y) - offset (leap y) m.
Proof.
  intros L. apply months in L. unfold month_days, year_days. cbn [In] in L.
  repeat (destruct L as [<- | L]; [destruct (leap y); reflexivity|]). destruct L.
Qed.
Lemma next_day_number d : 1 <= d_month d <= 12 -> 1 <= d_day d <= month_days (d_year d) (d_month d) -> day_number (next_day d) = day_number d + 1 /\ valid_date (next_day d) /\ d_year d <= d_year (next_day d).
Proof.
  destruct d as [y m d]. cbn [d_year d_month d_day]. intros M D. unfold next_day, day_number, valid_date. cbn [d_year d_month d_day].
  destruct (d <? month_days y m) eqn:L; cbn [d_year d_month d_day]; [lia|]. assert (d = month_days y m) as -> by lia. clear L D.
  destruct (m <? 12) eqn:K; cbn [d_year d_month d_day].
  - rewrite !month_start_offset by lia. rewrite (month_days_offset y m M), K. split; [lia|]. split; [|lia]. split; [lia|]. split; [lia|]. unfold month_days. destruct (m + 1 =? 2), (leap y), ((m + 1 =? 4) || (m + 1 =? 6) || (m + 1 =? 9) || (m + 1 =? 11)); lia.
  - rewrite !month_start_offset by lia. rewrite (month_days_offset y m M), K, year_start_next. assert (m = 12) as -> by lia. change (offset (leap (y + 1)) 1) with 0. split; [lia|].
    split; [|lia]. split; [lia|]. change (month_days (y + 1) 1) with 31. lia.
Qed.
Theorem date_at_exact n : valid_date (date_at n) /\ day_number (date_at n) = Z.of_N n /\ 1970 <= d_year (date_at n).
Proof.
  unfold date_at. induction n as [|n IH] using N.peano_ind.
  - split; [|split; [reflexivity|cbn; lia]]. split; cbn; lia.
  - rewrite N.iter_succ. destruct IH as ((V1 & V2) & E & Y). destruct (next_day_number _ V1 V2) as (A & B & C). split; [exact B|]. split; [lia|lia].
Qed.
(* ---- the number determines the day *)
Lemma offset_range l m : 1 <= m <= 12 -> 0 <= offset l m.
Proof. unfold offset. intros L. destruct l; repeat match goal with |- context [if ?c then _ else _] => destruct c end; lia. Qed.
Lemma in_year d : valid_date d -> year_start (d_year d) <= day_number d < year_start (d_year d + 1).
Proof.
  destruct d as [y m d]. unfold valid_date, day_number. cbn [d_year d_month d_day]. intros (M & D). rewrite year_start_next, month_start_offset by lia. rewrite month_days_offset in D by lia.
  apply months in M. unfold year_days in *. cbn [In] in M. repeat (destruct M as [<- | M]; [try match type of D with context [offset ?l (?a + 1)] => let v := eval vm_compute in (a + 1) in change (a + 1) with v in D end; destruct (leap y); small; lia|]). destruct M.
Qed.
Lemma before_mono a b : a <= b -> before a <= before b.
Proof. unfold before. intros L. div_lia. Qed.
Lemma offset_step l m k : 1 <= m -> m < k -> k <= 12 -> offset l (m + 1) <= offset l k.
Proof.
  intros A B C. assert (M : 1 <= m <= 12) by lia. assert (K : 1 <= k <= 12) by lia. apply months in M, K. cbn [In] in M, K.
  repeat (destruct M as [<- | M]; [repeat (destruct K as [<- | K]; [destruct l; vm_compute; first [discriminate|lia]|]); destruct K|]). destruct M.
Qed.
Theorem day_number_inj d e : valid_date d -> valid_date e -> day_number d = day_number e -> d = e.
Proof.
  assert (Y : forall d e, valid_date d -> valid_date e -> day_number d = day_number e -> d_year d <= d_year e).
  { intros a b Va Vb E. apply in_year in Va, Vb. rewrite !year_start_closed in *. destruct (Z.le_gt_cases (d_year a) (d_year b)) as [L|L]; [exact L|]. pose proof (before_mono (d_year b + 1) (d_year a) ltac:(lia)). lia. }
  assert (M : forall y m i k j, 1 <= m <= 12 -> 1 <= k <= 12 -> 1 <= i <= month_days y m -> 1 <= j -> month_start y m + (i - 1) = month_start y k + (j - 1) -> k <= m).
  { intros y m i k j M K D J E. rewrite !month_start_offset in E by lia. rewrite month_days_offset in D by lia. destruct (Z.le_gt_cases k m) as [L|L]; [exact L|]. replace (m <? 12) with true in D by lia. pose proof (offset_step (leap y) m k ltac:(lia) L ltac:(lia)). lia. }
  intros Vd Ve E. pose proof (Y _ _ Vd Ve E). pose proof (Y _ _ Ve Vd (eq_sym E)). destruct d as [y m i], e as [z k j]. cbn [d_year] in *. assert (z = y) as -> by lia.
  unfold valid_date, day_number in *. cbn [d_year d_month d_day] in *. destruct Vd as (V1 & V2), Ve as (V3 & V4).
  pose proof (M y m i k j V1 V3 V2 ltac:(lia) ltac:(lia)). pose proof (M y k j m i V3 V1 V4 ltac:(lia) ltac:(lia)). assert (k = m) as -> by lia. f_equal. lia.
Qed.

(* ---- the arithmetic of to_time_t *)
Lemma u32_small z : 0 <= z < 4294967296 -> u32 z = z.
Proof. intros L. apply Z.mod_small. exact L. Qed.
Lemma march_eq m : 1 <= m <= 12 -> u32 (m + (if 2 <? m then u32 (-3) else 9)) = march m.
Proof. intros L. apply months in L. cbn [In] in L. repeat (destruct L as [<- | L]; [reflexivity|]). destruct L. Qed.
Lemma era_floor y : Z.quot (if 0 <=? y then y else y - 399) 400 = y / 400.
Proof. destruct (0 <=? y) eqn:L; div_lia. Qed.
Lemma march_range m : 1 <= m <= 12 -> 0 <= (153 * march m + 2) / 5 <= 337.
Proof. intros L. apply months in L. cbn [In] in L. repeat (destruct L as [<- | L]; [split; vm_compute; discriminate|]). destruct L. Qed.
Lemma civil_march y m d : 1 <= m <= 12 -> 1 <= d <= 31 ->
  let y' := y - (if m <=? 2 then 1 else 0) in civil (mkdate y m d) = 365 * y' + y' / 4 - y' / 100 + y' / 400 + (153 * march m + 2) / 5 + d - 1 - 719468.
Proof.
  intros M D y'. unfold civil. cbn [d_year d_month d_day]. fold y'. rewrite era_floor, (march_eq m M). pose proof (march_range m M) as R.
  assert (MR : 0 <= march m <= 11) by (unfold march; destruct (2 <? m) eqn:X; lia).
  rewrite (u32_small (153 * march m)) by lia. rewrite (u32_small (153 * march m + 2)) by lia. rewrite (u32_small (_ + d - 1)) by lia.
  assert (YR : 0 <= y' - y' / 400 * 400 < 400) by div_lia. rewrite (u32_small (y' - y' / 400 * 400)) by lia.
  set (r := y' - y' / 400 * 400) in *. assert (Q1 : 0 <= r / 4 <= 99) by div_lia. assert (Q2 : 0 <= r / 100 <= 3) by div_lia. rewrite u32_small by lia.
  assert (A : y' / 4 = 100 * (y' / 400) + r / 4) by (subst r; div_lia). assert (B : y' / 100 = 4 * (y' / 400) + r / 100) by (subst r; div_lia). lia.
Qed.
Theorem civil_exact y m d : 1 <= m <= 12 -> 1 <= d <= 31 -> civil (mkdate y m d) = day_number (mkdate y m d).
Proof.
  intros M D. rewrite (civil_march y m d M D). unfold day_number. cbn [d_year d_month d_day]. rewrite year_start_closed, month_start_offset by exact M. unfold before.
  pose proof (before_next y) as BN. unfold before, year_days in BN. replace (y + 1 - 1) with y in BN by lia.
  apply months in M. cbn [In] in M. unfold march.
  repeat (destruct M as [<- | M]; [destruct (leap y); small; rewrite ?Z.sub_0_r; match goal with |- context [?a / 5] => let v := eval vm_compute in (a / 5) in change (a / 5) with v end; lia|]). destruct M.
Qed.

(* ---- moments *)
Definition moment_of (t : N) : moment := mkmoment (t_date (gmtime t)) (t_hour (gmtime t)) (t_min (gmtime t)) (t_sec (gmtime t)).
Theorem moment_of_exact t : is_moment t (moment_of t).
Proof.
  unfold is_moment, moment_of, gmtime, seconds. cbn [m_date m_hour m_min m_sec t_date t_hour t_min t_sec]. destruct (date_at_exact (t / 86400)) as (V & E & Y). split; [exact V|]. split; [exact Y|]. rewrite E.
  pose proof (N.div_mod t 86400 ltac:(lia)) as D. pose proof (N.mod_upper_bound t 86400 ltac:(lia)) as U.
  set (n := (t / 86400)%N) in *. set (s := (t mod 86400)%N) in *. clearbody n s. subst t. clear V E Y. div_lia.
Qed.
Theorem moment_unique t u v : is_moment t u -> is_moment t v -> u = v.
Proof.
  intros (A1 & _ & A2 & A3 & A4 & A5) (B1 & _ & B2 & B3 & B4 & B5). destruct u as [d h i s], v as [e k j c]. unfold seconds in *. cbn [m_date m_hour m_min m_sec] in *.
  assert (D : day_number d = day_number e) by lia. apply day_number_inj in D; [|exact A1|exact B1]. subst e. assert (h = k) as <- by lia. assert (i = j) as <- by lia. f_equal. lia.
Qed.
Lemma moment_year t u : is_moment t u -> (t < 2 ^ 32)%N -> 1970 <= d_year (m_date u) <= 2106.
Proof.
  intros (V & Y & H & M & C & E) L. split; [exact Y|]. apply in_year in V. rewrite year_start_closed in V. unfold seconds in E. change (2 ^ 32)%N with 4294967296%N in L.
  assert (D : day_number (m_date u) <= 49710) by lia. unfold before in V. div_lia.
Qed.
Lemma moment_format t u : is_moment t u -> (t < 2 ^ 32)%N -> in_format u.
Proof.
  intros M L. pose proof (moment_year t u M L) as Y. destruct M as ((A & B) & _ & H & M & C & _). unfold in_format. assert (month_days (d_year (m_date u)) (d_month (m_date u)) <= 31); [|lia].
  unfold month_days. destruct (d_month (m_date u) =? 2); [destruct (leap (d_year (m_date u))); lia|]. destruct ((d_month (m_date u) =? 4) || _ || _ || _); lia.
Qed.
(* ---- texts *)
Lemma year_text y : 1970 <= y <= 2106 -> to_string (Z.to_N y) = four_digits y.
Proof.
  intros L. assert (G : forallb (fun n => bytes_eqb (to_string (Z.to_N (Z.of_nat n + 1970))) (four_digits (Z.of_nat n + 1970))) (List.seq 0 137) = true) by (vm_compute; reflexivity).
  rewrite forallb_forall in G. specialize (G (Z.to_nat (y - 1970))). replace (Z.of_nat (Z.to_nat (y - 1970)) + 1970) with y in G by lia. apply bytes_eqb_eq, G. apply List.in_seq. lia.
Qed.
Lemma moment_text_len u : len (moment_text u) = 19%N.
Proof. reflexivity. Qed.
Theorem time_text_exact t u : (t < 2 ^ 32)%N -> is_moment t u -> time_text t = Ret (moment_text u).
Proof.
  intros L M. rewrite (moment_unique t u (moment_of t) M (moment_of_exact t)). unfold time_text.
  assert (E : format_tm (gmtime t) = moment_text (moment_of t)).
  { unfold format_tm, moment_text, moment_of. cbn [m_date m_hour m_min m_sec]. rewrite (year_text (d_year (t_date (gmtime t)))); [reflexivity|]. exact (moment_year t _ (moment_of_exact t) L). }
  rewrite E, moment_text_len. reflexivity.
Qed.
Lemma b2n_digit d : 0 <= d <= 9 -> b2n (digit d) = Z.to_N (48 + d).
Proof. intros L. unfold digit. rewrite b2n_n2b. apply N.mod_small. lia. Qed.
Lemma digit_dec d : 0 <= d <= 9 -> is_dec (digit d) = true /\ dec (digit d) = d /\ white (digit d) = false /\ byte_eqb (digit d) x00 = false.
Proof.
  intros L. unfold is_dec, dec, white. rewrite (b2n_digit d L). repeat split; try lia. destruct (byte_eqb (digit d) x00) eqn:E; [|reflexivity]. apply byte_eqb_eq in E. apply (f_equal b2n) in E. rewrite (b2n_digit d L) in E. change (b2n x00) with 0%N in E. lia.
Qed.
Lemma number_two lo hi v r : lo <= v <= hi -> 0 <= v <= 99 -> get_number lo hi 2 (two v ++ r) = Some (v, r).
Proof.
  intros L R. unfold get_number, two. cbn [app]. destruct (digit_dec (v / 10) ltac:(div_lia)) as (A & B & C & _), (digit_dec (v mod 10) ltac:(div_lia)) as (A' & B' & _ & _).
  cbn [skip_white]. rewrite C, A, B. cbn [Nat.sub more_digits]. rewrite A', B'. replace (v / 10 * 10 <=? hi) with true by (symmetry; apply Z.leb_le; div_lia). cbn [andb]. replace (v / 10 * 10 + v mod 10) with v by div_lia. replace ((lo <=? v) && (v <=? hi)) with true by lia. reflexivity.
Qed.
Lemma number_four v r : 0 <= v <= 9999 -> get_number 0 9999 4 (four_digits v ++ r) = Some (v, r).
Proof.
  intros R. unfold get_number, four_digits, two. cbn [app].
  destruct (digit_dec (v / 100 / 10) ltac:(div_lia)) as (A & B & C & _), (digit_dec ((v / 100) mod 10) ltac:(div_lia)) as (A1 & B1 & _ & _), (digit_dec (v mod 100 / 10) ltac:(div_lia)) as (A2 & B2 & _ & _), (digit_dec ((v mod 100) mod 10) ltac:(div_lia)) as (A3 & B3 & _ & _).
  cbn [skip_white]. rewrite C, A, B. cbn [Nat.sub more_digits]. rewrite A1, B1, A2, B2, A3, B3.
  replace (v / 100 / 10 * 10 <=? 9999) with true by (symmetry; apply Z.leb_le; div_lia). cbn [andb]. replace ((v / 100 / 10 * 10 + (v / 100) mod 10) * 10 <=? 9999) with true by (symmetry; apply Z.leb_le; div_lia). cbn [andb].
  replace (((v / 100 / 10 * 10 + (v / 100) mod 10) * 10 + v mod 100 / 10) * 10 <=? 9999) with true by (symmetry; apply Z.leb_le; div_lia). cbn [andb].
  replace (((v / 100 / 10 * 10 + (v / 100) mod 10) * 10 + v mod 100 / 10) * 10 + (v mod 100) mod 10) with v by div_lia. replace ((0 <=? v) && (v <=? 9999)) with true by lia. reflexivity.
Qed.
Lemma strptime_text u r : in_format u -> strptime (moment_text u ++ r) = Some (mktm (m_date u) 0 (m_hour u) (m_min u) (m_sec u)).
Proof.
  destruct u as [[y m d] h i c]. unfold in_format, moment_text. cbn [m_date m_hour m_min m_sec d_year d_month d_day]. intros (Y & M & D & H & I0 & C). rewrite <- !app_assoc.
  unfold strptime. rewrite (number_four y) by lia. cbn [app]. cbn [expect]. change (byte_eqb x2d x2d) with true. cbv iota. rewrite (number_two 1 12 m) by lia. cbn [expect]. change (byte_eqb x2d x2d) with true. cbv iota. rewrite (number_two 1 31 d) by lia.
  assert (SW : forall q, skip_white (x20 :: two h ++ q) = two h ++ q).
  { intros q. unfold two. cbn [app]. destruct (digit_dec (h / 10) ltac:(div_lia)) as (_ & _ & W & _). cbn [skip_white]. change (white x20) with true. cbv iota. rewrite W. reflexivity. }
  rewrite SW.
  rewrite (number_two 0 23 h) by lia. cbn [expect]. change (byte_eqb x3a x3a) with true. cbv iota. rewrite (number_two 0 59 i) by lia. cbn [expect]. change (byte_eqb x3a x3a) with true. cbv iota. rewrite (number_two 0 61 c) by lia. reflexivity.
Qed.
Lemma until_nul_app a b : Forall (fun c => byte_eqb c x00 = false) a -> until_nul (a ++ b) = a ++ until_nul b.
Proof. induction 1 as [|c a C _ IH]; [reflexivity|]. cbn [app until_nul]. rewrite C, IH. reflexivity. Qed.
Lemma two_plain v : 0 <= v <= 99 -> Forall (fun c => byte_eqb c x00 = false) (two v).
Proof. intros L. unfold two. destruct (digit_dec (v / 10) ltac:(div_lia)) as (_ & _ & _ & A), (digit_dec (v mod 10) ltac:(div_lia)) as (_ & _ & _ & B). constructor; [exact A|]. constructor; [exact B|constructor]. Qed.
Lemma moment_plain u : in_format u -> Forall (fun c => byte_eqb c x00 = false) (moment_text u).
Proof.
  intros (Y & M & D & H & I0 & C). unfold moment_text, four_digits.
  assert (O : forall x, byte_eqb x x00 = false -> Forall (fun c => byte_eqb c x00 = false) [x]) by (intros x X; constructor; [exact X|constructor]).
  repeat (apply Forall_app; split); try (apply O; reflexivity); apply two_plain; try lia; div_lia.
Qed.
Lemma to_time_exact d w h i s : 1 <= d_month d <= 12 -> 1 <= d_day d <= 31 -> 0 <= h <= 23 -> 0 <= i <= 59 -> 0 <= s <= 61 ->
  match to_time_t (mktm d w h i s) with None => Undef | Some t => of_time_t t end = time_result (mkmoment d h i s).
Proof.
  intros M D H I0 C. unfold to_time_t, time_result, seconds, int_fits, of_time_t. cbn [t_date t_hour t_min t_sec m_date m_hour m_min m_sec]. destruct d as [y m k]. cbn [d_month d_day] in *. rewrite (civil_exact y m k M D).
  set (n := day_number (mkdate y m k)) in *. clearbody n.
  match goal with |- match (if ?c then _ else _) with _ => _ end = (if ?e then _ else _) => destruct c eqn:A, e eqn:B end; try lia; try reflexivity.
  match goal with |- (if ?c then _ else _) = (if ?e then _ else _) => destruct c eqn:P, e eqn:Q end; try lia; reflexivity.
Qed.
Theorem read_text u r : in_format u -> read_time (moment_text u) r = time_result u.
Proof.
  intros F. unfold read_time. rewrite (until_nul_app _ _ (moment_plain u F)), (strptime_text _ _ F). destruct F as (_ & M & D & H & I0 & C). rewrite to_time_exact by assumption. destruct u as [d h i c]. reflexivity.
Qed.
Lemma get_number_range lo hi n s v q : get_number lo hi n s = Some (v, q) -> lo <= v <= hi.
Proof.
  unfold get_number. destruct (skip_white s) as [|c r]; [discriminate|]. destruct (is_dec c); [|discriminate]. destruct (more_digits (n - 1) hi (dec c) r) as (w & p). destruct ((lo <=? w) && (w <=? hi)) eqn:L; [|discriminate].
  intros E. assert (w = v) by congruence. lia.
Qed.
Theorem read_any x r : read_time x r = Undef \/ exists u, in_format u /\ strptime (until_nul (x ++ r)) = Some (mktm (m_date u) 0 (m_hour u) (m_min u) (m_sec u)) /\ read_time x r = time_result u.
Proof.
  unfold read_time. destruct (strptime (until_nul (x ++ r))) as [t|] eqn:E; [|left; reflexivity]. right. generalize dependent (until_nul (x ++ r)). intros s E. unfold strptime in E.
  destruct (get_number 0 9999 4 s) as [(y & s1)|] eqn:E1; [|discriminate E]. destruct (expect x2d s1) as [s2|]; [|discriminate E]. destruct (get_number 1 12 2 s2) as [(m & s3)|] eqn:E2; [|discriminate E].
  destruct (expect x2d s3) as [s4|]; [|discriminate E]. destruct (get_number 1 31 2 s4) as [(d & s5)|] eqn:E3; [|discriminate E]. destruct (get_number 0 23 2 (skip_white s5)) as [(h & s6)|] eqn:E4; [|discriminate E].
  destruct (expect x3a s6) as [s7|]; [|discriminate E]. destruct (get_number 0 59 2 s7) as [(i & s8)|] eqn:E5; [|discriminate E]. destruct (expect x3a s8) as [s9|]; [|discriminate E]. destruct (get_number 0 61 2 s9) as [(c & s10)|] eqn:E6; [|discriminate E].
  apply get_number_range in E1, E2, E3, E4, E5, E6. assert (t = mktm (mkdate y m d) 0 h i c) as -> by congruence. exists (mkmoment (mkdate y m d) h i c).
  split; [unfold in_format; cbn [m_date m_hour m_min m_sec d_year d_month d_day]; lia|]. split; [reflexivity|]. apply to_time_exact; cbn [d_month d_day]; assumption.
Qed.
(* ---- there and back *)
Theorem time_back t r s : (t < 2 ^ 32)%N -> time_text t = Ret s -> read_time s r = (if (t <? 2 ^ 31)%N then Ret t else Undef).
Proof.
  intros L E. pose proof (moment_of_exact t) as M. rewrite (time_text_exact t _ L M) in E. assert (s = moment_text (moment_of t)) as -> by congruence. clear E.
  rewrite (read_text _ r (moment_format t _ M L)). destruct M as (_ & _ & H & I0 & C & E). unfold time_result. rewrite E. unfold seconds in E. change (2 ^ 31)%N with 2147483648%N. change (2 ^ 32)%N with 4294967296%N in L.
  destruct (t <? 2147483648)%N eqn:B.
  - match goal with |- (if ?c then _ else _) = _ => destruct c eqn:P end; [lia|]. replace (Z.of_N t <? 0) with false by lia. rewrite N2Z.id. reflexivity.
  - match goal with |- (if ?c then _ else _) = _ => destruct c eqn:P end; [reflexivity|lia].
Qed.
Theorem time_text_inj a b : (a < 2 ^ 32)%N -> (b < 2 ^ 32)%N -> time_text a = time_text b -> a = b.
Proof.
  intros A B E. pose proof (moment_of_exact a) as M. pose proof (moment_of_exact b) as M'. rewrite (time_text_exact a _ A M), (time_text_exact b _ B M') in E.
  assert (T : moment_text (moment_of a) = moment_text (moment_of b)) by congruence. pose proof (strptime_text _ [] (moment_format a _ M A)) as P. rewrite T, (strptime_text _ [] (moment_format b _ M' B)) in P.
  assert (Q : moment_of b = moment_of a). { unfold moment_of in *. cbn [m_date m_hour m_min m_sec] in P. congruence. }
  destruct M as (_ & _ & _ & _ & _ & S1), M' as (_ & _ & _ & _ & _ & S2). rewrite Q in S2. lia.
Qed.
(* ---- fields *)
Lemma weekday_range t : 0 <= t_wday (gmtime t) < 7.
Proof. unfold gmtime. cbn [t_wday]. apply Z.mod_pos_bound. lia. Qed.
Theorem fields_exact t u : (t < 2 ^ 32)%N -> is_moment t u ->
  year_of t = d_year (m_date u) /\ month_of t = d_month (m_date u) - 1 /\ day_of t = d_month (m_date u) - 1 /\ weekday_of t = (day_number (m_date u) + 4) mod 7 /\
  hour_of t = m_hour u /\ minute_of t = m_min u /\ second_of t = m_sec u.
Proof.
  intros L M. pose proof (moment_year t u M L) as Y. pose proof (moment_format t u M L) as F. pose proof (weekday_range t) as W. rewrite (moment_unique t u (moment_of t) M (moment_of_exact t)) in *. unfold in_format in F.
  unfold year_of, month_of, day_of, weekday_of, hour_of, minute_of, second_of. unfold moment_of in *. cbn [m_date m_hour m_min m_sec] in *.
  split; [rewrite Z.mod_small by lia; lia|]. split; [apply Z.mod_small; lia|]. split; [apply Z.mod_small; lia|]. split; [|repeat split; apply Z.mod_small; lia].
  rewrite Z.mod_small by lia. unfold gmtime. cbn [t_wday t_date]. destruct (date_at_exact (t / 86400)) as (_ & -> & _). f_equal. lia.
Qed.
Theorem of_time_exact z t : of_time_t z = Ret t <-> Z.of_N t = z /\ (t < 2 ^ 32)%N.
Proof.
  unfold of_time_t. change (2 ^ 32)%N with 4294967296%N. destruct ((z <? 0) || (4294967295 <? z)) eqn:E; split; intros X; try discriminate X; try lia; [assert (Z.to_N z = t) by congruence; lia|]. f_equal. lia.
Qed.
Theorem of_int_exact z t : -2147483648 <= z <= 2147483647 -> of_int z = Ret t <-> Z.of_N t = z.
Proof.
  intros R. unfold of_int. assert (U : 4294967295 <? u32 z = false) by (unfold u32; pose proof (Z.mod_pos_bound z 4294967296); lia). rewrite U, orb_false_r.
  destruct (z <? 0) eqn:E; split; intros X; try discriminate X; try lia; [assert (Z.to_N z = t) by congruence; lia|]. f_equal. lia.
Qed.
