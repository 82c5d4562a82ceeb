(* C109, C110: timestamps, their fields and their texts. *)
From Coq Require Import ZArith.
From Coq Require Import String.
From Verif Require Import Base TextModel TimeModel TimeSpec TimeProofs TimeMore TimeExamples.
Local Open Scope Z_scope.

(* The moment of a number of seconds: the day is that of the calendar, however many days have passed. *)
Theorem C109_calendar : forall n : N, valid_date (date_at n) /\ day_number (date_at n) = Z.of_N n /\ 1970 <= d_year (date_at n).
Proof. exact date_at_exact. Qed.
Print Assumptions C109_calendar.
Theorem C109_moment : forall (t : N) (u v : moment), is_moment t u -> is_moment t v -> u = v.
Proof. exact moment_unique. Qed.
Print Assumptions C109_moment.
Example C109_moment_example : is_moment ex_time ex_moment /\ time_text ex_time = Ret (text "2009-01-03 18:15:05") /\ year_of ex_time = 2009 /\ weekday_of ex_time = 6.
Proof. exact moment_example. Qed.

(* The fields of a timestamp. The month counts from 0, and so does what is called the day, which is the month again. *)
Theorem C109_fields : forall (t : N) (u : moment), (t < 2 ^ 32)%N -> is_moment t u ->
  year_of t = d_year (m_date u) /\ month_of t = d_month (m_date u) - 1 /\ day_of t = d_month (m_date u) - 1 /\ weekday_of t = (day_number (m_date u) + 4) mod 7 /\
  hour_of t = m_hour u /\ minute_of t = m_min u /\ second_of t = m_sec u.
Proof. exact fields_exact. Qed.
Print Assumptions C109_fields.
Theorem C109_day_refuted : exists t u, (t < 2 ^ 32)%N /\ is_moment t u /\ day_of t <> d_day (m_date u) /\ day_of t = 0 /\ month_of t <> d_month (m_date u).
Proof. exact day_refuted. Qed.
Print Assumptions C109_day_refuted.

(* The text of a timestamp is that of its moment, always fits the buffer, and determines the timestamp. *)
Theorem C109_text : forall (t : N) (u : moment), (t < 2 ^ 32)%N -> is_moment t u -> time_text t = Ret (moment_text u).
Proof. exact time_text_exact. Qed.
Print Assumptions C109_text.
Theorem C109_text_unique : forall a b : N, (a < 2 ^ 32)%N -> (b < 2 ^ 32)%N -> time_text a = time_text b -> a = b.
Proof. exact time_text_inj. Qed.
Print Assumptions C109_text_unique.

(* Timestamps made of numbers. *)
Theorem C109_of_time : forall (z : Z) (t : N), of_time_t z = Ret t <-> Z.of_N t = z /\ (t < 2 ^ 32)%N.
Proof. exact of_time_exact. Qed.
Print Assumptions C109_of_time.
Theorem C109_of_int : forall (z : Z) (t : N), -2147483648 <= z <= 2147483647 -> of_int z = Ret t <-> Z.of_N t = z.
Proof. exact of_int_exact. Qed.
Print Assumptions C109_of_int.

(* The number of a day as it is computed in to_time_t is right for every year, month and day. *)
Theorem C110_civil : forall y m d : Z, 1 <= m <= 12 -> 1 <= d <= 31 -> civil (mkdate y m d) = day_number (mkdate y m d).
Proof. exact civil_exact. Qed.
Print Assumptions C110_civil.

(* Reading the text of a moment gives its seconds, if they are from 0 to 2^31 - 1; days that a month does not have count on. What follows the
   text in memory does not matter. *)
Theorem C110_read : forall (u : moment) (after : bytes), in_format u -> read_time (moment_text u) after = time_result u.
Proof. exact read_text. Qed.
Print Assumptions C110_read.
Example C110_read_example : forall after,
  read_time (text "1969-12-31 23:59:59") after = Throw tt /\
  read_time (text "2021-02-30 00:00:00") after = read_time (text "2021-03-02 00:00:00") after /\ read_time (text "2021-03-02 00:00:00") after = Ret 1614643200%N /\
  read_time (text "2020-01-01 00:00:61") after = read_time (text "2020-01-01 00:01:01") after.
Proof. exact read_example. Qed.

(* Whatever is read, the result is undefined or that of some moment in the format. *)
Theorem C110_read_any : forall x after : bytes,
  read_time x after = Undef \/ exists u, in_format u /\ strptime (until_nul (x ++ after)) = Some (mktm (m_date u) 0 (m_hour u) (m_min u) (m_sec u)) /\ read_time x after = time_result u.
Proof. exact read_any. Qed.
Print Assumptions C110_read_any.

(* The format exactly: white space is allowed before numbers, zeros in front are not needed, and what follows is ignored. *)
Theorem C110_format : forall (s : bytes) (u : moment), strptime s = Some (mktm (m_date u) 0 (m_hour u) (m_min u) (m_sec u)) <-> has_format s u.
Proof. exact format_exact. Qed.
Print Assumptions C110_format.
Theorem C110_exact : forall x after : bytes,
  (forall u, has_format (until_nul (x ++ after)) u -> in_format u /\ read_time x after = time_result u) /\
  ((~ exists u, has_format (until_nul (x ++ after)) u) -> read_time x after = Undef).
Proof. exact read_exact. Qed.
Print Assumptions C110_exact.
Example C110_format_example : strptime (text "  7-5-4 3: 2:1x") = Some (mktm (mkdate 7 5 4) 0 3 2 1) /\ strptime (text "2020-01-410:01:02") = Some (mktm (mkdate 2020 1 4) 0 10 1 2).
Proof. split; vm_compute; reflexivity. Qed.

(* The text of a timestamp is read back before 2038-01-19 03:14:08 and is undefined from then on. *)
Theorem C110_back : forall (t : N) (after s : bytes), (t < 2 ^ 32)%N -> time_text t = Ret s -> read_time s after = (if (t <? 2 ^ 31)%N then Ret t else Undef).
Proof. exact time_back. Qed.
Print Assumptions C110_back.
Theorem C110_back_refuted : exists t s, (t < 2 ^ 32)%N /\ time_text t = Ret s /\ forall after, read_time s after = Undef.
Proof. exact back_refuted. Qed.
Print Assumptions C110_back_refuted.

(* Other texts are not refused but undefined, and a text may be read beyond its end. *)
Theorem C110_unread_refuted : (forall after, read_time (text "yesterday") after = Undef) /\ (forall after, read_time (text "2020/01/01 00:00:00") after = Undef) /\
  read_time (text " 2020-1-1 0:0:0") [] = Ret 1577836800%N.
Proof. exact unread_refuted. Qed.
Print Assumptions C110_unread_refuted.
Theorem C110_after_refuted : exists x, read_time x [] <> read_time x (text "5") /\ read_time x [] = Ret 1577836801%N /\ read_time x (text "5") = Ret 1577836815%N.
Proof. exact after_refuted. Qed.
Print Assumptions C110_after_refuted.
