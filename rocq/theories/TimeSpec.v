(* What dates and their texts mean. *)
From Coq Require Import ZArith.
From Verif Require Import Base TimeModel.
Local Open Scope Z_scope.

Definition valid_date (d : date) : Prop := 1 <= d_month d <= 12 /\ 1 <= d_day d <= month_days (d_year d) (d_month d).
Definition year_days (y : Z) : Z := if leap y then 366 else 365.
(* the sum of f over [n] numbers from [a] on *)
Fixpoint total (f : Z -> Z) (a : Z) (n : nat) : Z := match n with O => 0 | S k => f a + total f (a + 1) k end.
(* days from 1970-01-01 to the first day of a year, negative before it *)
Definition year_start (y : Z) : Z := if 1970 <=? y then total year_days 1970 (Z.to_nat (y - 1970)) else - total year_days y (Z.to_nat (1970 - y)).
(* days from the first day of a year to the first day of a month *)
Definition month_start (y m : Z) : Z := total (month_days y) 1 (Z.to_nat (m - 1)).
(* the number of a day *)
Definition day_number (d : date) : Z := year_start (d_year d) + month_start (d_year d) (d_month d) + (d_day d - 1).

(* the numbers that a text in the format "%Y-%m-%d %H:%M:%S" gives *)
Record moment := mkmoment { m_date : date; m_hour : Z; m_min : Z; m_sec : Z }.
Definition seconds (u : moment) : Z := day_number (m_date u) * 86400 + m_hour u * 3600 + m_min u * 60 + m_sec u.
Definition in_format (u : moment) : Prop :=
  0 <= d_year (m_date u) <= 9999 /\ 1 <= d_month (m_date u) <= 12 /\ 1 <= d_day (m_date u) <= 31 /\ 0 <= m_hour u <= 23 /\ 0 <= m_min u <= 59 /\ 0 <= m_sec u <= 61.
(* the digits of a number below 10000 and below 100 *)
Definition four_digits (v : Z) : bytes := two (v / 100) ++ two (v mod 100).
Definition moment_text (u : moment) : bytes :=
  four_digits (d_year (m_date u)) ++ [x2d] ++ two (d_month (m_date u)) ++ [x2d] ++ two (d_day (m_date u)) ++ [x20] ++
  two (m_hour u) ++ [x3a] ++ two (m_min u) ++ [x3a] ++ two (m_sec u).
(* the moment of a number of seconds *)
Definition is_moment (t : N) (u : moment) : Prop :=
  valid_date (m_date u) /\ 1970 <= d_year (m_date u) /\ 0 <= m_hour u < 24 /\ 0 <= m_min u < 60 /\ 0 <= m_sec u < 60 /\ seconds u = Z.of_N t.
(* what reading gives for a moment: numbers of seconds that do not fit into an int are undefined, those before 1970 are refused *)
Definition time_result (u : moment) : outcome unit N :=
  if (2147483647 <? seconds u) || (day_number (m_date u) * 86400 <? -2147483648) then Undef
  else if seconds u <? 0 then Throw tt else Ret (Z.to_N (seconds u)).

(* ---- what strptime reads *)
Definition digits_value (ds : bytes) : Z := fold_left (fun v c => v * 10 + dec c) ds 0.
Definition no_digit (s : bytes) : Prop := match s with [] => True | c :: _ => is_dec c = false end.
(* s is white space, then at most n digits whose value v is from lo to hi, then rest. No digit is left over that would still fit. *)
Definition numeral (lo hi : Z) (n : nat) (s : bytes) (v : Z) (rest : bytes) : Prop := exists w ds,
  s = w ++ ds ++ rest /\ Forall (fun c => white c = true) w /\ Forall (fun c => is_dec c = true) ds /\ (1 <= length ds <= n)%nat /\
  v = digits_value ds /\ lo <= v <= hi /\ (length ds = n \/ hi < v * 10 \/ no_digit rest).
Definition has_format (s : bytes) (u : moment) : Prop := exists s1 s2 s3 s4 s5 s6,
  numeral 0 9999 4 s (d_year (m_date u)) (x2d :: s1) /\ numeral 1 12 2 s1 (d_month (m_date u)) (x2d :: s2) /\ numeral 1 31 2 s2 (d_day (m_date u)) s3 /\
  numeral 0 23 2 s3 (m_hour u) (x3a :: s4) /\ numeral 0 59 2 s4 (m_min u) (x3a :: s5) /\ numeral 0 61 2 s5 (m_sec u) s6.
