(* Timestamps: src/gigamonkey/timestamp.cpp and include/gigamonkey/timestamp.hpp.
   The C library is modelled by what it does: [gmtime] by counting days in the Gregorian calendar, strftime by the text of the format
   "%Y-%m-%d %H:%M:%S" in the C locale, strptime as in glibc for that format (leading white space before a number is skipped, a number has at
   most so many digits, white space in the format matches any amount of white space, what follows is ignored). A failed strptime leaves fields
   of the struct unset; its result is not looked at (timestamp.cpp 24-28), so reading is undefined then. [int] has 32 bits and time_t 64. *)
From Coq Require Import ZArith.
From Verif Require Import Base Bip44Model.
Local Open Scope Z_scope.

(* ---- the Gregorian calendar, which gmtime follows *)
Record date := mkdate { d_year : Z; d_month : Z; d_day : Z }.
Definition leap (y : Z) : bool := (y mod 4 =? 0) && (negb (y mod 100 =? 0) || (y mod 400 =? 0)).
Definition month_days (y m : Z) : Z :=
  if m =? 2 then (if leap y then 29 else 28) else if (m =? 4) || (m =? 6) || (m =? 9) || (m =? 11) then 30 else 31.
Definition next_day (d : date) : date :=
  if d_day d <? month_days (d_year d) (d_month d) then mkdate (d_year d) (d_month d) (d_day d + 1)
  else if d_month d <? 12 then mkdate (d_year d) (d_month d + 1) 1
  else mkdate (d_year d + 1) 1 1.
Definition epoch : date := mkdate 1970 1 1.
Definition date_at (n : N) : date := N.iter n next_day epoch.

(* struct tm, with the year and the month as in dates *)
Record tm := mktm { t_date : date; t_wday : Z; t_hour : Z; t_min : Z; t_sec : Z }.
Definition gmtime (t : N) : tm :=
  let n := (t / 86400)%N in let s := Z.of_N (t mod 86400) in
  mktm (date_at n) ((4 + Z.of_N n) mod 7) (s / 3600) (s / 60 mod 60) (s mod 60).

(* timestamp.hpp 142-168: tm_year counts from 1900 and tm_mon from 0; a byte and a uint16 are what is kept of them *)
Definition year_of (t : N) : Z := (1900 + (d_year (t_date (gmtime t)) - 1900)) mod 65536.
Definition month_of (t : N) : Z := (d_month (t_date (gmtime t)) - 1) mod 256.
Definition day_of (t : N) : Z := (d_month (t_date (gmtime t)) - 1) mod 256.
Definition weekday_of (t : N) : Z := t_wday (gmtime t) mod 256.
Definition hour_of (t : N) : Z := t_hour (gmtime t) mod 256.
Definition minute_of (t : N) : Z := t_min (gmtime t) mod 256.
Definition second_of (t : N) : Z := t_sec (gmtime t) mod 256.

(* ---- strftime *)
Definition digit (d : Z) : byte := n2b (Z.to_N (48 + d)).
Definition two (v : Z) : bytes := [digit (v / 10); digit (v mod 10)].
Definition format_tm (u : tm) : bytes :=
  to_string (Z.to_N (d_year (t_date u))) ++ x2d :: two (d_month (t_date u)) ++ x2d :: two (d_day (t_date u)) ++
  x20 :: two (t_hour u) ++ x3a :: two (t_min u) ++ x3a :: two (t_sec u).
(* timestamp.cpp 17-22: a text that with its end does not fit into 20 bytes leaves the buffer unset *)
Definition time_text (t : N) : outcome unit bytes :=
  let s := format_tm (gmtime t) in if (len s <=? 19)%N then Ret s else Undef.

(* ---- strptime *)
Definition white (c : byte) : bool := (b2n c =? 32)%N || ((9 <=? b2n c)%N && (b2n c <=? 13)%N).
Fixpoint skip_white (s : bytes) : bytes := match s with c :: r => if white c then skip_white r else s | [] => [] end.
Definition is_dec (c : byte) : bool := (48 <=? b2n c)%N && (b2n c <=? 57)%N.
Definition dec (c : byte) : Z := Z.of_N (b2n c) - 48.
(* the digits after the first: at most [n], as long as another one can be within [hi] *)
Fixpoint more_digits (n : nat) (hi v : Z) (s : bytes) : Z * bytes :=
  match n, s with
  | S k, c :: r => if (v * 10 <=? hi) && is_dec c then more_digits k hi (v * 10 + dec c) r else (v, s)
  | _, _ => (v, s)
  end.
Definition get_number (lo hi : Z) (n : nat) (s : bytes) : option (Z * bytes) :=
  match skip_white s with
  | c :: r => if is_dec c then let '(v, q) := more_digits (n - 1) hi (dec c) r in if (lo <=? v) && (v <=? hi) then Some (v, q) else None else None
  | [] => None
  end.
Definition expect (c : byte) (s : bytes) : option bytes := match s with x :: r => if byte_eqb x c then Some r else None | [] => None end.
Fixpoint until_nul (s : bytes) : bytes := match s with c :: r => if byte_eqb c x00 then [] else c :: until_nul r | [] => [] end.
Definition strptime (s : bytes) : option tm :=
  match get_number 0 9999 4 s with None => None | Some (y, s) =>
  match expect x2d s with None => None | Some s =>
  match get_number 1 12 2 s with None => None | Some (m, s) =>
  match expect x2d s with None => None | Some s =>
  match get_number 1 31 2 s with None => None | Some (d, s) =>
  match get_number 0 23 2 (skip_white s) with None => None | Some (h, s) =>
  match expect x3a s with None => None | Some s =>
  match get_number 0 59 2 s with None => None | Some (i, s) =>
  match expect x3a s with None => None | Some s =>
  match get_number 0 61 2 s with None => None | Some (c, s) =>
  Some (mktm (mkdate y m d) 0 h i c)
  end end end end end end end end end end.

(* ---- timestamp.cpp 30-41 *)
Definition int_fits (z : Z) : bool := (-2147483648 <=? z) && (z <=? 2147483647).
Definition u32 (z : Z) : Z := z mod 4294967296.
(* the number of the day: 31-38, up to the multiplication. Unsigned where the code is; the signed steps do not overflow for the years that
   strptime gives. *)
Definition civil (d : date) : Z :=
  let m := d_month d in
  let y := d_year d - (if m <=? 2 then 1 else 0) in
  let era := Z.quot (if 0 <=? y then y else y - 399) 400 in
  let yoe := u32 (y - era * 400) in
  let doy := u32 ((u32 (u32 (153 * u32 (m + (if 2 <? m then u32 (-3) else 9))) + 2)) / 5 + d_day d - 1) in
  let doe := u32 (yoe * 365 + yoe / 4 - yoe / 100 + doy) in
  era * 146097 + doe - 719468.
(* 39-40: everything is an int until it is returned *)
Definition to_time_t (u : tm) : option Z :=
  let a := civil (t_date u) * 86400 in
  let b := a + t_hour u * 3600 in
  let c := b + t_min u * 60 in
  let d := c + t_sec u in
  if int_fits a && int_fits b && int_fits c && int_fits d then Some d else None.

(* timestamp.hpp 82-84; the comparison of an int with the largest uint32 (86-88) is made in unsigned numbers and never holds *)
Definition of_time_t (t : Z) : outcome unit N := if (t <? 0) || (4294967295 <? t) then Throw tt else Ret (Z.to_N t).
Definition of_int (t : Z) : outcome unit N := if (t <? 0) || (4294967295 <? u32 t) then Throw tt else Ret (Z.to_N t).

(* timestamp.cpp 24-28, 43-45. A string_view need not end with 0: [after] is what follows it in memory up to a 0. *)
Definition read_time (x after : bytes) : outcome unit N :=
  match strptime (until_nul (x ++ after)) with
  | None => Undef
  | Some u => match to_time_t u with None => Undef | Some t => of_time_t t end
  end.
