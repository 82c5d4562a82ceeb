From Coq Require Import ZArith String.
From Verif Require Import Base TextModel TimeModel TimeSpec.
Local Open Scope Z_scope.

(* the first block of the chain *)
Definition ex_time : N := 1231006505.
Definition ex_moment : moment := mkmoment (mkdate 2009 1 3) 18 15 5.
Lemma moment_example : is_moment ex_time ex_moment /\ time_text ex_time = Ret (text "2009-01-03 18:15:05") /\ year_of ex_time = 2009 /\ weekday_of ex_time = 6.
Proof. split; [|split; [|split]; vm_compute; reflexivity]. unfold is_moment, valid_date. repeat split; vm_compute; try discriminate; reflexivity. Qed.
Lemma day_refuted : exists t u, (t < 2 ^ 32)%N /\ is_moment t u /\ day_of t <> d_day (m_date u) /\ day_of t = 0 /\ month_of t <> d_month (m_date u).
Proof. exists ex_time, ex_moment. split; [reflexivity|]. split; [exact (proj1 moment_example)|]. repeat split; vm_compute; try discriminate; reflexivity. Qed.
Lemma back_refuted : exists t s, (t < 2 ^ 32)%N /\ time_text t = Ret s /\ forall after, read_time s after = Undef.
Proof. exists 2147483648%N, (text "2038-01-19 03:14:08"). split; [reflexivity|]. split; [vm_compute; reflexivity|]. intros after. vm_compute. reflexivity. Qed.
Lemma read_example after :
  read_time (text "1969-12-31 23:59:59") after = Throw tt /\
  read_time (text "2021-02-30 00:00:00") after = read_time (text "2021-03-02 00:00:00") after /\ read_time (text "2021-03-02 00:00:00") after = Ret 1614643200%N /\
  read_time (text "2020-01-01 00:00:61") after = read_time (text "2020-01-01 00:01:01") after.
Proof. repeat split; vm_compute; reflexivity. Qed.
Lemma unread_refuted : (forall after, read_time (text "yesterday") after = Undef) /\ (forall after, read_time (text "2020/01/01 00:00:00") after = Undef) /\
  read_time (text " 2020-1-1 0:0:0") [] = Ret 1577836800%N.
Proof. repeat split; intros; vm_compute; reflexivity. Qed.
Lemma after_refuted : exists x, read_time x [] <> read_time x (text "5") /\ read_time x [] = Ret 1577836801%N /\ read_time x (text "5") = Ret 1577836815%N.
Proof. exists (text "2020-01-01 00:00:1"). repeat split; vm_compute; try discriminate; reflexivity. Qed.
