(** * Specifications: the calendar, report times, forecast periods

    The Gregorian calendar is described by leap years, lengths of months and
    the day after a date; durations by counting minutes one at a time. *)
From Coq Require Import String Ascii.
From Coq Require Import List NArith ZArith Bool Lia.
From Verif Require Import PyBase PyTime SpecNum.
Import ListNotations.
Local Open Scope Z_scope.

(** ** The calendar *)

Definition leap_year (y : Z) : Prop := (4 | y) /\ (~ (100 | y) \/ (400 | y)).

Inductive month_length (y : Z) : Z -> Z -> Prop :=
| Len31 : forall m, In m [1; 3; 5; 7; 8; 10; 12] -> month_length y m 31
| Len30 : forall m, In m [4; 6; 9; 11] -> month_length y m 30
| Len29 : leap_year y -> month_length y 2 29
| Len28 : ~ leap_year y -> month_length y 2 28.

(** The date exists; years are those of [datetime]. *)
Definition real_date (y m d : Z) : Prop :=
  1 <= y <= 9999 /\ exists n, month_length y m n /\ 1 <= d <= n.

Definition real_time (t : datetime) : Prop :=
  real_date (dt_year t) (dt_month t) (dt_day t) /\ 0 <= dt_hour t < 24 /\ 0 <= dt_minute t < 60.

(** The day after. *)
Inductive day_after : Z * Z * Z -> Z * Z * Z -> Prop :=
| InMonth : forall y m d n, month_length y m n -> d < n -> day_after (y, m, d) (y, m, d + 1)
| NextMonth : forall y m d, month_length y m d -> m < 12 -> day_after (y, m, d) (y, m + 1, 1)
| NextYear : forall y, day_after (y, 12, 31) (y + 1, 1, 1).

Definition real (x : Z * Z * Z) : Prop := let '(y, m, d) := x in real_date y m d.

Definition date_of (t : datetime) : Z * Z * Z := (dt_year t, dt_month t, dt_day t).

(** The minute after. *)
Inductive minute_after : datetime -> datetime -> Prop :=
| SameHour : forall y m d h mi, mi < 59 -> minute_after (mk_dt y m d h mi) (mk_dt y m d h (mi + 1))
| NextHour : forall y m d h, h < 23 -> minute_after (mk_dt y m d h 59) (mk_dt y m d (h + 1) 0)
| NextDay : forall y m d y' m' d', day_after (y, m, d) (y', m', d') ->
    minute_after (mk_dt y m d 23 59) (mk_dt y' m' d' 0 0).

(** [k] steps. *)
Inductive steps {A} (R : A -> A -> Prop) : nat -> A -> A -> Prop :=
| Zero : forall a, steps R 0 a a
| Succ : forall k a b c, R a b -> steps R k b c -> steps R (S k) a c.

(** [u] is [k] minutes, or [k] days, after [t]. *)
Definition minutes_later (k : nat) (t u : datetime) : Prop := steps minute_after k t u.
Definition days_later (k : nat) (a b : Z * Z * Z) : Prop := steps day_after k a b.

(** [b] is the first date from [a] on whose day of the month is [d]. *)
Definition first_with_day (a : Z * Z * Z) (d : Z) (b : Z * Z * Z) : Prop :=
  exists k, days_later k a b /\ snd b = d
    /\ forall j c, (j < k)%nat -> days_later j a c -> snd c <> d.

(** ** The groups *)

Local Open Scope N_scope.

(** ddhhmmZ *)
Definition stamp_code (d h mi : N) : str := digits 2 d ++ digits 2 h ++ digits 2 mi ++ py "Z".
(** ddhh/ddhh *)
Definition valid_code (fd fh td th : N) : str :=
  digits 2 fd ++ digits 2 fh ++ py "/" ++ digits 2 td ++ digits 2 th.
(** FMddhhmm of a TAF *)
Definition fm_code (d h mi : N) : str := py "FM" ++ digits 2 d ++ digits 2 h ++ digits 2 mi.
(** FMhhmm, TLhhmm, AThhmm of a METAR trend *)
Inductive period_kind := PFrom | PUntil | PAt.
Definition period_prefix (k : period_kind) : str :=
  match k with PFrom => py "FM" | PUntil => py "TL" | PAt => py "AT" end.
Definition period_code (k : period_kind) (h mi : N) : str := period_prefix k ++ digits 2 h ++ digits 2 mi.

(** The date and time with the given numbers. *)
Definition moment (x : Z * Z * Z) (h mi : N) : datetime :=
  let '(y, m, d) := x in mk_dt y m d (Z.of_N h) (Z.of_N mi).

(** TXtt/ddhhZ and TNtt/ddhhZ, M before negative temperatures *)
Definition taf_temp_code (mx neg : bool) (n d h : N) : str :=
  py (if mx then "TX" else "TN") ++ (if neg then py "M" else []) ++ digits 2 n ++ py "/"
  ++ digits 2 d ++ digits 2 h ++ py "Z".
