(** * Specifications for the exact behaviour of the code where a property fails *)
From Coq Require Import String Ascii.
From Coq Require Import List NArith ZArith Bool Lia.
From Verif Require Import PyBase PyTime SpecNum SpecTime.
Import ListNotations.
Local Open Scope Z_scope.

(** [b] is the date of [t] when its day of the month is [day], otherwise the
    day after, whatever [day] is. *)
Definition today_or_after (t : datetime) (day : Z) (b : Z * Z * Z) : Prop :=
  (day = dt_day t /\ b = date_of t) \/ (day <> dt_day t /\ day_after (date_of t) b).

(** At most one day later. *)
Definition by_tomorrow (t : datetime) (b : Z * Z * Z) : Prop :=
  exists k, (k <= 1)%nat /\ days_later k (date_of t) b.

(** The moment of an hour coded in a trend of a report of [t]: in the hour of
    the report, in the next one, or else in the one after that, whatever the
    coded hour is. *)
Definition trend_moment (t : datetime) (h mi : N) (u : datetime) : Prop :=
  exists a b,
    minutes_later 60 t a /\ minutes_later 120 t b
    /\ exists w, ((Z.of_N h = dt_hour t /\ w = t)
        \/ (Z.of_N h <> dt_hour t /\ Z.of_N h = dt_hour a /\ w = a)
        \/ (Z.of_N h <> dt_hour t /\ Z.of_N h <> dt_hour a /\ w = b))
       /\ u = mk_dt (dt_year w) (dt_month w) (dt_day w) (dt_hour w) (Z.of_N mi).
