(** * Specification for C63: the moments of a report *)
From Coq Require Import List NArith ZArith Bool.
From Verif Require Import PyBase PyTime Base Trend Metar Taf SpecTime.
Import ListNotations.
Local Open Scope list_scope.

(** [u] is on the date of [t] or at most [n] days later. *)
Definition days_from (n : nat) (t u : datetime) : Prop :=
  exists k, (k <= n)%nat /\ days_later k (date_of t) (date_of u).

(** The beginning of the hour. *)
Definition hour_start (t : datetime) : datetime :=
  mk_dt (dt_year t) (dt_month t) (dt_day t) (dt_hour t) 0.

(** ** METAR *)

(** A moment of a trend is real and in one of the three hours that begin with
    the hour of the report. *)
Definition in_trend (t : datetime) (u : time) : Prop :=
  real_time (t_dt u) /\ exists k, (k <= 179)%nat /\ minutes_later k (hour_start t) (t_dt u).

(** A trend begins with the report and ends two hours later; FM, TL and AT may
    give other moments, which then have a code. *)
Definition trend_moments (t : datetime) (p : change_period) : Prop :=
  let i := cp_ind p in
  t_dt (cp_time p) = t /\ t_dt (ti_init i) = t
  /\ real_time (t_dt (ti_end i)) /\ minutes_later 120 t (t_dt (ti_end i))
  /\ in_trend t (ti_from i) /\ in_trend t (ti_until i)
  /\ (t_code (ti_from i) = None -> ti_from i = ti_init i)
  /\ (t_code (ti_until i) = None -> ti_until i = ti_end i)
  /\ forall u, ti_at i = Some u -> in_trend t u.

Definition metar_moments (x : metar) : Prop :=
  real_time (t_dt (me_time x)) /\ Forall (trend_moments (t_dt (me_time x))) (gl_list (me_trends x)).

(** ** TAF *)

(** A whole hour, on the date of [t] or at most [n] days later. *)
Definition whole_hour (n : nat) (t : datetime) (u : time) : Prop :=
  real_time (t_dt u) /\ dt_minute (t_dt u) = 0%Z /\ days_from n t (t_dt u).

(** A validity that was read begins today or tomorrow and ends at most two
    days later; one that was not read lasts a day. *)
Definition valid_moments (t : datetime) (v : valid) : Prop :=
  match va_code v with
  | Some _ => whole_hour 1 t (va_from v) /\ whole_hour 2 t (va_until v)
  | None => real_time (t_dt (va_from v)) /\ real_time (t_dt (va_until v))
            /\ dt_minute (t_dt (va_from v)) = 0%Z /\ minutes_later 1440 (t_dt (va_from v)) (t_dt (va_until v))
  end.

(** A change begins at most 61 days after the forecast, a whole hour unless it
    begins with FM. *)
Definition change_moments (v : valid) (p : change_fc) : Prop :=
  let w := tc_valid (cf_ind p) in
  cf_valid p = v
  /\ real_time (t_dt (va_from w)) /\ real_time (t_dt (va_until w))
  /\ days_from 61 (t_dt (va_from v)) (t_dt (va_from w))
  /\ (va_code w <> None ->
      w = v \/ (whole_hour 1 (t_dt (va_from v)) (va_from w) /\ whole_hour 2 (t_dt (va_from v)) (va_until w))).

Definition taf_moments (x : taf) : Prop :=
  real_time (t_dt (ta_time x))
  /\ valid_moments (t_dt (ta_time x)) (ta_valid x)
  /\ Forall (fun t => whole_hour 1 (t_dt (ta_time x)) (tt_time t)) (gl_list (ta_max x))
  /\ Forall (fun t => whole_hour 1 (t_dt (ta_time x)) (tt_time t)) (gl_list (ta_min x))
  /\ Forall (change_moments (ta_valid x)) (gl_list (ta_changes x)).

(** ** The month *)

(** The first moment of the month of the clock. *)
Definition month_start (e : env) : datetime := mk_dt (now_year e) (now_month e) 1 0 0.
Definition clock_ahead (e : env) (h d : Z) : datetime := mk_dt (now_year e) (now_month e) d h 0.

Definition of_month (y mo : Z) (t : datetime) : Prop := dt_year t = y /\ dt_month t = mo.
(** The number asked for, or that of the clock. *)
Definition asked (now : Z) (o : option Z) : Z := match o with Some z => z | None => now end.
Definition months_ok (y mo : Z) : Prop := (1000 <= y <= 9999)%Z /\ (1 <= mo <= 12)%Z.
