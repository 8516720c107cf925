(** * What C67 says: the year and month given only date a report *)
From Coq Require Import String Ascii.
From Coq Require Import List NArith ZArith Bool.
From Verif Require Import PyBase PyTime Base MetarGroups Trend Metar Taf.
Import ListNotations.
Local Open Scope list_scope.

(** The year and month a report is read for, when they are real. *)
Definition real_month (e : env) (year month : option Z) : Prop :=
  (1000 <= opt_default (now_year e) year <= 9999)%Z /\ (1 <= opt_default (now_month e) month <= 12)%Z.

(** A time without its date. *)
Definition hm (t : time) := (t_code t, dt_hour (t_dt t), dt_minute (t_dt t)).
(** A time without its year and month. *)
Definition dhm (t : time) := (t_code t, dt_day (t_dt t), dt_hour (t_dt t), dt_minute (t_dt t)).

(** The groups of a report or change without its text. *)
Definition groups_of (c : common) := (c_wind c, c_vis c, c_weathers c, c_clouds c).

(** A list, entry by entry. *)
Definition undated_list {A B} (f : A -> B) (g : grouplist A) := (gl_n g, gl_max g, map f (gl_list g)).

(** A trend without its dates and texts. *)
Definition undated_trend (p : change_period) :=
  (cp_code p, hm (cp_time p), groups_of (cp_common p), cp_unparsed p, length (cp_out p),
   (ti_code (cp_ind p), ti_trans (cp_ind p), hm (ti_init (cp_ind p)), hm (ti_end (cp_ind p)), hm (ti_from (cp_ind p)),
    hm (ti_until (cp_ind p)), option_map hm (ti_at (cp_ind p)))).

(** A METAR without its year, month and texts. *)
Definition undated (x : metar) :=
  (me_raw x, me_sections x, me_unparsed x, me_type x, me_station x, dhm (me_time x), me_modifier x, groups_of (me_common x),
   me_wvar x, me_minvis x, me_rvr x, (me_temps x, me_press x, me_recent x, me_ws x, me_sea x, me_rwy x),
   undated_list undated_trend (me_trends x), length (me_out x)).

(** The same for forecasts.  The translation of an FM change and of a change
    with a period shows dates, so only its presence is compared. *)
Definition undated_valid (v : valid) := (va_code v, hm (va_from v), hm (va_until v)).
Definition undated_temp (t : taf_temp) := (tt_code t, tt_value t, hm (tt_time t)).
Definition undated_change (p : change_fc) :=
  (cf_code p, undated_valid (cf_valid p), groups_of (cf_common p), cf_unparsed p,
   (tc_code (cf_ind p), is_some (tc_trans (cf_ind p)), undated_valid (tc_valid (cf_ind p)))).
Definition undated_taf (x : taf) :=
  (ta_raw x, ta_body x, ta_codes x, ta_sections x, ta_unparsed x, ta_type x, ta_station x, dhm (ta_time x), ta_modifier x,
   groups_of (ta_common x), undated_valid (ta_valid x), ta_missing x, ta_cancelled x,
   (undated_list undated_temp (ta_max x), undated_list undated_temp (ta_min x), undated_list undated_change (ta_changes x))).
