(** * The groups of a report with a to_json of their own (C59): specification *)
From Coq Require Import String Ascii.
From Coq Require Import List NArith ZArith Bool.
From Verif Require Import PyBase Base MetarGroups Trend Metar Taf AsDict.
Import ListNotations.
Local Open Scope list_scope.

(** Wind, visibility, weathers and clouds of a body, trend or change, with
    their numbers. *)
Definition part_groups (c : common) : list dict :=
  [wind_dict (c_wind c); direction_dict (w_dir (c_wind c)); speed_dict (w_speed (c_wind c)); speed_dict (w_gust (c_wind c));
   prevailing_dict (c_vis c); distance_dict (v_vis (c_vis c)); direction_dict (v_dir (c_vis c))]
  ++ map weather_dict (gl_list (c_weathers c)) ++ map cloud_dict (gl_list (c_clouds c)).

Definition trend_groups (p : change_period) : list dict :=
  [change_period_dict p; trend_ind_dict (cp_ind p); time_dict (ti_init (cp_ind p)); time_dict (ti_end (cp_ind p));
   time_dict (ti_from (cp_ind p)); time_dict (ti_until (cp_ind p))] ++ part_groups (cp_common p).

Definition metar_groups (e : env) (x : metar) : list dict :=
  [type_dict (me_type x); station_dict e (me_station x); time_dict (me_time x); modifier_dict (me_modifier x);
   wvar_dict (me_wvar x); vis_dict (me_minvis x); temps_dict (me_temps x); temperature_dict (te_temp (me_temps x));
   temperature_dict (te_dewpt (me_temps x)); pressure_dict (pr_value (me_press x));
   recent_dict (me_recent x); sea_dict (me_sea x); rs_dict (me_rwy x)]
  ++ part_groups (me_common x) ++ map rvr_dict (gl_list (me_rvr x)) ++ map ws_dict (gl_list (me_ws x))
  ++ flat_map trend_groups (gl_list (me_trends x)).

Definition change_groups (p : change_fc) : list dict :=
  [change_fc_dict p; taf_ind_dict (cf_ind p); valid_dict (tc_valid (cf_ind p))] ++ part_groups (cf_common p).

Definition taf_groups (e : env) (x : taf) : list dict :=
  [type_dict (ta_type x); station_dict e (ta_station x); time_dict (ta_time x); modifier_dict (ta_modifier x);
   missing_dict (ta_missing x); valid_dict (ta_valid x); time_dict (va_from (ta_valid x)); time_dict (va_until (ta_valid x));
   cancelled_dict (ta_cancelled x)]
  ++ part_groups (ta_common x) ++ map taf_temp_dict (gl_list (ta_max x)) ++ map taf_temp_dict (gl_list (ta_min x))
  ++ flat_map change_groups (gl_list (ta_changes x)).
