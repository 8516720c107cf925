(** * The text of a report (C61): specification vocabulary

    [str(report)] is the texts of its groups, one per line, in the order of
    the groups.  The texts are those of the fields the report has when it is
    complete. *)
From Coq Require Import String Ascii.
From Coq Require Import List NArith ZArith Bool Lia.
From Verif Require Import PyBase PyTime Base MetarGroups Trend Metar Taf SpecKept.
Import ListNotations.
Local Open Scope string_scope.
Local Open Scope nat_scope.
Local Open Scope list_scope.

(** Every text ends its line. *)
Definition lines (l : list str) : str := concat (map (fun s => s ++ [10%N]) l).

(** A field the report does not have has no line. *)
Definition line_of (code : option str) (text : str) : list str := match code with Some _ => [text] | None => [] end.

(** A type that was not read has no line. *)
Definition type_line (default : str) (t : report_type) (l : list str) : Prop :=
  l = [type_str t] \/ (l = [] /\ ty_code t = Some default).

Definition wind_line (c : common) : list str := line_of (w_code (c_wind c)) (metar_wind_str (c_wind c)).
Definition vis_line (c : common) : list str := line_of (v_code (c_vis c)) (prevailing_str (c_vis c)).
Definition weather_lines (c : common) : list str := map weather_str (gl_list (c_weathers c)).
Definition cloud_lines (c : common) : list str := map cloud_str (gl_list (c_clouds c)).

(** METAR *)
Definition metar_before (e : env) (x : metar) : list (list str) :=
  [line_of (st_code (me_station x)) (station_str e (me_station x)); line_of (t_code (me_time x)) (time_str (me_time x));
   line_of (mo_code (me_modifier x)) (modifier_str (me_modifier x)); wind_line (me_common x);
   line_of (wv_code (me_wvar x)) (wind_variation_str (me_wvar x)); vis_line (me_common x);
   line_of (v_code (me_minvis x)) (visibility_dir_str (me_minvis x)); map runway_range_str (gl_list (me_rvr x));
   weather_lines (me_common x); cloud_lines (me_common x); line_of (te_code (me_temps x)) (temperatures_str (me_temps x))].
Definition metar_after (x : metar) : list (list str) :=
  [line_of (pr_code (me_press x)) (pressure_str (pr_value (me_press x)));
   line_of (rw_code (me_recent x)) (recent_weather_str (me_recent x)); map windshear_str (gl_list (me_ws x));
   line_of (se_code (me_sea x)) (sea_state_str (me_sea x)); line_of (rs_code (me_rwy x)) (runway_state_str (me_rwy x))].

(** The line of a pressure that was replaced by a second one stays. *)
Definition old_pressure (p : pressure) (l : list str) : Prop :=
  l = [] \/ (pr_code p <> None /\ exists v, l = [pressure_str v]).

(** A trend: the indicator with its times is one line.  An indicator that is
    not translated (TEMPOX) is an empty line; when it has an AT time, that time
    is in this line and again in front of the next one. *)
Definition trend_head (i : trend_ind) : str :=
  match ti_code i, ti_trans i with
  | None, _ => []
  | Some _, Some _ => trend_ind_str i ++ [10%N]
  | Some _, None => trend_ind_str i ++ [10%N] ++ trend_ind_str i
  end.
Definition trend_text (p : change_period) : Prop :=
  change_period_str p = strip (trend_head (cp_ind p) ++ lines (wind_line (cp_common p) ++ vis_line (cp_common p)
                                                               ++ weather_lines (cp_common p) ++ cloud_lines (cp_common p))).

Definition metar_text (e : env) (x : metar) : Prop :=
  exists ty old, type_line (py "METAR") (me_type x) ty /\ old_pressure (me_press x) old
    /\ metar_str x = strip (lines (ty ++ concat (metar_before e x) ++ old ++ concat (metar_after x)
                                   ++ map change_period_str (gl_list (me_trends x))))
    /\ Forall trend_text (gl_list (me_trends x)).

(** TAF *)
Definition taf_lines (e : env) (x : taf) : list (list str) :=
  [line_of (mo_code (ta_modifier x)) (modifier_str (ta_modifier x)); line_of (st_code (ta_station x)) (station_str e (ta_station x));
   line_of (t_code (ta_time x)) (time_str (ta_time x));
   line_of (mo_code (mi_mod (ta_missing x))) (modifier_str (mi_mod (ta_missing x)));
   line_of (va_code (ta_valid x)) (valid_str (ta_valid x)); line_of (ca_code (ta_cancelled x)) (cancelled_str (ta_cancelled x));
   wind_line (ta_common x); vis_line (ta_common x); weather_lines (ta_common x); cloud_lines (ta_common x)].

(** The text of a change, except that the end of an FM change is the one it
    had before a later change ended it. *)
Definition change_line (p : change_fc) (l : str) : Prop :=
  l = change_fc_str p
  \/ (exists c until, tc_code (cf_ind p) = Some c /\ starts_with (py "FM") c = true
        /\ l = py "from " ++ time_str (va_from (tc_valid (cf_ind p))) ++ py " until " ++ time_str until ++ [10%N]).

Definition taf_text (e : env) (x : taf) : Prop :=
  exists ty temps changes, type_line (py "TAF") (ta_type x) ty
    /\ weave (map taf_temp_str (gl_list (ta_max x))) (map taf_temp_str (gl_list (ta_min x))) temps
    /\ Forall2 change_line (gl_list (ta_changes x)) changes
    /\ taf_str x = strip (lines (ty ++ concat (taf_lines e x) ++ temps ++ changes)).
