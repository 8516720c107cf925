(** * The as_dict methods

    Python values as a tree; dictionaries keep insertion order and
    [dict.update] overwrites in place. *)
From Coq Require Import String Ascii.
From Coq Require Import List NArith ZArith Bool Lia.
From Verif Require Import PyBase PyRegex AeroRegex PyFloat PyTime Utils Base MetarGroups
  Trend Metar Taf.
Import ListNotations.
Open Scope list_scope.

Inductive pyval :=
| VNone
| VBool (b : bool)
| VStr (s : str)
| VFloat (x : float)
| VList (l : list pyval)
| VDict (d : list (str * pyval)).

Definition vopt (s : option str) : pyval := match s with Some s => VStr s | None => VNone end.
Definition vflo (x : option float) : pyval := match x with Some x => VFloat x | None => VNone end.

Definition dict := list (str * pyval).

(** [d\[k\] = v] *)
Fixpoint dset (k : str) (v : pyval) (d : dict) : dict :=
  match d with
  | [] => [(k, v)]
  | (k', v') :: d' => if str_eqb k k' then (k, v) :: d' else (k', v') :: dset k v d'
  end.

(** [d.update(u)] *)
Definition dupdate (d u : dict) : dict := fold_left (fun d kv => dset (fst kv) (snd kv) d) u d.

(** Group.as_dict, base/group.py:38-41 *)
Definition group_dict (code : option str) : dict := [(py "code", vopt code)].

(** base/distance.py:50-54, base/pressure.py:52-56, base/temperature.py:54-58,
    base/wind.py:126-132, 180-184 *)
Definition distance_dict (v : option float) : dict :=
  [(py "units", VStr (py "meters")); (py "distance", vflo v)].
Definition pressure_dict (v : option float) : dict :=
  [(py "units", VStr (py "hectopascals")); (py "pressure", vflo v)].
Definition temperature_dict (v : option float) : dict :=
  [(py "units", VStr (py "celsius")); (py "temperature", vflo v)].
Definition direction_dict (d : direction) : dict :=
  [(py "cardinal", vopt (cardinal d)); (py "variable", VBool (dir_variable d));
   (py "units", VStr (py "degrees")); (py "direction", vflo (dir_value d))].
Definition speed_dict (v : option float) : dict :=
  [(py "units", VStr (py "knot")); (py "speed", vflo v)].

(** base/wind.py:271-275, metar/wind.py:56-60 *)
Definition wind_dict (w : metar_wind) : dict :=
  dupdate
    (dupdate [(py "direction", VDict (direction_dict (w_dir w)));
              (py "speed", VDict (speed_dict (w_speed w)))]
             [(py "gust", VDict (speed_dict (w_gust w)))])
    (group_dict (w_code w)).

(** metar/wind_variation.py:75-81 *)
Definition wvar_dict (w : wind_variation) : dict :=
  dupdate [(py "from_", VDict (direction_dict (wv_from w)));
           (py "to", VDict (direction_dict (wv_to w)))] (group_dict (wv_code w)).

(** Visibility.as_dict and VisibilityWithDirection.as_dict,
    metar/visibility.py:43-48, 91-96 *)
Definition vis_dict (v : visibility) : dict :=
  dupdate [(py "direction", VDict (direction_dict (v_dir v)))]
    (dupdate [(py "visibility", VDict (distance_dict (v_vis v)))] (group_dict (v_code v))).
(** metar/visibility.py:202-205 *)
Definition prevailing_dict (v : visibility) : dict :=
  dupdate (vis_dict v) [(py "cavok", VBool (v_cavok v))].

(** base/cloud.py:182-191 *)
Definition cloud_dict (c : cloud) : dict :=
  dupdate [(py "cover", vopt (cl_cover c)); (py "oktas", vopt (cl_oktas c));
           (py "height_units", VStr (py "meters")); (py "height", vflo (cl_height c));
           (py "type", vopt (cl_type c))] (group_dict (cl_code c)).

(** metar/weather.py:120-129 *)
Definition weather_dict (w : weather) : dict :=
  dupdate [(py "intensity", vopt (we_int w)); (py "description", vopt (we_desc w));
           (py "precipitation", vopt (we_prec w)); (py "obscuration", vopt (we_obsc w));
           (py "other", vopt (we_other w))] (group_dict (we_code w)).

(** metar/recent_weather.py:60-68 *)
Definition recent_dict (w : recent_weather) : dict :=
  dupdate [(py "description", vopt (rw_desc w)); (py "obscuration", vopt (rw_obsc w));
           (py "other", vopt (rw_other w)); (py "precipitation", vopt (rw_prec w))]
          (group_dict (rw_code w)).

(** metar/runway_range.py:167-177 *)
Definition rvr_dict (r : runway_range) : dict :=
  dupdate [(py "name", vopt (rr_name r)); (py "rvr_low", vopt (rr_rvr_low r));
           (py "low_range", VDict (distance_dict (rr_low r)));
           (py "rvr_high", vopt (rr_rvr_high r));
           (py "high_range", VDict (distance_dict (rr_high r)));
           (py "trend", vopt (rr_trend r))] (group_dict (rr_code r)).

(** metar/temperatures.py:85-91 *)
Definition temps_dict (t : temperatures) : dict :=
  dupdate [(py "temperature", VDict (temperature_dict (te_temp t)));
           (py "dewpoint", VDict (temperature_dict (te_dewpt t)))] (group_dict (te_code t)).

(** metar/windshear.py:52-58 *)
Definition ws_dict (w : windshear) : dict :=
  dupdate [(py "all", VBool (ws_all_ w)); (py "name", vopt (ws_name w))]
          (group_dict (ws_code w)).

(** metar/sea_state.py:134-141 *)
Definition sea_dict (s : sea_state) : dict :=
  dupdate [(py "state", vopt (se_state s));
           (py "temperature", VDict (temperature_dict (se_temp s)));
           (py "height", VDict (distance_dict (se_height s)))] (group_dict (se_code s)).

(** metar/runway_state.py:239-250 *)
Definition rs_dict (r : runway_state) : dict :=
  dupdate [(py "name", vopt (rs_name r)); (py "deposits", vopt (rs_deposits r));
           (py "contamination", vopt (rs_contamination r));
           (py "deposits_depth", vopt (rs_depth r));
           (py "surface_friction", vopt (rs_friction r));
           (py "snoclo", VBool (rs_snoclo r)); (py "clrd", vopt (rs_clrd_text r))]
          (group_dict (rs_code r)).

(** base/type.py:28-33, base/modifier.py:38-43, base/station.py:85-97,
    base/time.py:112-117 *)
Definition type_dict (t : report_type) : dict :=
  dupdate [(py "type", vopt (ty_type t))] (group_dict (ty_code t)).
Definition modifier_dict (m : modifier) : dict :=
  dupdate [(py "modifier", vopt (mo_desc m))] (group_dict (mo_code m)).
Definition station_dict (e : env) (s : station) : dict :=
  dupdate [(py "name", vopt (st_name s)); (py "icao", vopt (st_icao s));
           (py "iata", vopt (st_iata s)); (py "synop", vopt (st_synop s));
           (py "latitude", vopt (st_latitude s)); (py "longitude", vopt (st_longitude s));
           (py "elevation", vopt (st_elevation s)); (py "country", vopt (st_country e s))]
          (group_dict (st_code s)).
Definition time_dict (t : time) : dict :=
  dupdate [(py "datetime", VStr (time_str t))] (group_dict (t_code t)).

(** GroupList.as_dict, base/group.py:104-122 *)
Definition labels : list str :=
  [py "first"; py "second"; py "third"; py "fourth"; py "fifth"; py "sixth"; py "seventh";
   py "eighth"; py "nineth"; py "tenth"].

Fixpoint list_dict_from (i : nat) (l : list dict) (d : dict) : result dict :=
  match l with
  | [] => Ok d
  | x :: l' => match nth_error labels i with
               | Some k => list_dict_from (S i) l' (dset k (VDict x) d)
               | None => Raise IndexError
               end
  end.
Definition list_dict {A} (f : A -> dict) (g : grouplist A) : result dict :=
  list_dict_from 0 (map f (gl_list g)) [].

(** Forecast.as_dict, metar/weather_trend.py:57-66.  The two comprehensions
    move the cursors of the lists, hence the new [common]. *)
Definition forecast_dict (code : option str) (c : common) : dict * common :=
  let (ws, gw) := gl_collect (c_weathers c) in
  let (cs, gc) := gl_collect (c_clouds c) in
  (dupdate [(py "wind", VDict (wind_dict (c_wind c)));
            (py "prevailing_visibility", VDict (prevailing_dict (c_vis c)));
            (py "weathers", VList (map (fun w => VDict (weather_dict w)) ws));
            (py "clouds", VList (map (fun x => VDict (cloud_dict x)) cs));
            (py "flight_rules", vopt (flight_rules c))] (group_dict code),
   set_weathers gw (set_clouds gc c)).

(** metar/trend_indicator.py:85-96, base/change_indicator.py:49-52 *)
Definition trend_ind_dict (i : trend_ind) : dict :=
  dupdate
    [(py "forecast_period",
       VDict [(py "init", VDict (time_dict (ti_init i)));
              (py "end", VDict (time_dict (ti_end i)))]);
     (py "from_", VDict (time_dict (ti_from i)));
     (py "until", VDict (time_dict (ti_until i)));
     (py "at", match ti_at i with
               | Some a => if time_truthy a then VDict (time_dict a) else VNone
               | None => VNone
               end)]
    (dupdate [(py "translation", vopt (ti_trans i))] (group_dict (ti_code i))).

(** The sub-dictionaries of the change periods, with the lists advanced. *)
Definition change_period_dict (p : change_period) : dict := fst (forecast_dict (cp_code p) (cp_common p)).
Definition change_fc_dict (p : change_fc) : dict := fst (forecast_dict (cf_code p) (cf_common p)).

(** Report.as_dict, base/report.py:87-97 *)
Definition report_dict (e : env) (raw : str) (sections unparsed : list str)
           (ty : report_type) (st : station) (t : time) : dict :=
  [(py "code", VStr raw); (py "sections", VList (map VStr sections));
   (py "unparsed_groups", VList (map VStr unparsed)); (py "type_", VDict (type_dict ty));
   (py "station", VDict (station_dict e st)); (py "time", VDict (time_dict t))].

(** Metar.as_dict, metar.py:287-310 *)
Definition metar_dict (e : env) (x : metar) : result dict :=
  rvr <- list_dict rvr_dict (me_rvr x) ;;
  wea <- list_dict weather_dict (c_weathers (me_common x)) ;;
  clo <- list_dict cloud_dict (c_clouds (me_common x)) ;;
  ws <- list_dict ws_dict (me_ws x) ;;
  tr <- list_dict change_period_dict (me_trends x) ;;
  Ok (dupdate
        (report_dict e (me_raw x) (me_sections x) (me_unparsed x) (me_type x)
                     (me_station x) (me_time x))
        [(py "modifier", VDict (modifier_dict (me_modifier x)));
         (py "wind", VDict (wind_dict (c_wind (me_common x))));
         (py "wind_variation", VDict (wvar_dict (me_wvar x)));
         (py "prevailing_visibility", VDict (prevailing_dict (c_vis (me_common x))));
         (py "minimum_visibility", VDict (vis_dict (me_minvis x)));
         (py "runway_ranges", VDict rvr); (py "weathers", VDict wea);
         (py "clouds", VDict clo); (py "temperatures", VDict (temps_dict (me_temps x)));
         (py "pressure", VDict (pressure_dict (pr_value (me_press x))));
         (py "recent_weather", VDict (recent_dict (me_recent x)));
         (py "windshears", VDict ws); (py "sea_state", VDict (sea_dict (me_sea x)));
         (py "runway_state", VDict (rs_dict (me_rwy x)));
         (py "flight_rules", vopt (flight_rules (me_common x)));
         (py "weather_trends", VDict tr);
         (py "remark", VStr (section 2 (me_sections x)))]).

(** taf/valid.py:87-93, taf/missing.py:22-27, taf/cancelled.py:31-36,
    taf/temperature.py:52-56 *)
Definition valid_dict (v : valid) : dict :=
  dupdate [(py "from_", VDict (time_dict (va_from v)));
           (py "until", VDict (time_dict (va_until v)))] (group_dict (va_code v)).
Definition missing_dict (m : missing) : dict :=
  dupdate [(py "is_missing", VBool (mi_missing m))] (modifier_dict (mi_mod m)).
Definition cancelled_dict (c : cancelled) : dict :=
  dupdate [(py "is_cancelled", VBool (ca_cancelled c))] (group_dict (ca_code c)).
Definition taf_temp_dict (t : taf_temp) : dict :=
  dupdate (dupdate (temperature_dict (tt_value t)) (group_dict (tt_code t)))
          (time_dict (tt_time t)).

(** taf/change_indicator.py:72-77 *)
Definition taf_ind_dict (i : taf_ind) : dict :=
  dupdate [(py "valid", VDict (valid_dict (tc_valid i)))]
    (dupdate [(py "translation", vopt (tc_trans i))] (group_dict (tc_code i))).

(** Taf.as_dict, taf.py:212-229 *)
Definition taf_dict (e : env) (x : taf) : result dict :=
  wea <- list_dict weather_dict (c_weathers (ta_common x)) ;;
  clo <- list_dict cloud_dict (c_clouds (ta_common x)) ;;
  mx <- list_dict taf_temp_dict (ta_max x) ;;
  mn <- list_dict taf_temp_dict (ta_min x) ;;
  ch <- list_dict change_fc_dict (ta_changes x) ;;
  Ok (dupdate
        (report_dict e (ta_raw x) (ta_sections x) (ta_unparsed x) (ta_type x)
                     (ta_station x) (ta_time x))
        [(py "modifier", VDict (modifier_dict (ta_modifier x)));
         (py "missing", VDict (missing_dict (ta_missing x)));
         (py "valid", VDict (valid_dict (ta_valid x)));
         (py "cancelled", VDict (cancelled_dict (ta_cancelled x)));
         (py "wind", VDict (wind_dict (c_wind (ta_common x))));
         (py "prevailing_visibility", VDict (prevailing_dict (c_vis (ta_common x))));
         (py "weathers", VDict wea); (py "clouds", VDict clo);
         (py "max_temperatures", VDict mx); (py "min_temperatures", VDict mn);
         (py "changes_forecasted", VDict ch)]).
