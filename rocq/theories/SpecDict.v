(** * Specification for C64: the rows of a dictionary

    A tree of Python values is laid out as rows: the path of keys and
    positions that leads to a value, and the value found there.  For every
    kind of group the rows its dictionary must have are listed from the
    attributes of the group. *)
From Coq Require Import String Ascii.
From Coq Require Import List NArith ZArith Bool.
From Verif Require Import PyBase PyFloat PyTime Base MetarGroups Trend Metar Taf AsDict SpecNum.
Import ListNotations.
Local Open Scope string_scope.
Local Open Scope nat_scope.
Local Open Scope list_scope.

Inductive step := Key (k : str) | Item (i : nat).

(** [Hollow]: a list or dictionary without entries. *)
Inductive leaf := Nothing | Flag (b : bool) | Word (s : str) | Number (x : float) | Hollow.

Definition row : Type := list step * leaf.

Definition under (s : step) (l : list row) : list row := map (fun r => (s :: fst r, snd r)) l.

Fixpoint leaves (v : pyval) : list row :=
  match v with
  | VNone => [([], Nothing)]
  | VBool b => [([], Flag b)]
  | VStr s => [([], Word s)]
  | VFloat x => [([], Number x)]
  | VList [] => [([], Hollow)]
  | VDict [] => [([], Hollow)]
  | VList l => (fix items (i : nat) (l : list pyval) : list row :=
                  match l with [] => [] | x :: r => under (Item i) (leaves x) ++ items (S i) r end) 0 l
  | VDict d => (fix keys (d : list (str * pyval)) : list row :=
                  match d with [] => [] | (k, x) :: r => under (Key k) (leaves x) ++ keys r end) d
  end.

(** ** Building tables *)

Definition word (o : option str) : leaf := match o with Some s => Word s | None => Nothing end.
Definition number (o : option float) : leaf := match o with Some x => Number x | None => Nothing end.

Definition field (k : string) (v : leaf) : list row := [([Key (py k)], v)].
Definition at_key (k : string) (l : list row) : list row := under (Key (py k)) l.

(** A list of groups becomes a dictionary whose keys are ordinals. *)
Definition ordinals : list string :=
  ["first"; "second"; "third"; "fourth"; "fifth"; "sixth"; "seventh"; "eighth"; "nineth"; "tenth"].
Definition numbered {A} (f : A -> list row) (l : list A) : list row :=
  match l with
  | [] => [([], Hollow)]
  | _ => flat_map (fun p => at_key (fst p) (f (snd p))) (combine ordinals l)
  end.

(** A list that stays a list. *)
Definition listed {A} (f : A -> list row) (l : list A) : list row :=
  match l with
  | [] => [([], Hollow)]
  | _ => flat_map (fun p => under (Item (fst p)) (f (snd p))) (combine (seq 0 (length l)) l)
  end.
Definition texts (l : list str) : list row := listed (fun s => [([], Word s)]) l.

(** ** Groups *)

Definition quantity_rows (name units : string) (v : option float) : list row :=
  field "units" (Word (py units)) ++ field name (number v).
Definition metres_rows := quantity_rows "distance" "meters".
Definition knots_rows := quantity_rows "speed" "knot".
Definition celsius_rows := quantity_rows "temperature" "celsius".
Definition hectopascals_rows := quantity_rows "pressure" "hectopascals".

Definition direction_rows (d : direction) : list row :=
  field "cardinal" (word (cardinal d)) ++ field "variable" (Flag (dir_variable d))
  ++ field "units" (Word (py "degrees")) ++ field "direction" (number (dir_value d)).

Definition code_row (c : option str) : list row := field "code" (word c).

Definition wind_rows (w : metar_wind) : list row :=
  code_row (w_code w) ++ at_key "direction" (direction_rows (w_dir w))
  ++ at_key "speed" (knots_rows (w_speed w)) ++ at_key "gust" (knots_rows (w_gust w)).
Definition wvar_rows (w : wind_variation) : list row :=
  code_row (wv_code w) ++ at_key "from_" (direction_rows (wv_from w)) ++ at_key "to" (direction_rows (wv_to w)).
Definition vis_rows (v : visibility) : list row :=
  code_row (v_code v) ++ at_key "visibility" (metres_rows (v_vis v)) ++ at_key "direction" (direction_rows (v_dir v)).
Definition prevailing_rows (v : visibility) : list row := vis_rows v ++ field "cavok" (Flag (v_cavok v)).
Definition cloud_rows (c : cloud) : list row :=
  code_row (cl_code c) ++ field "cover" (word (cl_cover c)) ++ field "oktas" (word (cl_oktas c))
  ++ field "type" (word (cl_type c)) ++ field "height_units" (Word (py "meters")) ++ field "height" (number (cl_height c)).
Definition weather_rows (w : weather) : list row :=
  code_row (we_code w) ++ field "intensity" (word (we_int w)) ++ field "description" (word (we_desc w))
  ++ field "precipitation" (word (we_prec w)) ++ field "obscuration" (word (we_obsc w)) ++ field "other" (word (we_other w)).
Definition recent_rows (w : recent_weather) : list row :=
  code_row (rw_code w) ++ field "description" (word (rw_desc w)) ++ field "precipitation" (word (rw_prec w))
  ++ field "obscuration" (word (rw_obsc w)) ++ field "other" (word (rw_other w)).
Definition rvr_rows (r : runway_range) : list row :=
  code_row (rr_code r) ++ field "name" (word (rr_name r))
  ++ field "rvr_low" (word (rr_rvr_low r)) ++ at_key "low_range" (metres_rows (rr_low r))
  ++ field "rvr_high" (word (rr_rvr_high r)) ++ at_key "high_range" (metres_rows (rr_high r))
  ++ field "trend" (word (rr_trend r)).
Definition temps_rows (t : temperatures) : list row :=
  code_row (te_code t) ++ at_key "temperature" (celsius_rows (te_temp t)) ++ at_key "dewpoint" (celsius_rows (te_dewpt t)).
Definition ws_rows (w : windshear) : list row :=
  code_row (ws_code w) ++ field "all" (Flag (ws_all_ w)) ++ field "name" (word (ws_name w)).
Definition sea_rows (s : sea_state) : list row :=
  code_row (se_code s) ++ field "state" (word (se_state s))
  ++ at_key "temperature" (celsius_rows (se_temp s)) ++ at_key "height" (metres_rows (se_height s)).
Definition rs_rows (r : runway_state) : list row :=
  code_row (rs_code r) ++ field "name" (word (rs_name r)) ++ field "deposits" (word (rs_deposits r))
  ++ field "contamination" (word (rs_contamination r)) ++ field "deposits_depth" (word (rs_depth r))
  ++ field "surface_friction" (word (rs_friction r)) ++ field "snoclo" (Flag (rs_snoclo r))
  ++ field "clrd" (word (rs_clrd_text r)).
Definition type_rows (t : report_type) : list row := code_row (ty_code t) ++ field "type" (word (ty_type t)).
Definition modifier_rows (m : modifier) : list row := code_row (mo_code m) ++ field "modifier" (word (mo_desc m)).
Definition station_rows (e : env) (s : station) : list row :=
  code_row (st_code s) ++ field "name" (word (st_name s)) ++ field "icao" (word (st_icao s)) ++ field "iata" (word (st_iata s))
  ++ field "synop" (word (st_synop s)) ++ field "latitude" (word (st_latitude s)) ++ field "longitude" (word (st_longitude s))
  ++ field "elevation" (word (st_elevation s)) ++ field "country" (word (st_country e s)).

(** 2024-02-07 12:00:00 *)
Definition moment_text (d : datetime) : str :=
  digits 4 (Z.to_N (dt_year d)) ++ py "-" ++ digits 2 (Z.to_N (dt_month d)) ++ py "-" ++ digits 2 (Z.to_N (dt_day d))
  ++ py " " ++ digits 2 (Z.to_N (dt_hour d)) ++ py ":" ++ digits 2 (Z.to_N (dt_minute d)) ++ py ":00".
Definition moment_row (t : time) : list row := field "datetime" (Word (moment_text (t_dt t))).
Definition time_rows (t : time) : list row := code_row (t_code t) ++ moment_row t.

(** A trend or a change: the moments between which it holds have no rows. *)
Definition forecast_rows (code : option str) (c : common) : list row :=
  code_row code ++ at_key "wind" (wind_rows (c_wind c)) ++ at_key "prevailing_visibility" (prevailing_rows (c_vis c))
  ++ at_key "weathers" (listed weather_rows (gl_list (c_weathers c)))
  ++ at_key "clouds" (listed cloud_rows (gl_list (c_clouds c)))
  ++ field "flight_rules" (word (flight_rules c)).

Definition report_rows (e : env) (raw : str) (sections unparsed : list str) (ty : report_type) (st : station) (t : time)
    (mo : modifier) : list row :=
  field "code" (Word raw) ++ at_key "sections" (texts sections) ++ at_key "unparsed_groups" (texts unparsed)
  ++ at_key "type_" (type_rows ty) ++ at_key "station" (station_rows e st) ++ at_key "time" (time_rows t)
  ++ at_key "modifier" (modifier_rows mo).

(** ** METAR.  The pressure has no row for its code. *)

Definition metar_rows (e : env) (x : metar) : list row :=
  report_rows e (me_raw x) (me_sections x) (me_unparsed x) (me_type x) (me_station x) (me_time x) (me_modifier x)
  ++ at_key "wind" (wind_rows (c_wind (me_common x)))
  ++ at_key "wind_variation" (wvar_rows (me_wvar x))
  ++ at_key "prevailing_visibility" (prevailing_rows (c_vis (me_common x)))
  ++ at_key "minimum_visibility" (vis_rows (me_minvis x))
  ++ at_key "runway_ranges" (numbered rvr_rows (gl_list (me_rvr x)))
  ++ at_key "weathers" (numbered weather_rows (gl_list (c_weathers (me_common x))))
  ++ at_key "clouds" (numbered cloud_rows (gl_list (c_clouds (me_common x))))
  ++ at_key "temperatures" (temps_rows (me_temps x))
  ++ at_key "pressure" (hectopascals_rows (pr_value (me_press x)))
  ++ at_key "recent_weather" (recent_rows (me_recent x))
  ++ at_key "windshears" (numbered ws_rows (gl_list (me_ws x)))
  ++ at_key "sea_state" (sea_rows (me_sea x))
  ++ at_key "runway_state" (rs_rows (me_rwy x))
  ++ field "flight_rules" (word (flight_rules (me_common x)))
  ++ at_key "weather_trends" (numbered (fun p => forecast_rows (cp_code p) (cp_common p)) (gl_list (me_trends x)))
  ++ field "remark" (Word (nth 2 (me_sections x) [])).

(** ** TAF.  The code of a temperature is overwritten by the code of its
    time, which has none. *)

Definition valid_rows (v : valid) : list row :=
  code_row (va_code v) ++ at_key "from_" (time_rows (va_from v)) ++ at_key "until" (time_rows (va_until v)).
Definition missing_rows (m : missing) : list row :=
  modifier_rows (mi_mod m) ++ field "is_missing" (Flag (mi_missing m)).
Definition cancelled_rows (c : cancelled) : list row :=
  code_row (ca_code c) ++ field "is_cancelled" (Flag (ca_cancelled c)).
Definition taf_temp_rows (t : taf_temp) : list row :=
  celsius_rows (tt_value t) ++ field "code" Nothing ++ moment_row (tt_time t).

Definition taf_rows (e : env) (x : taf) : list row :=
  report_rows e (ta_raw x) (ta_sections x) (ta_unparsed x) (ta_type x) (ta_station x) (ta_time x) (ta_modifier x)
  ++ at_key "missing" (missing_rows (ta_missing x))
  ++ at_key "valid" (valid_rows (ta_valid x))
  ++ at_key "cancelled" (cancelled_rows (ta_cancelled x))
  ++ at_key "wind" (wind_rows (c_wind (ta_common x)))
  ++ at_key "prevailing_visibility" (prevailing_rows (c_vis (ta_common x)))
  ++ at_key "weathers" (numbered weather_rows (gl_list (c_weathers (ta_common x))))
  ++ at_key "clouds" (numbered cloud_rows (gl_list (c_clouds (ta_common x))))
  ++ at_key "max_temperatures" (numbered taf_temp_rows (gl_list (ta_max x)))
  ++ at_key "min_temperatures" (numbered taf_temp_rows (gl_list (ta_min x)))
  ++ at_key "changes_forecasted" (numbered (fun p => forecast_rows (cf_code p) (cf_common p)) (gl_list (ta_changes x))).

(** ** The indicator of a trend or change has a dictionary of its own *)

Definition translation_rows (code trans : option str) : list row := code_row code ++ field "translation" (word trans).
(** AT is there only if the trend has one. *)
Definition trend_ind_rows (i : trend_ind) : list row :=
  translation_rows (ti_code i) (ti_trans i)
  ++ at_key "forecast_period" (at_key "init" (time_rows (ti_init i)) ++ at_key "end" (time_rows (ti_end i)))
  ++ at_key "from_" (time_rows (ti_from i)) ++ at_key "until" (time_rows (ti_until i))
  ++ match ti_at i with
     | Some a => match t_code a with
                 | Some (_ :: _) => at_key "at" (time_rows a)
                 | _ => field "at" Nothing
                 end
     | None => field "at" Nothing
     end.
Definition taf_ind_rows (i : taf_ind) : list row :=
  translation_rows (tc_code i) (tc_trans i) ++ at_key "valid" (valid_rows (tc_valid i)).

(** ** What the dictionary settles: all of a report but the times of its
    trends and changes *)

Definition same_forecast (code code' : option str) (c c' : common) : Prop :=
  code = code' /\ c_wind c = c_wind c' /\ c_vis c = c_vis c'
  /\ gl_list (c_weathers c) = gl_list (c_weathers c') /\ gl_list (c_clouds c) = gl_list (c_clouds c').

Definition same_sight (v w : visibility) : Prop := v_code v = v_code w /\ v_vis v = v_vis w /\ v_dir v = v_dir w.
Definition same_shear (v w : windshear) : Prop := ws_code v = ws_code w /\ ws_name v = ws_name w /\ ws_all_ v = ws_all_ w.
Definition same_runway (r s : runway_state) : Prop :=
  rs_code r = rs_code s /\ rs_name r = rs_name s /\ rs_deposits r = rs_deposits s /\ rs_contamination r = rs_contamination s
  /\ rs_depth r = rs_depth s /\ rs_friction r = rs_friction s /\ rs_snoclo r = rs_snoclo s /\ rs_clrd r = rs_clrd s.

Definition same_metar (x y : metar) : Prop :=
  me_raw x = me_raw y /\ me_sections x = me_sections y /\ me_unparsed x = me_unparsed y /\ me_type x = me_type y
  /\ st_code (me_station x) = st_code (me_station y) /\ me_time x = me_time y /\ me_modifier x = me_modifier y
  /\ c_wind (me_common x) = c_wind (me_common y) /\ me_wvar x = me_wvar y /\ c_vis (me_common x) = c_vis (me_common y)
  /\ same_sight (me_minvis x) (me_minvis y) /\ gl_list (me_rvr x) = gl_list (me_rvr y)
  /\ gl_list (c_weathers (me_common x)) = gl_list (c_weathers (me_common y))
  /\ gl_list (c_clouds (me_common x)) = gl_list (c_clouds (me_common y))
  /\ me_temps x = me_temps y /\ pr_value (me_press x) = pr_value (me_press y) /\ me_recent x = me_recent y
  /\ Forall2 same_shear (gl_list (me_ws x)) (gl_list (me_ws y)) /\ me_sea x = me_sea y /\ same_runway (me_rwy x) (me_rwy y)
  /\ Forall2 (fun p q => same_forecast (cp_code p) (cp_code q) (cp_common p) (cp_common q))
       (gl_list (me_trends x)) (gl_list (me_trends y)).

Definition same_temp (t u : taf_temp) : Prop := tt_value t = tt_value u /\ tt_time t = tt_time u.

Definition same_taf (x y : taf) : Prop :=
  ta_raw x = ta_raw y /\ ta_sections x = ta_sections y /\ ta_unparsed x = ta_unparsed y /\ ta_type x = ta_type y
  /\ st_code (ta_station x) = st_code (ta_station y) /\ ta_time x = ta_time y /\ ta_modifier x = ta_modifier y
  /\ ta_missing x = ta_missing y /\ ta_valid x = ta_valid y /\ ta_cancelled x = ta_cancelled y
  /\ c_wind (ta_common x) = c_wind (ta_common y) /\ c_vis (ta_common x) = c_vis (ta_common y)
  /\ gl_list (c_weathers (ta_common x)) = gl_list (c_weathers (ta_common y))
  /\ gl_list (c_clouds (ta_common x)) = gl_list (c_clouds (ta_common y))
  /\ Forall2 same_temp (gl_list (ta_max x)) (gl_list (ta_max y)) /\ Forall2 same_temp (gl_list (ta_min x)) (gl_list (ta_min y))
  /\ Forall2 (fun p q => same_forecast (cf_code p) (cf_code q) (cf_common p) (cf_common q))
       (gl_list (ta_changes x)) (gl_list (ta_changes y)).
