(** * Absent groups and dictionary forms: specification *)
From Coq Require Import String Ascii.
From Coq Require Import List NArith ZArith Bool Lia.
From Verif Require Import PyBase PyFloat PyTime Base MetarGroups Trend Metar Taf AsDict.
Import ListNotations.
Local Open Scope string_scope.
Local Open Scope nat_scope.
Local Open Scope list_scope.

(** ** A group that was not reported

    Every accessor of the class, in the order of the source. *)

(** The accessors of Distance, Pressure, Temperature and Speed. *)
Definition no_distance (v : option float) : Prop :=
  v = None /\ in_kilometers v = None /\ in_sea_miles v = None /\ in_feet v = None /\ distance_str v = [].
Definition no_pressure (v : option float) : Prop :=
  v = None /\ in_inHg v = None /\ in_mbar v = None /\ in_bar v = None /\ in_atm v = None /\ pressure_str v = [].
Definition no_temperature (v : option float) : Prop :=
  v = None /\ in_kelvin v = None /\ in_fahrenheit v = None /\ in_rankine v = None /\ temperature_str v = [].
Definition no_speed (v : option float) : Prop :=
  v = None /\ in_mps v = None /\ in_kph v = None /\ in_miph v = None /\ speed_str v = [].
Definition no_dir (d : direction) : Prop :=
  dir_value d = None /\ dir_variable d = false /\ cardinal d = None /\ in_radians d = None /\ in_gradians d = None
  /\ direction_str d = [].

(** No code, length 0, empty text. *)
Definition blank (code : option str) (text : str) : Prop := code = None /\ group_len code = 0 /\ text = [].

Definition wind_absent (w : metar_wind) : Prop :=
  blank (w_code w) (metar_wind_str w) /\ no_dir (w_dir w) /\ no_speed (w_speed w) /\ no_speed (w_gust w).
Definition wvar_absent (w : wind_variation) : Prop :=
  blank (wv_code w) (wind_variation_str w) /\ no_dir (wv_from w) /\ no_dir (wv_to w).
Definition vis_absent (v : visibility) : Prop :=
  blank (v_code v) (prevailing_str v) /\ visibility_dir_str v = [] /\ no_distance (v_vis v) /\ no_dir (v_dir v)
  /\ v_cavok v = false.
Definition rvr_absent (r : runway_range) : Prop :=
  blank (rr_code r) (runway_range_str r) /\ rr_name r = None /\ rr_rvr_low r = None /\ rr_rvr_high r = None
  /\ rr_trend r = None /\ no_distance (rr_low r) /\ no_distance (rr_high r).
Definition weather_absent (w : weather) : Prop :=
  blank (we_code w) (weather_str w) /\ we_int w = None /\ we_desc w = None /\ we_prec w = None /\ we_obsc w = None
  /\ we_other w = None.
Definition temps_absent (t : temperatures) : Prop :=
  blank (te_code t) (temperatures_str t) /\ no_temperature (te_temp t) /\ no_temperature (te_dewpt t).
Definition press_absent (p : pressure) : Prop := blank (pr_code p) (pressure_str (pr_value p)) /\ no_pressure (pr_value p).
Definition recent_absent (w : recent_weather) : Prop :=
  blank (rw_code w) (recent_weather_str w) /\ rw_desc w = None /\ rw_prec w = None /\ rw_obsc w = None /\ rw_other w = None.
Definition ws_absent (w : windshear) : Prop := blank (ws_code w) (windshear_str w) /\ ws_all_ w = false /\ ws_name w = None.
Definition sea_absent (s : sea_state) : Prop :=
  blank (se_code s) (sea_state_str s) /\ se_state s = None /\ no_temperature (se_temp s) /\ no_distance (se_height s).
Definition rs_absent (r : runway_state) : Prop :=
  blank (rs_code r) (runway_state_str r) /\ rs_name r = None /\ rs_deposits r = None /\ rs_contamination r = None
  /\ rs_depth r = None /\ rs_friction r = None /\ rs_snoclo r = false /\ rs_clrd_text r = None.
Definition modifier_absent (m : modifier) : Prop := blank (mo_code m) (modifier_str m) /\ mo_desc m = None.
Definition missing_absent (m : missing) : Prop := modifier_absent (mi_mod m) /\ mi_missing m = false.
Definition cancelled_absent (c : cancelled) : Prop := blank (ca_code c) (cancelled_str c) /\ ca_cancelled c = false.
(** All but the text. *)
Definition station_absent (e : env) (s : station) : Prop :=
  st_code s = None /\ group_len (st_code s) = 0 /\ st_name s = None /\ st_icao s = None /\ st_iata s = None
  /\ st_synop s = None /\ st_latitude s = None /\ st_longitude s = None /\ st_elevation s = None /\ st_country e s = None.
(** All but the periods, which default to the report's. *)
Definition trend_ind_absent (i : trend_ind) : Prop :=
  blank (ti_code i) (trend_ind_str i) /\ ti_trans i = None /\ ti_at i = None.
Definition taf_ind_absent (i : taf_ind) : Prop :=
  blank (tc_code i) (translation_str (tc_trans i)) /\ tc_trans i = None.

(** ** Reports

    A group of the report without code is empty. *)

Definition kept {A} (code : A -> option str) (absent : A -> Prop) (v : A) : Prop := code v = None -> absent v.
Definition common_kept (c : common) : Prop := kept w_code wind_absent (c_wind c) /\ kept v_code vis_absent (c_vis c).
Definition metar_kept (e : env) (x : metar) : Prop :=
  common_kept (me_common x) /\ kept st_code (station_absent e) (me_station x) /\ kept mo_code modifier_absent (me_modifier x)
  /\ kept wv_code wvar_absent (me_wvar x) /\ kept v_code vis_absent (me_minvis x) /\ kept te_code temps_absent (me_temps x)
  /\ kept pr_code press_absent (me_press x) /\ kept rw_code recent_absent (me_recent x) /\ kept se_code sea_absent (me_sea x)
  /\ kept rs_code rs_absent (me_rwy x).
Definition trend_kept (p : change_period) : Prop :=
  common_kept (cp_common p) /\ kept ti_code trend_ind_absent (cp_ind p).
Definition trends_kept (x : metar) : Prop := Forall trend_kept (gl_list (me_trends x)).
Definition change_kept (p : change_fc) : Prop :=
  common_kept (cf_common p) /\ kept tc_code taf_ind_absent (cf_ind p).
Definition taf_kept (e : env) (x : taf) : Prop :=
  common_kept (ta_common x) /\ kept st_code (station_absent e) (ta_station x) /\ kept mo_code modifier_absent (ta_modifier x)
  /\ kept (fun m => mo_code (mi_mod m)) missing_absent (ta_missing x) /\ kept ca_code cancelled_absent (ta_cancelled x)
  /\ Forall change_kept (gl_list (ta_changes x)).

(** ** Dictionaries *)

(** [d] has exactly one entry for the key, with this value. *)
Definition entry (d : dict) (k : str) (v : pyval) : Prop :=
  exists a b, d = a ++ (k, v) :: b /\ ~ In k (map fst a) /\ ~ In k (map fst b).

(** The code under the key [code]. *)
Definition carries (d : dict) (code : option str) : Prop :=
  entry d (py "code") (match code with Some c => VStr c | None => VNone end).

(** The dictionary of a report: one entry for each group. *)
Definition shown (d : dict) (k : string) (code : option str) : Prop := exists df, entry d (py k) (VDict df) /\ carries df code.
Definition shown_list {A} (f : A -> dict) (d : dict) (k : string) (l : list A) (code : A -> option str) : Prop :=
  exists dl, entry d (py k) (VDict dl) /\ map snd dl = map (fun a => VDict (f a)) l /\ forall a, In a l -> carries (f a) (code a).
