(** * aeromet_py/reports/metar.py *)
From Coq Require Import String Ascii.
From Coq Require Import List NArith ZArith Bool Lia.
From Verif Require Import PyBase PyRegex AeroRegex PyFloat PyTime Utils Base MetarGroups Trend.
Import ListNotations.
Open Scope list_scope.

Record metar := mk_metar {
  me_raw : str;
  me_sections : list str;
  me_unparsed : list str;
  me_type : report_type;
  me_station : station;
  me_time : time;
  me_modifier : modifier;
  me_common : common;                      (* string buffer, wind, visibility, weathers, clouds *)
  me_wvar : wind_variation;
  me_minvis : visibility;
  me_rvr : grouplist runway_range;
  me_temps : temperatures;
  me_press : pressure;
  me_recent : recent_weather;
  me_ws : grouplist windshear;
  me_sea : sea_state;
  me_rwy : runway_state;
  me_trends : grouplist change_period;
  me_out : list str                        (* lines printed on standard output *)
}.

(** Attribute updates. *)
Definition upd_common (c : common) (x : metar) : metar :=
  mk_metar (me_raw x) (me_sections x) (me_unparsed x) (me_type x) (me_station x) (me_time x)
    (me_modifier x) c (me_wvar x) (me_minvis x) (me_rvr x) (me_temps x) (me_press x)
    (me_recent x) (me_ws x) (me_sea x) (me_rwy x) (me_trends x) (me_out x).
Definition out_string (s : str) (x : metar) : metar :=
  upd_common (add_string s (me_common x)) x.
Definition upd_type v (x : metar) : metar :=
  mk_metar (me_raw x) (me_sections x) (me_unparsed x) v (me_station x) (me_time x)
    (me_modifier x) (me_common x) (me_wvar x) (me_minvis x) (me_rvr x) (me_temps x)
    (me_press x) (me_recent x) (me_ws x) (me_sea x) (me_rwy x) (me_trends x) (me_out x).
Definition upd_station v (x : metar) : metar :=
  mk_metar (me_raw x) (me_sections x) (me_unparsed x) (me_type x) v (me_time x)
    (me_modifier x) (me_common x) (me_wvar x) (me_minvis x) (me_rvr x) (me_temps x)
    (me_press x) (me_recent x) (me_ws x) (me_sea x) (me_rwy x) (me_trends x) (me_out x).
Definition upd_time v (x : metar) : metar :=
  mk_metar (me_raw x) (me_sections x) (me_unparsed x) (me_type x) (me_station x) v
    (me_modifier x) (me_common x) (me_wvar x) (me_minvis x) (me_rvr x) (me_temps x)
    (me_press x) (me_recent x) (me_ws x) (me_sea x) (me_rwy x) (me_trends x) (me_out x).
Definition upd_modifier v (x : metar) : metar :=
  mk_metar (me_raw x) (me_sections x) (me_unparsed x) (me_type x) (me_station x) (me_time x)
    v (me_common x) (me_wvar x) (me_minvis x) (me_rvr x) (me_temps x)
    (me_press x) (me_recent x) (me_ws x) (me_sea x) (me_rwy x) (me_trends x) (me_out x).
Definition upd_wvar v (x : metar) : metar :=
  mk_metar (me_raw x) (me_sections x) (me_unparsed x) (me_type x) (me_station x) (me_time x)
    (me_modifier x) (me_common x) v (me_minvis x) (me_rvr x) (me_temps x)
    (me_press x) (me_recent x) (me_ws x) (me_sea x) (me_rwy x) (me_trends x) (me_out x).
Definition upd_minvis v (x : metar) : metar :=
  mk_metar (me_raw x) (me_sections x) (me_unparsed x) (me_type x) (me_station x) (me_time x)
    (me_modifier x) (me_common x) (me_wvar x) v (me_rvr x) (me_temps x)
    (me_press x) (me_recent x) (me_ws x) (me_sea x) (me_rwy x) (me_trends x) (me_out x).
Definition upd_rvr v (x : metar) : metar :=
  mk_metar (me_raw x) (me_sections x) (me_unparsed x) (me_type x) (me_station x) (me_time x)
    (me_modifier x) (me_common x) (me_wvar x) (me_minvis x) v (me_temps x)
    (me_press x) (me_recent x) (me_ws x) (me_sea x) (me_rwy x) (me_trends x) (me_out x).
Definition upd_temps v (x : metar) : metar :=
  mk_metar (me_raw x) (me_sections x) (me_unparsed x) (me_type x) (me_station x) (me_time x)
    (me_modifier x) (me_common x) (me_wvar x) (me_minvis x) (me_rvr x) v
    (me_press x) (me_recent x) (me_ws x) (me_sea x) (me_rwy x) (me_trends x) (me_out x).
Definition upd_press v (x : metar) : metar :=
  mk_metar (me_raw x) (me_sections x) (me_unparsed x) (me_type x) (me_station x) (me_time x)
    (me_modifier x) (me_common x) (me_wvar x) (me_minvis x) (me_rvr x) (me_temps x)
    v (me_recent x) (me_ws x) (me_sea x) (me_rwy x) (me_trends x) (me_out x).
Definition upd_recent v (x : metar) : metar :=
  mk_metar (me_raw x) (me_sections x) (me_unparsed x) (me_type x) (me_station x) (me_time x)
    (me_modifier x) (me_common x) (me_wvar x) (me_minvis x) (me_rvr x) (me_temps x)
    (me_press x) v (me_ws x) (me_sea x) (me_rwy x) (me_trends x) (me_out x).
Definition upd_ws v (x : metar) : metar :=
  mk_metar (me_raw x) (me_sections x) (me_unparsed x) (me_type x) (me_station x) (me_time x)
    (me_modifier x) (me_common x) (me_wvar x) (me_minvis x) (me_rvr x) (me_temps x)
    (me_press x) (me_recent x) v (me_sea x) (me_rwy x) (me_trends x) (me_out x).
Definition upd_sea v (x : metar) : metar :=
  mk_metar (me_raw x) (me_sections x) (me_unparsed x) (me_type x) (me_station x) (me_time x)
    (me_modifier x) (me_common x) (me_wvar x) (me_minvis x) (me_rvr x) (me_temps x)
    (me_press x) (me_recent x) (me_ws x) v (me_rwy x) (me_trends x) (me_out x).
Definition upd_rwy v (x : metar) : metar :=
  mk_metar (me_raw x) (me_sections x) (me_unparsed x) (me_type x) (me_station x) (me_time x)
    (me_modifier x) (me_common x) (me_wvar x) (me_minvis x) (me_rvr x) (me_temps x)
    (me_press x) (me_recent x) (me_ws x) (me_sea x) v (me_trends x) (me_out x).
Definition upd_trends v (x : metar) : metar :=
  mk_metar (me_raw x) (me_sections x) (me_unparsed x) (me_type x) (me_station x) (me_time x)
    (me_modifier x) (me_common x) (me_wvar x) (me_minvis x) (me_rvr x) (me_temps x)
    (me_press x) (me_recent x) (me_ws x) (me_sea x) (me_rwy x) v (me_out x).
Definition upd_out v (x : metar) : metar :=
  mk_metar (me_raw x) (me_sections x) (me_unparsed x) (me_type x) (me_station x) (me_time x)
    (me_modifier x) (me_common x) (me_wvar x) (me_minvis x) (me_rvr x) (me_temps x)
    (me_press x) (me_recent x) (me_ws x) (me_sea x) (me_rwy x) (me_trends x) v.
Definition upd_unparsed v (x : metar) : metar :=
  mk_metar (me_raw x) (me_sections x) v (me_type x) (me_station x) (me_time x)
    (me_modifier x) (me_common x) (me_wvar x) (me_minvis x) (me_rvr x) (me_temps x)
    (me_press x) (me_recent x) (me_ws x) (me_sea x) (me_rwy x) (me_trends x) (me_out x).

(** ** Sections: _handle_sections, metar.py:265-285 *)

Definition is_trend_section (s : str) : bool :=
  starts_with (py "TEMPO") s || starts_with (py "BECMG") s || starts_with (py "NOSIG") s.

(** The loop metar.py:273-283 over (body, trend, remark). *)
Fixpoint sort_sections (l : list str) (body trend remark : str) : str * str * str :=
  match l with
  | [] => (body, trend, remark)
  | s :: l' =>
      if is_trend_section s then sort_sections l' body (trend ++ s ++ py " ") remark
      else if starts_with (py "RMK") s then sort_sections l' body trend s
      else sort_sections l' s trend remark
  end.

Definition metar_sections (raw : str) : list str :=
  let '(body, trend, remark) :=
    sort_sections (split_sentence raw [py "NOSIG"; py "TEMPO"; py "BECMG"; py "RMK"]
                                  None SpLeft) [] [] [] in
  [body; strip trend; remark].

(** ** Handlers *)

Definition lift (f : rmatch -> common -> result common) (m : rmatch) (x : metar)
  : result metar :=
  c <- f m (me_common x) ;; Ok (upd_common c x).

(** base/report.py:42-45 *)
Definition handle_type (m : rmatch) (x : metar) : result metar :=
  let t := type_new (m_string m) in
  Ok (out_string (type_str t) (upd_type t x)).

(** base/report.py:52-55 *)
Definition handle_station (e : env) (m : rmatch) (x : metar) : result metar :=
  let s := station_new e (Some (m_string m)) in
  Ok (out_string (station_str e s) (upd_station s x)).

(** metar.py:87-90 *)
Definition handle_time (e : env) (year month : option Z) (m : rmatch) (x : metar)
  : result metar :=
  t <- time_from_metar e (Some m) year month ;;
  Ok (out_string (time_str t) (upd_time t x)).

(** base/modifier.py:52-55 *)
Definition handle_modifier (m : rmatch) (x : metar) : result metar :=
  let v := modifier_new (Some (m_string m)) in
  Ok (out_string (modifier_str v) (upd_modifier v x)).

(** metar.py:92-95 *)
Definition handle_wind_variation (m : rmatch) (x : metar) : result metar :=
  v <- wind_variation_new (Some m) ;;
  Ok (out_string (wind_variation_str v) (upd_wvar v x)).

(** metar.py:102-105 *)
Definition handle_minimum_visibility (m : rmatch) (x : metar) : result metar :=
  v <- minimum_visibility_new (Some m) ;;
  Ok (out_string (visibility_dir_str v) (upd_minvis v x)).

(** metar.py:112-116 *)
Definition handle_runway_range (m : rmatch) (x : metar) : result metar :=
  r <- runway_range_new (Some m) ;;
  l <- gl_add r (me_rvr x) ;;
  Ok (out_string (runway_range_str r) (upd_rvr l x)).

(** metar.py:123-126 *)
Definition handle_temperatures (m : rmatch) (x : metar) : result metar :=
  v <- temperatures_new (Some m) ;;
  Ok (out_string (temperatures_str v) (upd_temps v x)).

(** metar.py:133-136 *)
Definition handle_pressure (m : rmatch) (x : metar) : result metar :=
  v <- metar_pressure_new (Some m) ;;
  Ok (out_string (pressure_str (pr_value v)) (upd_press v x)).

(** metar.py:143-146 *)
Definition handle_recent_weather (m : rmatch) (x : metar) : result metar :=
  let v := recent_weather_new (Some m) in
  Ok (out_string (recent_weather_str v) (upd_recent v x)).

(** metar.py:153-157 *)
Definition handle_windshear (m : rmatch) (x : metar) : result metar :=
  let w := windshear_new (Some m) in
  l <- gl_add w (me_ws x) ;;
  Ok (out_string (windshear_str w) (upd_ws l x)).

(** metar.py:164-167 *)
Definition handle_sea_state (m : rmatch) (x : metar) : result metar :=
  v <- sea_state_new (Some m) ;;
  Ok (out_string (sea_state_str v) (upd_sea v x)).

(** metar.py:174-177 *)
Definition handle_runway_state (m : rmatch) (x : metar) : result metar :=
  let v := runway_state_new (Some m) in
  Ok (out_string (runway_state_str v) (upd_rwy v x)).

(** metar.py:184-188 *)
Definition handle_weather_trend (code : str) (x : metar) : result metar :=
  p <- change_period_new code (t_dt (me_time x)) ;;
  l <- gl_add p (me_trends x) ;;
  Ok (out_string (change_period_str p) (upd_out (me_out x ++ cp_out p) (upd_trends l x))).

(** The handlers of the body, metar.py:198-228 *)
Definition metar_handlers (e : env) (year month : option Z) : list (handler metar) :=
  [mk_handler r_TYPE handle_type;
   mk_handler r_STATION (handle_station e);
   mk_handler r_TIME (handle_time e year month);
   mk_handler r_MODIFIER handle_modifier;
   mk_handler r_WIND (lift handle_wind);
   mk_handler r_WIND_VARIATION handle_wind_variation;
   mk_handler r_VISIBILITY (lift handle_prevailing);
   mk_handler r_MINIMUM_VISIBILITY handle_minimum_visibility;
   mk_handler r_RUNWAY_RANGE handle_runway_range;
   mk_handler r_RUNWAY_RANGE handle_runway_range;
   mk_handler r_RUNWAY_RANGE handle_runway_range;
   mk_handler r_WEATHER (lift handle_weather);
   mk_handler r_WEATHER (lift handle_weather);
   mk_handler r_WEATHER (lift handle_weather);
   mk_handler r_CLOUD (lift handle_cloud);
   mk_handler r_CLOUD (lift handle_cloud);
   mk_handler r_CLOUD (lift handle_cloud);
   mk_handler r_CLOUD (lift handle_cloud);
   mk_handler r_TEMPERATURES handle_temperatures;
   mk_handler r_PRESSURE handle_pressure;
   mk_handler r_PRESSURE handle_pressure;
   mk_handler r_RECENT_WEATHER handle_recent_weather;
   mk_handler r_WINDSHEAR handle_windshear;
   mk_handler r_WINDSHEAR handle_windshear;
   mk_handler r_WINDSHEAR handle_windshear;
   mk_handler r_SEA_STATE handle_sea_state;
   mk_handler r_RUNWAY_STATE handle_runway_state].

(** body, trend, remark: metar.py:72-85 *)
Definition section (i : nat) (l : list str) : str := nth i l [].

(** _parse_body, metar.py:195-234 *)
Definition sanitize_body (body : str) : str := sanitize_windshear (sanitize_visibility body).
Definition parse_body (e : env) (year month : option Z) (x : metar) : result metar :=
  r <- parse_section (metar_handlers e year month)
         (sanitize_body (section 0 (me_sections x))) x ;;
  let (x', unparsed) := (r : metar * list str) in
  Ok (upd_unparsed (me_unparsed x' ++ unparsed) x').

(** The loop metar.py:250-252 *)
Fixpoint handle_trends (l : list str) (x : metar) : result metar :=
  match l with
  | [] => Ok x
  | [] :: l' => handle_trends l' x
  | t :: l' => x' <- handle_weather_trend t x ;; handle_trends l' x'
  end.

Definition trend_codes (trend : str) : list str :=
  split_sentence trend [py "TEMPO"; py "BECMG"] (Some 1) SpBoth.

(** _parse_weather_trend, metar.py:236-263 *)
Definition parse_weather_trend (truncate : bool) (x : metar) : result metar :=
  x <- handle_trends (trend_codes (section 1 (me_sections x))) x ;;
  let (l, g) := gl_collect (me_trends x) in
  let x := upd_unparsed (me_unparsed x ++ flat_map cp_unparsed l) (upd_trends g x) in
  match me_unparsed x with
  | _ :: _ => if truncate then Raise ParserError else Ok x
  | [] => Ok x
  end.

(** The attributes set before parsing: Report.__init__ (base/report.py:16-35)
    and Metar.__init__, metar.py:38-66. *)
Definition metar_init (e : env) (raw : str) (year month : option Z) : result metar :=
  t0 <- time_new e None None None None None None ;;        (* TimeMixin *)
  c <- common_new [] ;;
  t <- time_from_metar e None year month ;;
  wv <- wind_variation_new None ;;
  mv <- minimum_visibility_new None ;;
  te <- temperatures_new None ;;
  pr <- metar_pressure_new None ;;
  se <- sea_state_new None ;;
  Ok (mk_metar raw (metar_sections raw) [] (type_new (py "METAR")) (station_new e None) t
        (modifier_new None) c wv mv (gl_new 3) te pr (recent_weather_new None) (gl_new 3)
        se (runway_state_new None) (gl_new 2) []).

(** Metar(code, year, month, truncate), metar.py:31-70 *)
Definition metar_parse (e : env) (code : str) (year month : option Z) (truncate : bool)
  : result metar :=
  raw <- report_raw_code code ;;
  x <- metar_init e raw year month ;;
  x <- parse_body e year month x ;;
  parse_weather_trend truncate x.

(** str(metar): base/string_attribute.py:18-19 *)
Definition metar_str (x : metar) : str := strip (c_string (me_common x)).
