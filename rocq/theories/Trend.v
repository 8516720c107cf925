(** * metar/trend_indicator.py and metar/weather_trend.py *)
From Coq Require Import String Ascii.
From Coq Require Import List NArith ZArith Bool Lia.
From Verif Require Import PyBase PyRegex AeroRegex PyFloat PyTime Utils Base MetarGroups.
Import ListNotations.
Open Scope list_scope.

(** ** MetarTrendIndicator *)

Record trend_ind := mk_ti {
  ti_code : option str;
  ti_trans : option str;
  ti_init : time;
  ti_end : time;
  ti_from : time;
  ti_until : time;
  ti_at : option time
}.

(** __init__, trend_indicator.py:12-21 *)
Definition trend_ind_new (m : option rmatch) (t : datetime) : result trend_ind :=
  ct <- change_indicator_new m ;;
  let init := time_at t in
  e <- dt_add_hours t 2 ;;
  let end_ := time_at e in
  Ok (mk_ti (fst ct) (snd ct) init end_ init end_ None).

(** Truth value of a Time: Group.__len__ (group.py:27-31). *)
Definition time_truthy (t : time) : bool := negb (Nat.eqb (group_len (t_code t)) 0).

(** __str__, trend_indicator.py:23-30 *)
Definition trend_ind_str (i : trend_ind) : str :=
  match ti_at i with
  | Some a =>
      if time_truthy a then translation_str (ti_trans i) ++ py " at " ++ time_str a
      else if truthy (ti_trans i)
           then translation_str (ti_trans i) ++ py " from " ++ time_str (ti_from i)
                ++ py " until " ++ time_str (ti_until i)
           else translation_str (ti_trans i)
  | None =>
      if truthy (ti_trans i)
      then translation_str (ti_trans i) ++ py " from " ++ time_str (ti_from i)
           ++ py " until " ++ time_str (ti_until i)
      else translation_str (ti_trans i)
  end.

(** The time computed by add_period, trend_indicator.py:36-56. *)
Definition period_time (i : trend_ind) (hour minute : Z) : result datetime :=
  middle <- dt_add_hours (t_dt (ti_init i)) 1 ;;
  if (hour =? dt_hour (t_dt (ti_init i)))%Z then
    dt_add_minutes (t_dt (ti_init i)) (minute - dt_minute (t_dt (ti_init i)))
  else if (hour =? dt_hour middle)%Z then
    dt_add_minutes middle (minute - dt_minute middle)
  else
    dt_add_minutes (t_dt (ti_end i)) (minute - dt_minute (t_dt (ti_end i))).

(** add_period, trend_indicator.py:32-63 *)
Definition add_period (m : rmatch) (i : trend_ind) : result trend_ind :=
  match ti_code i with
  | None => Raise TypeError
  | Some c =>
      let code := Some (c ++ py " " ++ m_string m) in
      hour <- int_of_opt (group m "hour") ;;
      minute <- int_of_opt (group m "min") ;;
      t <- period_time i hour minute ;;
      let t := time_at_code (m_string m) t in
      if opt_str_eqb (group m "prefix") (py "FM")
      then Ok (mk_ti code (ti_trans i) (ti_init i) (ti_end i) t (ti_until i) (ti_at i))
      else if opt_str_eqb (group m "prefix") (py "TL")
      then Ok (mk_ti code (ti_trans i) (ti_init i) (ti_end i) (ti_from i) t (ti_at i))
      else Ok (mk_ti code (ti_trans i) (ti_init i) (ti_end i) (ti_from i) (ti_until i) (Some t))
  end.

(** ** ChangePeriod

    [cp_out] are the lines the constructor prints on standard output
    (weather_trend.py:97).  Simplification: lines printed before an exception
    are not kept. *)
Record change_period := mk_cp {
  cp_code : option str;
  cp_time : time;
  cp_common : common;
  cp_ind : trend_ind;
  cp_unparsed : list str;
  cp_out : list str
}.

Definition cp_set_common (c : common) (p : change_period) : change_period :=
  mk_cp (cp_code p) (cp_time p) c (cp_ind p) (cp_unparsed p) (cp_out p).

Definition cp_lift (f : rmatch -> common -> result common) (m : rmatch) (p : change_period)
  : result change_period :=
  c <- f m (cp_common p) ;; Ok (cp_set_common c p).

(** _handle_trend_indicator, weather_trend.py:83-86 *)
Definition handle_trend_indicator (m : rmatch) (p : change_period) : result change_period :=
  i <- trend_ind_new (Some m) (t_dt (cp_time p)) ;;
  Ok (mk_cp (cp_code p) (cp_time p) (add_string (trend_ind_str i) (cp_common p)) i
        (cp_unparsed p) (cp_out p)).

(** _handle_time_period, weather_trend.py:93-99 *)
Definition handle_time_period (m : rmatch) (p : change_period) : result change_period :=
  let old := trend_ind_str (cp_ind p) in
  i <- add_period m (cp_ind p) ;;
  let new := trend_ind_str i in
  let line := match ti_at i with Some a => time_str a | None => py "None" end in
  Ok (mk_cp (cp_code p) (cp_time p)
        (set_string (replace old new (c_string (cp_common p))) (cp_common p)) i
        (cp_unparsed p) (cp_out p ++ [line])).

(** The handlers, weather_trend.py:102-115 *)
Definition trend_handlers : list (handler change_period) :=
  [mk_handler r_CHANGE_INDICATOR handle_trend_indicator;
   mk_handler r_TREND_TIME_PERIOD handle_time_period;
   mk_handler r_TREND_TIME_PERIOD handle_time_period;
   mk_handler r_WIND (cp_lift handle_wind);
   mk_handler r_VISIBILITY (cp_lift handle_prevailing);
   mk_handler r_WEATHER (cp_lift handle_weather);
   mk_handler r_WEATHER (cp_lift handle_weather);
   mk_handler r_WEATHER (cp_lift handle_weather);
   mk_handler r_CLOUD (cp_lift handle_cloud);
   mk_handler r_CLOUD (cp_lift handle_cloud);
   mk_handler r_CLOUD (cp_lift handle_cloud);
   mk_handler r_CLOUD (cp_lift handle_cloud)].

(** ChangePeriod.__init__ and _parse, weather_trend.py:72-81, 101-119, with
    Forecast.__init__ (weather_trend.py:36-47).  [code] is never [None]. *)
Definition change_period_new (code : str) (t : datetime) : result change_period :=
  let gcode := replace (py "_") (py " ") code in
  c <- common_new [] ;;
  i <- trend_ind_new None t ;;
  r <- parse_section trend_handlers (sanitize_visibility gcode)
         (mk_cp (Some gcode) (time_at t) c i [] []) ;;
  let (p, unparsed) := (r : change_period * list str) in
  Ok (mk_cp (cp_code p) (cp_time p) (cp_common p) (cp_ind p) (cp_unparsed p ++ unparsed)
        (cp_out p)).

(** Forecast.__str__, weather_trend.py:49-50 *)
Definition change_period_str (p : change_period) : str := strip (c_string (cp_common p)).
