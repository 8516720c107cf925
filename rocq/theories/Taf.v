(** * aeromet_py/reports/models/taf and aeromet_py/reports/taf.py *)
From Coq Require Import String Ascii.
From Coq Require Import List NArith ZArith Bool Lia.
From Verif Require Import PyBase PyRegex AeroRegex PyFloat PyTime Utils Base MetarGroups Trend.
Import ListNotations.
Open Scope list_scope.

(** ** taf/valid.py *)

Record valid := mk_valid {
  va_code : option str;
  va_from : time;
  va_until : time
}.

(** Valid.__init__, valid.py:14-17 *)
Definition valid_new (code : option str) (from_ until_ : time) : valid :=
  mk_valid (group_code code) from_ until_.

(** Valid.from_taf, valid.py:19-67 *)
Definition valid_from_taf (m : option rmatch) (t : datetime) : result valid :=
  t <- dt_replace_minute t 0 ;;
  match m with
  | None =>
      t <- dt_add_hours t 1 ;;
      u <- dt_add_hours t 24 ;;
      Ok (valid_new None (time_at t) (time_at u))
  | Some m =>
      fmday <- int_of_opt (group m "fmday") ;;
      fmhour <- int_of_opt (group m "fmhour") ;;
      tlday <- int_of_opt (group m "tlday") ;;
      tlhour <- int_of_opt (group m "tlhour") ;;
      from_ <- (if (fmday =? dt_day t)%Z then Ok t else dt_add_days t 1) ;;
      until_ <- (if (tlday =? dt_day t)%Z then Ok t else dt_add_days t 1) ;;
      until_ <- (if (tlhour =? 24)%Z then dt_add_days until_ 1 else Ok until_) ;;
      let tlhour := if (tlhour =? 24)%Z then 0%Z else tlhour in
      f <- dt_replace_hour from_ fmhour ;;
      u <- dt_replace_hour until_ tlhour ;;
      Ok (valid_new (Some (m_string m)) (time_at f) (time_at u))
  end.

(** valid.py:69-70 *)
Definition valid_str (v : valid) : str :=
  py "from " ++ time_str (va_from v) ++ py " until " ++ time_str (va_until v).

(** duration in minutes, valid.py:82-85 *)
Definition va_duration (v : valid) : Z := dt_diff (t_dt (va_until v)) (t_dt (va_from v)).

(** ** taf/missing.py, taf/cancelled.py *)

Record missing := mk_missing { mi_mod : modifier; mi_missing : bool }.

(** missing.py:9-15 *)
Definition missing_new (code : option str) : missing :=
  mk_missing (modifier_new code) (is_some code).

Record cancelled := mk_cancelled { ca_code : option str; ca_cancelled : bool }.

(** cancelled.py:11-18 *)
Definition cancelled_new (m : option rmatch) : cancelled :=
  match m with
  | None => mk_cancelled (group_code None) false
  | Some m => mk_cancelled (group_code (Some (m_string m))) true
  end.
(** cancelled.py:20-24 *)
Definition cancelled_str (c : cancelled) : str :=
  if ca_cancelled c then py "cancelled" else [].

(** ** taf/temperature.py *)

Record taf_temp := mk_tt {
  tt_code : option str;
  tt_value : option float;
  tt_time : time
}.

(** TafTemperature.__init__ with a match, temperature.py:12-39 (the code
    never builds one without a match). *)
Definition taf_temp_new (m : rmatch) (t : datetime) : result taf_temp :=
  t <- dt_replace_minute t 0 ;;
  v <- (if truthy (group m "sign")
        then match group m "temp" with
             | Some s => temperature_new (Some (py "-" ++ s))
             | None => Raise TypeError      (* unreachable: the group always takes part *)
             end
        else temperature_new (group m "temp")) ;;
  day <- int_of_opt (group m "day") ;;
  hour <- int_of_opt (group m "hour") ;;
  t <- dt_replace_hour t hour ;;
  t <- (if (day =? dt_day t)%Z then Ok t else dt_add_days t 1) ;;
  Ok (mk_tt (group_code (Some (m_string m))) v (time_at t)).

(** temperature.py:41-45 *)
Definition taf_temp_str (t : taf_temp) : str :=
  match tt_value t with
  | None => temperature_str None
  | Some _ => temperature_str (tt_value t) ++ py " at " ++ time_str (tt_time t)
  end.

(** ** taf/change_indicator.py *)

Record taf_ind := mk_tci {
  tc_code : option str;
  tc_trans : option str;
  tc_valid : valid
}.

(** The loop change_indicator.py:27-29.  Every day number from 1 to 31 comes
    again within 62 days, so the fuel never runs out
    (see [ProofTime.roll_to_day_enough]). *)
Fixpoint roll_to_day (fuel : nat) (day : Z) (t : datetime) : result datetime :=
  if (day =? dt_day t)%Z then Ok t
  else match fuel with
       | O => Raise OverflowError
       | S f => t' <- dt_add_days t 1 ;; roll_to_day f day t'
       end.

(** TafChangeIndicator.__init__, change_indicator.py:13-36 *)
Definition taf_ind_new (m : option rmatch) (v : valid) : result taf_ind :=
  match m with
  | None => Ok (mk_tci (group_code None) None v)
  | Some m =>
      if starts_with (py "FM") (m_string m) then
        day <- int_of_opt (group m "day") ;;
        hour <- int_of_opt (group m "hour") ;;
        minute <- int_of_opt (group m "minute") ;;
        t <- roll_to_day 62 day (t_dt (va_from v)) ;;
        t <- dt_replace_hour t hour ;;
        t <- dt_replace_minute t minute ;;
        let v' := valid_new None (time_at t) (va_until v) in
        Ok (mk_tci (Some (m_string m)) (Some (valid_str v')) v')
      else
        ct <- change_indicator_new (Some m) ;;
        Ok (mk_tci (fst ct) (snd ct) v)
  end.

(** set_valid_period, change_indicator.py:38-51 *)
Definition set_valid_period (m : rmatch) (init : time) (i : taf_ind) : result taf_ind :=
  v <- valid_from_taf (Some m) (t_dt init) ;;
  match tc_code i with
  | None => Raise AttributeError
  | Some c =>
      if starts_with (py "FM") c then Ok (mk_tci (Some c) (Some (valid_str v)) v)
      else Ok (mk_tci (Some (c ++ py " " ++ fmt_opt (va_code v)))
                      (Some (fmt_opt (tc_trans i) ++ py " " ++ valid_str v)) v)
  end.

(** reset_until_period, change_indicator.py:53-65 *)
Definition reset_until_period (until : time) (i : taf_ind) : result taf_ind :=
  u <- dt_add_hours (t_dt until) (-1) ;;
  match tc_code i with
  | None => Raise AttributeError
  | Some c =>
      if starts_with (py "FM") c then
        let v := valid_new None (va_from (tc_valid i)) (time_at u) in
        Ok (mk_tci (Some c) (Some (valid_str v)) v)
      else Ok i
  end.

(** ** taf/change_forecast.py *)

(** ChangeForecasted.  Its __str__ (change_forecast.py:32-36) overwrites the
    string buffer, which nothing else reads; the buffer kept in [cf_common] is
    the one before the first call of __str__. *)
Record change_fc := mk_cf {
  cf_code : option str;
  cf_valid : valid;
  cf_common : common;
  cf_ind : taf_ind;
  cf_unparsed : list str
}.

Definition cf_lift (f : rmatch -> common -> result common) (m : rmatch) (p : change_fc)
  : result change_fc :=
  c <- f m (cf_common p) ;; Ok (mk_cf (cf_code p) (cf_valid p) c (cf_ind p) (cf_unparsed p)).

Definition cf_set_ind (i : taf_ind) (p : change_fc) : change_fc :=
  mk_cf (cf_code p) (cf_valid p) (cf_common p) i (cf_unparsed p).

(** change_forecast.py:38-39 *)
Definition handle_change_indicator (m : rmatch) (p : change_fc) : result change_fc :=
  i <- taf_ind_new (Some m) (cf_valid p) ;; Ok (cf_set_ind i p).

(** change_forecast.py:46-47 *)
Definition handle_change_valid (m : rmatch) (p : change_fc) : result change_fc :=
  i <- set_valid_period m (va_from (cf_valid p)) (cf_ind p) ;; Ok (cf_set_ind i p).

(** change_forecast.py:50-62 *)
Definition change_handlers : list (handler change_fc) :=
  [mk_handler r_T_CHANGE_INDICATOR handle_change_indicator;
   mk_handler r_T_VALID handle_change_valid;
   mk_handler r_T_WIND (cf_lift handle_wind);
   mk_handler r_VISIBILITY (cf_lift handle_prevailing);
   mk_handler r_WEATHER (cf_lift handle_weather);
   mk_handler r_WEATHER (cf_lift handle_weather);
   mk_handler r_WEATHER (cf_lift handle_weather);
   mk_handler r_CLOUD (cf_lift handle_cloud);
   mk_handler r_CLOUD (cf_lift handle_cloud);
   mk_handler r_CLOUD (cf_lift handle_cloud);
   mk_handler r_CLOUD (cf_lift handle_cloud)].

(** ChangeForecasted.__init__ and _parse, change_forecast.py:20-30, 49-67 *)
Definition change_fc_new (code : str) (v : valid) : result change_fc :=
  let gcode := replace (py "_") (py " ") code in
  c <- common_new [] ;;
  i <- taf_ind_new None v ;;
  r <- parse_section change_handlers
         (sanitize_visibility (sanitize_change_indicator gcode))
         (mk_cf (Some gcode) v c i []) ;;
  let (p, unparsed) := (r : change_fc * list str) in
  Ok (mk_cf (cf_code p) (cf_valid p) (cf_common p) (cf_ind p) (cf_unparsed p ++ unparsed)).

(** ChangeForecasted.__str__, change_forecast.py:32-36 *)
Definition change_fc_str (p : change_fc) : str :=
  concat_string [] (translation_str (tc_trans (cf_ind p))).

(** TafChangesForecasted.add, change_forecast.py:79-109.  The while loop pops
    changes from the end; [rl] is the list in reverse order and [temp] are
    the popped changes in the order they go back. *)
Fixpoint pop_changes (until : time) (rl temp : list change_fc)
  : result (list change_fc * list change_fc) :=
  match rl with
  | [] => Ok ([], temp)                               (* IndexError: break *)
  | last :: rl' =>
      match tc_code (cf_ind last) with
      | None => Raise AttributeError
      | Some c =>
          if starts_with (py "PROB") c || starts_with (py "TEMPO") c
          then pop_changes until rl' (last :: temp)
          else if starts_with (py "FM") c then
            i <- reset_until_period until (cf_ind last) ;;
            Ok (rl', cf_set_ind i last :: temp)
          else Ok (rl', last :: temp)
      end
  end.

Fixpoint gl_add_all {A} (l : list A) (g : grouplist A) : result (grouplist A) :=
  match l with
  | [] => Ok g
  | x :: l' => g' <- gl_add x g ;; gl_add_all l' g'
  end.

Definition changes_add (new : change_fc) (g : grouplist change_fc)
  : result (grouplist change_fc) :=
  let starts p := match cf_code new with Some c => starts_with p c | None => false end in
  if Nat.ltb 0 (length (gl_list g)) && (starts (py "FM") || starts (py "BECMG")) then
    r <- pop_changes (va_from (tc_valid (cf_ind new))) (rev (gl_list g)) [] ;;
    let (rl, temp) := (r : list change_fc * list change_fc) in
    g' <- gl_add_all temp (mk_gl (gl_n g) (gl_max g) (rev rl)) ;;
    gl_add new g'
  else gl_add new g.

(** ** The report *)

Record taf := mk_taf {
  ta_raw : str;
  ta_body : str;
  ta_codes : list str;
  ta_sections : list str;
  ta_unparsed : list str;
  ta_type : report_type;
  ta_station : station;
  ta_time : time;
  ta_modifier : modifier;
  ta_common : common;
  ta_valid : valid;
  ta_missing : missing;
  ta_cancelled : cancelled;
  ta_max : grouplist taf_temp;
  ta_min : grouplist taf_temp;
  ta_changes : grouplist change_fc
}.

Definition tupd_common v (x : taf) : taf :=
  mk_taf (ta_raw x) (ta_body x) (ta_codes x) (ta_sections x) (ta_unparsed x) (ta_type x)
    (ta_station x) (ta_time x) (ta_modifier x) v (ta_valid x) (ta_missing x)
    (ta_cancelled x) (ta_max x) (ta_min x) (ta_changes x).
Definition tout_string (s : str) (x : taf) : taf := tupd_common (add_string s (ta_common x)) x.
Definition tupd_unparsed v (x : taf) : taf :=
  mk_taf (ta_raw x) (ta_body x) (ta_codes x) (ta_sections x) v (ta_type x)
    (ta_station x) (ta_time x) (ta_modifier x) (ta_common x) (ta_valid x) (ta_missing x)
    (ta_cancelled x) (ta_max x) (ta_min x) (ta_changes x).
Definition tupd_type v (x : taf) : taf :=
  mk_taf (ta_raw x) (ta_body x) (ta_codes x) (ta_sections x) (ta_unparsed x) v
    (ta_station x) (ta_time x) (ta_modifier x) (ta_common x) (ta_valid x) (ta_missing x)
    (ta_cancelled x) (ta_max x) (ta_min x) (ta_changes x).
Definition tupd_station v (x : taf) : taf :=
  mk_taf (ta_raw x) (ta_body x) (ta_codes x) (ta_sections x) (ta_unparsed x) (ta_type x)
    v (ta_time x) (ta_modifier x) (ta_common x) (ta_valid x) (ta_missing x)
    (ta_cancelled x) (ta_max x) (ta_min x) (ta_changes x).
Definition tupd_time v (x : taf) : taf :=
  mk_taf (ta_raw x) (ta_body x) (ta_codes x) (ta_sections x) (ta_unparsed x) (ta_type x)
    (ta_station x) v (ta_modifier x) (ta_common x) (ta_valid x) (ta_missing x)
    (ta_cancelled x) (ta_max x) (ta_min x) (ta_changes x).
Definition tupd_modifier v (x : taf) : taf :=
  mk_taf (ta_raw x) (ta_body x) (ta_codes x) (ta_sections x) (ta_unparsed x) (ta_type x)
    (ta_station x) (ta_time x) v (ta_common x) (ta_valid x) (ta_missing x)
    (ta_cancelled x) (ta_max x) (ta_min x) (ta_changes x).
Definition tupd_valid v (x : taf) : taf :=
  mk_taf (ta_raw x) (ta_body x) (ta_codes x) (ta_sections x) (ta_unparsed x) (ta_type x)
    (ta_station x) (ta_time x) (ta_modifier x) (ta_common x) v (ta_missing x)
    (ta_cancelled x) (ta_max x) (ta_min x) (ta_changes x).
Definition tupd_missing v (x : taf) : taf :=
  mk_taf (ta_raw x) (ta_body x) (ta_codes x) (ta_sections x) (ta_unparsed x) (ta_type x)
    (ta_station x) (ta_time x) (ta_modifier x) (ta_common x) (ta_valid x) v
    (ta_cancelled x) (ta_max x) (ta_min x) (ta_changes x).
Definition tupd_cancelled v (x : taf) : taf :=
  mk_taf (ta_raw x) (ta_body x) (ta_codes x) (ta_sections x) (ta_unparsed x) (ta_type x)
    (ta_station x) (ta_time x) (ta_modifier x) (ta_common x) (ta_valid x) (ta_missing x)
    v (ta_max x) (ta_min x) (ta_changes x).
Definition tupd_max v (x : taf) : taf :=
  mk_taf (ta_raw x) (ta_body x) (ta_codes x) (ta_sections x) (ta_unparsed x) (ta_type x)
    (ta_station x) (ta_time x) (ta_modifier x) (ta_common x) (ta_valid x) (ta_missing x)
    (ta_cancelled x) v (ta_min x) (ta_changes x).
Definition tupd_min v (x : taf) : taf :=
  mk_taf (ta_raw x) (ta_body x) (ta_codes x) (ta_sections x) (ta_unparsed x) (ta_type x)
    (ta_station x) (ta_time x) (ta_modifier x) (ta_common x) (ta_valid x) (ta_missing x)
    (ta_cancelled x) (ta_max x) v (ta_changes x).
Definition tupd_changes v (x : taf) : taf :=
  mk_taf (ta_raw x) (ta_body x) (ta_codes x) (ta_sections x) (ta_unparsed x) (ta_type x)
    (ta_station x) (ta_time x) (ta_modifier x) (ta_common x) (ta_valid x) (ta_missing x)
    (ta_cancelled x) (ta_max x) (ta_min x) v.

(** _handle_sections, taf.py:195-210: the body and the change codes.
    [split_sentence] never returns the empty list. *)
Definition taf_split (raw : str) : str * list str :=
  let s := sanitize_change_indicator raw in
  let s := if starts_with (py "TAF") s then replace (py "TAF ") (py "TAF_") s else s in
  match split_sentence s [py "FM"; py "TEMPO"; py "BECMG"; py "PROB"] None SpLeft with
  | b :: l => (replace (py "TAF_") (py "TAF ") b, l)
  | [] => ([], [])
  end.

Definition taf_sections (body : str) (codes : list str) : list str :=
  [body; join (py " ") (map (replace (py "_") (py " ")) codes)].

Definition tlift (f : rmatch -> common -> result common) (m : rmatch) (x : taf) : result taf :=
  c <- f m (ta_common x) ;; Ok (tupd_common c x).

(** base/report.py:42-45 *)
Definition thandle_type (m : rmatch) (x : taf) : result taf :=
  let t := type_new (m_string m) in Ok (tout_string (type_str t) (tupd_type t x)).
(** base/modifier.py:52-55 *)
Definition thandle_modifier (m : rmatch) (x : taf) : result taf :=
  let v := modifier_new (Some (m_string m)) in
  Ok (tout_string (modifier_str v) (tupd_modifier v x)).
(** base/report.py:52-55 *)
Definition thandle_station (e : env) (m : rmatch) (x : taf) : result taf :=
  let s := station_new e (Some (m_string m)) in
  Ok (tout_string (station_str e s) (tupd_station s x)).
(** taf.py:94-97 *)
Definition thandle_time (e : env) (year month : option Z) (m : rmatch) (x : taf) : result taf :=
  t <- time_from_metar e (Some m) year month ;;
  Ok (tout_string (time_str t) (tupd_time t x)).
(** taf.py:99-102 *)
Definition thandle_missing (m : rmatch) (x : taf) : result taf :=
  let v := missing_new (Some (m_string m)) in
  Ok (tout_string (modifier_str (mi_mod v)) (tupd_missing v x)).
(** valid.py:106-109 *)
Definition thandle_valid (m : rmatch) (x : taf) : result taf :=
  v <- valid_from_taf (Some m) (t_dt (ta_time x)) ;;
  Ok (tout_string (valid_str v) (tupd_valid v x)).
(** taf.py:109-112 *)
Definition thandle_cancelled (m : rmatch) (x : taf) : result taf :=
  let v := cancelled_new (Some m) in
  Ok (tout_string (cancelled_str v) (tupd_cancelled v x)).
(** taf.py:119-127 *)
Definition thandle_temperature (m : rmatch) (x : taf) : result taf :=
  t <- taf_temp_new m (t_dt (ta_time x)) ;;
  if opt_str_eqb (group m "type") (py "X") then
    l <- gl_add t (ta_max x) ;; Ok (tout_string (taf_temp_str t) (tupd_max l x))
  else
    l <- gl_add t (ta_min x) ;; Ok (tout_string (taf_temp_str t) (tupd_min l x)).
(** taf.py:139-143 *)
Definition handle_change_forecasted (code : str) (x : taf) : result taf :=
  p <- change_fc_new code (ta_valid x) ;;
  l <- changes_add p (ta_changes x) ;;
  Ok (tout_string (change_fc_str p) (tupd_changes l x)).

(** The handlers of the body, taf.py:152-173 *)
Definition taf_handlers (e : env) (year month : option Z) : list (handler taf) :=
  [mk_handler r_TYPE thandle_type;
   mk_handler r_T_AMD_COR thandle_modifier;
   mk_handler r_STATION (thandle_station e);
   mk_handler r_TIME (thandle_time e year month);
   mk_handler r_T_NIL thandle_missing;
   mk_handler r_T_VALID thandle_valid;
   mk_handler r_T_CANCELLED thandle_cancelled;
   mk_handler r_T_WIND (tlift handle_wind);
   mk_handler r_T_VISIBILITY (tlift handle_prevailing);
   mk_handler r_WEATHER (tlift handle_weather);
   mk_handler r_WEATHER (tlift handle_weather);
   mk_handler r_WEATHER (tlift handle_weather);
   mk_handler r_CLOUD (tlift handle_cloud);
   mk_handler r_CLOUD (tlift handle_cloud);
   mk_handler r_CLOUD (tlift handle_cloud);
   mk_handler r_CLOUD (tlift handle_cloud);
   mk_handler r_T_TEMPERATURE thandle_temperature;
   mk_handler r_T_TEMPERATURE thandle_temperature;
   mk_handler r_T_TEMPERATURE thandle_temperature;
   mk_handler r_T_TEMPERATURE thandle_temperature].

(** _parse_body, taf.py:150-177 *)
Definition taf_parse_body (e : env) (year month : option Z) (x : taf) : result taf :=
  r <- parse_section (taf_handlers e year month) (sanitize_visibility (ta_body x)) x ;;
  let (x', unparsed) := (r : taf * list str) in
  Ok (tupd_unparsed (ta_unparsed x' ++ unparsed) x').

(** The loop taf.py:180-182 *)
Fixpoint handle_changes (l : list str) (x : taf) : result taf :=
  match l with
  | [] => Ok x
  | [] :: l' => handle_changes l' x
  | t :: l' => x' <- handle_change_forecasted t x ;; handle_changes l' x'
  end.

(** _parse_changes_forecasted, taf.py:179-193 *)
Definition parse_changes_forecasted (truncate : bool) (x : taf) : result taf :=
  x <- handle_changes (ta_codes x) x ;;
  let (l, g) := gl_collect (ta_changes x) in
  let x := tupd_unparsed (ta_unparsed x ++ flat_map cf_unparsed l) (tupd_changes g x) in
  match ta_unparsed x with
  | _ :: _ => if truncate then Raise ParserError else Ok x
  | [] => Ok x
  end.

(** The attributes before parsing: Report.__init__ and taf.py:51-76 *)
Definition taf_init (e : env) (raw : str) : result taf :=
  t <- time_new e None None None None None None ;;        (* TimeMixin *)
  let (body, codes) := taf_split raw in
  c <- common_new [] ;;
  v <- valid_from_taf None (t_dt t) ;;
  Ok (mk_taf raw body codes (taf_sections body codes) [] (type_new (py "TAF"))
        (station_new e None) t (modifier_new None) c v (missing_new None)
        (cancelled_new None) (gl_new 2) (gl_new 2) (gl_new 8)).

(** Taf(code, year, month, truncate), taf.py:44-82 *)
Definition taf_parse (e : env) (code : str) (year month : option Z) (truncate : bool)
  : result taf :=
  raw <- report_raw_code code ;;
  x <- taf_init e raw ;;
  x <- taf_parse_body e year month x ;;
  parse_changes_forecasted truncate x.

Definition taf_str (x : taf) : str := strip (c_string (ta_common x)).
