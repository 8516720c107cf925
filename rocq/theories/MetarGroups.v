(** * aeromet_py/reports/models/metar: the groups *)
From Coq Require Import String Ascii.
From Coq Require Import List NArith ZArith Bool Lia.
From Coq Require Import Floats.SpecFloat.
From Verif Require Import PyBase PyRegex AeroRegex PyFloat PyTime Utils Base.
Import ListNotations.
Open Scope list_scope.

(** ** metar/wind.py *)

Record metar_wind := mk_wind {
  w_code : option str;
  w_dir : direction;
  w_speed : option float;
  w_gust : option float
}.

(** MetarWind.__init__, wind.py:11-29, with Wind.__init__ (base/wind.py:190-196) *)
Definition metar_wind_new (m : option rmatch) : result metar_wind :=
  gust0 <- speed_new None ;;
  match m with
  | None =>
      d <- direction_new None ;;
      s <- speed_new None ;;
      Ok (mk_wind (group_code None) d s gust0)
  | Some m =>
      let mps := opt_str_eqb (group m "units") (py "MPS") in
      let spd := if mps then Some (mps2kt (group m "speed")) else group m "speed" in
      let gst := if mps then Some (mps2kt (group m "gust")) else group m "gust" in
      d <- direction_new (group m "dir") ;;
      s <- speed_new spd ;;
      g <- speed_new gst ;;
      Ok (mk_wind (group_code (Some (m_string m))) d s g)
  end.

(** wind.py:31-34 *)
Definition metar_wind_str (w : metar_wind) : str :=
  wind_str (w_dir w) (w_speed w)
  ++ (if vtruthy (w_gust w) then py " gust of " ++ speed_str (w_gust w) else []).

(** ** metar/wind_variation.py *)

Record wind_variation := mk_wvar {
  wv_code : option str;
  wv_from : direction;
  wv_to : direction
}.

(** wind_variation.py:12-22 *)
Definition wind_variation_new (m : option rmatch) : result wind_variation :=
  match m with
  | None =>
      a <- direction_new (Some (py "///")) ;;
      b <- direction_new (Some (py "///")) ;;
      Ok (mk_wvar (group_code None) a b)
  | Some m =>
      a <- direction_new (group m "from") ;;
      b <- direction_new (group m "to") ;;
      Ok (mk_wvar (group_code (Some (m_string m))) a b)
  end.

(** wind_variation.py:24-33 *)
Definition wind_variation_str (w : wind_variation) : str :=
  match dir_value (wv_from w) with
  | None => []
  | Some _ =>
      py "from " ++ fmt_opt (cardinal (wv_from w)) ++ py " (" ++ direction_str (wv_from w)
      ++ py ") to " ++ fmt_opt (cardinal (wv_to w)) ++ py " (" ++ direction_str (wv_to w)
      ++ py ")"
  end.

(** ** metar/visibility.py *)

(** Visibility/VisibilityWithDirection state and the CAVOK flag of
    MetarPrevailingVisibility (always false for the minimum visibility). *)
Record visibility := mk_vis {
  v_code : option str;
  v_vis : option float;
  v_dir : direction;
  v_cavok : bool
}.

(** Visibility.__str__, visibility.py:17-21 *)
Definition visibility_str (v : visibility) : str :=
  match v_vis v with
  | Some _ => numeric_str (in_kilometers (v_vis v)) ++ py " km"
  | None => distance_str (v_vis v)
  end.

(** VisibilityWithDirection.__str__, visibility.py:59-69 *)
Definition visibility_dir_str (v : visibility) : str :=
  match dir_value (v_dir v) with
  | None => visibility_str v
  | Some _ =>
      visibility_str v
      ++ (if vtruthy (dir_value (v_dir v))
          then py " to " ++ fmt_opt (cardinal (v_dir v)) ++ py " (" ++ direction_str (v_dir v)
               ++ py ")"
          else [])
  end.

(** MetarMinimumVisibility.__init__, visibility.py:102-116 *)
Definition minimum_visibility_new (m : option rmatch) : result visibility :=
  d0 <- direction_new None ;;
  let v0 := distance_new None in
  match m with
  | None => Ok (mk_vis (group_code None) v0 d0 false)
  | Some m =>
      let v := if truthy (group m "vis") then distance_new (group m "vis") else v0 in
      d <- (match group m "dir" with
            | Some (c :: k) => from_cardinal (c :: k)
            | _ => Ok d0
            end) ;;
      Ok (mk_vis (group_code (Some (m_string m))) v d false)
  end.

(** [int(a) / int(b)]: true division of two ints below 2^53. *)
Definition int_div (a b : Z) : result float :=
  if Z.eqb b 0 then Raise ZeroDivisionError else Ok (fdiv (float_of_Z a) (float_of_Z b)).

(** MetarPrevailingVisibility._from_sea_miles, visibility.py:161-182 *)
Definition from_sea_miles (integer fraction : option str) : result (option float) :=
  fr <- (match fraction with
         | Some (c :: f) =>
             match split_on 47%N (c :: f) with
             | i0 :: i1 :: _ =>
                 a <- int_of_str i0 ;;
                 b <- int_of_str i1 ;;
                 int_div a b
             | i0 :: _ => a <- int_of_str i0 ;; Raise IndexError
             | [] => Raise IndexError
             end
         | _ => Ok (float_of_Z 0)
         end) ;;
  vis <- (match integer with
          | Some (c :: i) => x <- float_of_str (c :: i) ;; Ok (fadd fr x)
          | _ => Ok fr
          end) ;;
  Ok (distance_new (Some (repr (fmul (fmul vis SMI_TO_KM) KM_TO_M)))).

(** MetarPrevailingVisibility.__init__, visibility.py:122-153 *)
Definition prevailing_new (m : option rmatch) : result visibility :=
  d0 <- direction_new None ;;
  let v0 := distance_new None in
  match m with
  | None => Ok (mk_vis (group_code None) v0 d0 false)
  | Some m =>
      let vis := group m "vis" in
      let integer := group m "integer" in
      let fraction := group m "fraction" in
      let units := group m "units" in
      let v1 := if truthy vis || opt_str_eqb units (py "M") then distance_new vis else v0 in
      v2 <- (if truthy integer || truthy fraction then
               v <- (if opt_str_eqb units (py "SM") then from_sea_miles integer fraction
                     else Ok v1) ;;
               if opt_str_eqb units (py "KM") then
                 n <- int_of_opt integer ;;
                 Ok (distance_new (Some (Z_pad 4 (n * 1000))))
               else Ok v
             else Ok v1) ;;
      d <- (match group m "dir" with
            | Some (c :: k) => from_cardinal (c :: k)
            | _ => Ok d0
            end) ;;
      if truthy (group m "cavok")
      then Ok (mk_vis (group_code (Some (m_string m))) (distance_new (Some (py "9999"))) d true)
      else Ok (mk_vis (group_code (Some (m_string m))) v2 d false)
  end.

(** visibility.py:155-159 *)
Definition prevailing_str (v : visibility) : str :=
  if v_cavok v then py "Ceiling and Visibility OK" else visibility_dir_str v.

(** ** metar/runway_range.py *)

Definition NAMES : list (str * str) :=
  [(py "R", py "right"); (py "L", py "left"); (py "C", py "center")].
Definition RVR_LIMITS : list (str * str) :=
  [(py "M", py "below of"); (py "P", py "above of")].
Definition TRENDS : list (str * str) :=
  [(py "N", py "no change"); (py "U", py "increasing"); (py "D", py "decreasing")].

(** set_runway_name, runway_range.py:27-43 *)
Definition set_runway_name (code : option str) : option str :=
  match code with
  | None => None
  | Some c =>
      if Nat.eqb (length c) 3 then
        let name_char := skipn 2 c in
        Some (replace name_char (py " " ++ fmt_opt (assoc name_char NAMES)) c)
      else if str_eqb c (py "88") then Some (py "all runways")
      else if str_eqb c (py "99") then Some (py "repeated")
      else Some c
  end.

Record runway_range := mk_rvr {
  rr_code : option str;
  rr_name : option str;
  rr_rvr_low : option str;
  rr_rvr_high : option str;
  rr_trend : option str;
  rr_low : option float;
  rr_high : option float
}.

(** _set_range, runway_range.py:74-84 *)
Definition rvr_set_range (code units : option str) : result (option float) :=
  match code with
  | None => Ok (distance_new None)
  | Some c =>
      if opt_str_eqb units (py "FT") then
        x <- float_of_str c ;;
        Ok (distance_new (Some (repr (fmul x FT_TO_M))))
      else Ok (distance_new (Some c))
  end.

(** MetarRunwayRange.__init__, runway_range.py:49-72 *)
Definition runway_range_new (m : option rmatch) : result runway_range :=
  match m with
  | None => Ok (mk_rvr (group_code None) None None None None
                       (distance_new None) (distance_new None))
  | Some m =>
      low <- rvr_set_range (group m "low") (group m "units") ;;
      high <- rvr_set_range (group m "high") (group m "units") ;;
      Ok (mk_rvr (group_code (Some (m_string m))) (set_runway_name (group m "name"))
            (dict_get RVR_LIMITS (group m "rvrlow")) (dict_get RVR_LIMITS (group m "rvrhigh"))
            (dict_get TRENDS (group m "trend")) low high)
  end.

(** _range2str, runway_range.py:86-94 *)
Definition range2str (r : option float) (rvr : option str) : str :=
  match r with
  | None => []
  | Some _ => if truthy rvr then fmt_opt rvr ++ py " " ++ distance_str r else distance_str r
  end.

(** runway_range.py:96-105 *)
Definition runway_range_str (r : runway_range) : str :=
  match rr_low r with
  | None => []
  | Some _ =>
      py "runway " ++ fmt_opt (rr_name r) ++ py " " ++ range2str (rr_low r) (rr_rvr_low r)
      ++ (if vtruthy (rr_high r)
          then py " varying to " ++ range2str (rr_high r) (rr_rvr_high r) else [])
      ++ (if truthy (rr_trend r) then py ", " ++ fmt_opt (rr_trend r) else [])
  end.

(** ** metar/weather.py *)

Definition INTENSITY : list (str * str) :=
  [(py "-", py "light"); (py "+", py "heavy"); (py "-VC", py "nearby light");
   (py "+VC", py "nearby heavy"); (py "VC", py "nearby")].
Definition DESCRIPTION : list (str * str) :=
  [(py "MI", py "shallow"); (py "PR", py "partial"); (py "BC", py "patches of");
   (py "DR", py "low drifting"); (py "BL", py "blowing"); (py "SH", py "showers");
   (py "TS", py "thunderstorm"); (py "FZ", py "freezing")].
Definition PRECIPITATION : list (str * str) :=
  [(py "DZ", py "drizzle"); (py "RA", py "rain"); (py "SN", py "snow");
   (py "SG", py "snow grains"); (py "IC", py "ice crystals"); (py "PL", py "ice pellets");
   (py "GR", py "hail"); (py "GS", py "snow pellets");
   (py "UP", py "unknown precipitation"); (py "//", [])].
Definition OBSCURATION : list (str * str) :=
  [(py "BR", py "mist"); (py "FG", py "fog"); (py "FU", py "smoke");
   (py "VA", py "volcanic ash"); (py "DU", py "dust"); (py "SA", py "sand");
   (py "HZ", py "haze"); (py "PY", py "spray")].
Definition OTHER : list (str * str) :=
  [(py "PO", py "sand whirls"); (py "SQ", py "squalls"); (py "FC", py "funnel cloud");
   (py "SS", py "sandstorm"); (py "DS", py "dust storm");
   (py "NSW", py "nil significant weather")].

Record weather := mk_weather {
  we_code : option str;
  we_int : option str;
  we_desc : option str;
  we_prec : option str;
  we_obsc : option str;
  we_other : option str
}.

(** MetarWeather.__init__, weather.py:64-80 *)
Definition weather_new (m : option rmatch) : weather :=
  match m with
  | None => mk_weather (group_code None) None None None None None
  | Some m =>
      mk_weather (group_code (Some (m_string m)))
        (dict_get INTENSITY (group m "int")) (dict_get DESCRIPTION (group m "desc"))
        (dict_get PRECIPITATION (group m "prec")) (dict_get OBSCURATION (group m "obsc"))
        (dict_get OTHER (group m "other"))
  end.

(** The common end of the two __str__: weather.py:90-93, recent_weather.py:35-38 *)
Definition drop_none (s : str) : str :=
  strip (re_sub r_SPACES (py " ") (replace (py "None") [] s) None).

(** weather.py:82-93 *)
Definition weather_str (w : weather) : str :=
  drop_none (fmt_opt (we_int w) ++ py " " ++ fmt_opt (we_desc w) ++ py " "
             ++ fmt_opt (we_prec w) ++ py " " ++ fmt_opt (we_obsc w) ++ py " "
             ++ fmt_opt (we_other w)).

(** ** metar/recent_weather.py *)

Record recent_weather := mk_recent {
  rw_code : option str;
  rw_desc : option str;
  rw_prec : option str;
  rw_obsc : option str;
  rw_other : option str
}.

(** recent_weather.py:12-26 *)
Definition recent_weather_new (m : option rmatch) : recent_weather :=
  match m with
  | None => mk_recent (group_code None) None None None None
  | Some m =>
      mk_recent (group_code (Some (m_string m)))
        (dict_get DESCRIPTION (group m "desc")) (dict_get PRECIPITATION (group m "prec"))
        (dict_get OBSCURATION (group m "obsc")) (dict_get OTHER (group m "other"))
  end.

(** recent_weather.py:28-38 *)
Definition recent_weather_str (w : recent_weather) : str :=
  drop_none (fmt_opt (rw_desc w) ++ py " " ++ fmt_opt (rw_prec w) ++ py " "
             ++ fmt_opt (rw_obsc w) ++ py " " ++ fmt_opt (rw_other w)).

(** ** metar/temperatures.py *)

Record temperatures := mk_temps {
  te_code : option str;
  te_temp : option float;
  te_dewpt : option float
}.

(** _set_temperature, temperatures.py:38-43 *)
Definition set_temperature (code sign : option str) : result (option float) :=
  if opt_str_eqb sign (py "M") || opt_str_eqb sign (py "-")
  then temperature_new (Some (py "-" ++ fmt_opt code))
  else temperature_new code.

(** temperatures.py:11-26 *)
Definition temperatures_new (m : option rmatch) : result temperatures :=
  match m with
  | None =>
      a <- temperature_new None ;;
      b <- temperature_new None ;;
      Ok (mk_temps (group_code None) a b)
  | Some m =>
      a <- set_temperature (group m "temp") (group m "tsign") ;;
      b <- set_temperature (group m "dewpt") (group m "dsign") ;;
      Ok (mk_temps (group_code (Some (m_string m))) a b)
  end.

(** temperatures.py:28-36 *)
Definition temperatures_str (t : temperatures) : str :=
  match te_temp t, te_dewpt t with
  | None, None => []
  | None, Some _ =>
      if vtruthy (te_dewpt t) then py "no temperature | dewpoint: " ++ temperature_str (te_dewpt t)
      else py "temperature: " ++ temperature_str (te_temp t) ++ py " | dewpoint: "
           ++ temperature_str (te_dewpt t)
  | Some _, None => py "temperature: " ++ temperature_str (te_temp t) ++ py " | no dewpoint"
  | Some _, Some _ =>
      py "temperature: " ++ temperature_str (te_temp t) ++ py " | dewpoint: "
      ++ temperature_str (te_dewpt t)
  end.

(** ** metar/pressure.py *)

Record pressure := mk_press { pr_code : option str; pr_value : option float }.

Definition f100 : float := Eval vm_compute in flit "100.0".
Definition f2500 : float := Eval vm_compute in flit "2500.0".

(** pressure.py:26-33: the value in hPa.  [x * 1] is [x]. *)
Definition pressure_convert (units units2 : option str) (p : float) : float :=
  if opt_str_eqb units (py "A") || opt_str_eqb units2 (py "INS")
  then fmul (fdiv p f100) INHG_TO_HPA
  else if opt_str_eqb units (py "Q") || opt_str_eqb units (py "QNH") then p
  else if fltb f2500 p then fmul p INHG_TO_HPA
  else fmul p MBAR_TO_HPA.

(** MetarPressure.__init__, pressure.py:12-37 *)
Definition metar_pressure_new (m : option rmatch) : result pressure :=
  match m with
  | None => Ok (mk_press (group_code None) (pressure_new None))
  | Some m =>
      let code := group_code (Some (m_string m)) in
      match group m "press" with
      | None => Raise TypeError       (* float(None); the group always takes part *)
      | Some press =>
          if str_eqb press (py "////") then Ok (mk_press code (pressure_new (Some press)))
          else
            p <- float_of_str press ;;
            Ok (mk_press code
                  (pressure_new (Some (format_fixed 10
                     (pressure_convert (group m "units") (group m "units2") p)))))
      end
  end.

(** ** metar/windshear.py *)

Record windshear := mk_ws {
  ws_code : option str;
  ws_all : option str;
  ws_name : option str
}.

(** MetarWindshearRunway.__init__, windshear.py:12-28 *)
Definition windshear_new (m : option rmatch) : windshear :=
  match m with
  | None => mk_ws (group_code None) None None
  | Some m =>
      mk_ws (group_code (Some (replace (py "_") (py " ") (m_string m)))) (group m "all")
        (match group m "name" with
         | None => None
         | Some n => if Nat.eqb (length n) 2 then Some n
                     else if Nat.eqb (length n) 3 then set_runway_name (Some n)
                     else None
         end)
  end.

(** windshear.py:30-37 *)
Definition windshear_str (w : windshear) : str :=
  if truthy (ws_name w) then fmt_opt (ws_name w)
  else if truthy (ws_all w) then py "all" else [].

(** windshear.py:39-45 *)
Definition ws_all_ (w : windshear) : bool := truthy (ws_all w).

(** MetarWindshearList.all_runways and names, windshear.py:73-87 *)
Definition all_runways (l : list windshear) : bool :=
  match l with [w] => ws_all_ w | _ => false end.
Definition windshear_names (l : list windshear) : list (option str) :=
  if all_runways l then [] else map ws_name l.

(** ** metar/sea_state.py *)

Definition SEA_STATE : list (str * str) :=
  [(py "0", py "calm (glassy)"); (py "1", py "calm (rippled)");
   (py "2", py "smooth (wavelets)"); (py "3", py "slight"); (py "4", py "moderate");
   (py "5", py "rough"); (py "6", py "very rough"); (py "7", py "high");
   (py "8", py "very high"); (py "9", py "phenomenal")].

Record sea_state := mk_sea {
  se_code : option str;
  se_temp : option float;
  se_state : option str;
  se_height : option float
}.

(** sea_state.py:49-55: [int(h) / 10], [None] on ValueError and TypeError *)
Definition sea_height (h : option str) : option float :=
  distance_new (Some (match int_of_opt h with
                      | Ok n => repr (fdiv (float_of_Z n) f10)
                      | Raise _ => py "None"
                      end)).

(** MetarSeaState.__init__, sea_state.py:27-55 *)
Definition sea_state_new (m : option rmatch) : result sea_state :=
  match m with
  | None => t <- temperature_new None ;; Ok (mk_sea (group_code None) t None (distance_new None))
  | Some m =>
      t <- set_temperature (group m "temp") (group m "sign") ;;
      Ok (mk_sea (group_code (Some (m_string m))) t (dict_get SEA_STATE (group m "state"))
            (sea_height (group m "height")))
  end.

(** sea_state.py:57-82 *)
Definition sea_state_str (s : sea_state) : str :=
  match se_temp s, se_height s, se_state s with
  | None, None, None => []
  | _, _, _ =>
      (if vtruthy (se_temp s) then py "temperature " ++ temperature_str (se_temp s) ++ py ", "
       else py "no temperature, ")
      ++ (if vtruthy (se_height s)
          then py "significant wave height " ++ distance_str (se_height s) ++ py ", "
          else py "no significant wave height, ")
      ++ (if truthy (se_state s) then fmt_opt (se_state s) else py "no sea state")
  end.

(** ** metar/runway_state.py *)

Definition RUNWAY_DEPOSITS : list (str * str) :=
  [(py "0", py "clear and dry"); (py "1", py "damp"); (py "2", py "wet and water patches");
   (py "3", py "rime and frost covered (depth normally less than 1 mm)");
   (py "4", py "dry snow"); (py "5", py "wet snow"); (py "6", py "slush"); (py "7", py "ice");
   (py "8", py "compacted or rolled snow"); (py "9", py "frozen ruts or ridges");
   (py "/", py "type of deposit not reported (e.g. due to runway clearance in progress)")].
Definition RUNWAY_CONTAMINATION : list (str * str) :=
  [(py "1", py "less than 10% of runway"); (py "2", py "11%-25% of runway");
   (py "3", py "reserved"); (py "4", py "reserved"); (py "5", py "26%-50% of runway");
   (py "6", py "reserved"); (py "7", py "reserved"); (py "8", py "reserved");
   (py "9", py "51%-100% of runway"); (py "/", py "not reported")].
Definition DEPOSIT_DEPTH : list (str * str) :=
  [(py "00", py "less than 1 mm"); (py "91", py "reserved"); (py "92", py "10 cm");
   (py "93", py "15 cm"); (py "94", py "20 cm"); (py "95", py "25 cm"); (py "96", py "30 cm");
   (py "97", py "35 cm"); (py "98", py "40 cm or more");
   (py "99", py "runway(s) non-operational due to snow, slush, ice, large drifts or runway clearance, but depth not reported");
   (py "//", py "depth of deposit operationally not significant or not measurable")].
Definition SURFACE_FRICTION : list (str * str) :=
  [(py "91", py "breaking action poor"); (py "92", py "breaking action medium/poor");
   (py "93", py "breaking action medium"); (py "94", py "breaking action medium/good");
   (py "95", py "breaking action good"); (py "96", py "reserved"); (py "97", py "reserved");
   (py "98", py "reserved"); (py "99", py "breaking action unreliable");
   (py "//", py "breaking conditions not reported and/or runway not operational")].

(** _set_deposits_depth, runway_state.py:95-109 *)
Definition set_deposits_depth (code : option str) : option str :=
  match code with
  | None => None
  | Some c =>
      match int_of_str c with
      | Ok n => if (0 <? n)%Z && (n <=? 90)%Z then Some (Z_str n ++ py " mm")
                else assoc c DEPOSIT_DEPTH
      | Raise _ => assoc c DEPOSIT_DEPTH
      end
  end.

(** _set_surface_friction, runway_state.py:111-125 *)
Definition set_surface_friction (code : option str) : option str :=
  match code with
  | None => None
  | Some c =>
      match int_of_str c with
      | Ok n => if (-1 <? n)%Z && (n <=? 90)%Z then Some (py "0." ++ Z_pad 2 n)
                else assoc c SURFACE_FRICTION
      | Raise _ => assoc c SURFACE_FRICTION
      end
  end.

(** [rs_raw] are the captures the __str__ helpers read again from the match:
    deposit, depth and friction; [None] when there is no match. *)
Record runway_state := mk_rs {
  rs_code : option str;
  rs_name : option str;
  rs_deposits : option str;
  rs_contamination : option str;
  rs_depth : option str;
  rs_friction : option str;
  rs_snoclo : bool;
  rs_clrd : bool;
  rs_raw : option (option str * option str * option str)
}.

Definition is_some {A} (o : option A) : bool := match o with Some _ => true | None => false end.

(** MetarRunwayState.__init__, runway_state.py:71-93 *)
Definition runway_state_new (m : option rmatch) : runway_state :=
  match m with
  | None => mk_rs (group_code None) None None None None None false false None
  | Some m =>
      mk_rs (group_code (Some (m_string m))) (set_runway_name (group m "name"))
        (dict_get RUNWAY_DEPOSITS (group m "deposit"))
        (dict_get RUNWAY_CONTAMINATION (group m "cont"))
        (set_deposits_depth (group m "depth")) (set_surface_friction (group m "fric"))
        (is_some (group m "snoclo")) (is_some (group m "clrd"))
        (Some (group m "deposit", group m "depth", group m "fric"))
  end.

(** clrd, runway_state.py:223-237 *)
Definition rs_clrd_text (r : runway_state) : option str :=
  let t := py "contaminations have ceased to exists" in
  if rs_clrd r then
    if opt_str_eqb (rs_name r) (py "repeated") then Some (t ++ py " on previous runway")
    else if opt_str_eqb (rs_name r) (py "all runways")
         then Some (t ++ py " on " ++ fmt_opt (rs_name r))
         else Some (t ++ py " on runway " ++ fmt_opt (rs_name r))
  else None.

(** _deposits_to_str, runway_state.py:127-154 *)
Definition deposits_to_str (r : runway_state) (deposit depth : option str) : option str :=
  let special := opt_str_eqb depth (py "99") || opt_str_eqb depth (py "//") in
  let dd := fmt_opt (rs_depth r) in
  let dp := fmt_opt (rs_deposits r) in
  if opt_str_eqb deposit (py "/") then
    if special then Some (dd ++ py " and " ++ dp)
    else match depth with
         | Some _ => Some (py "depth of " ++ dd ++ py " but " ++ dp)
         | None => rs_deposits r
         end
  else match deposit with
       | Some _ =>
           if special then Some (dd ++ py " of " ++ dp)
           else match depth with
                | Some _ => Some (py "deposits of " ++ dd ++ py " of " ++ dp)
                | None => Some (py "deposits of " ++ dp)
                end
       | None =>
           if special then rs_depth r
           else match depth with
                | Some _ => Some (py "deposits depth of " ++ dd)
                | None => Some []
                end
       end.

(** _surface_friction_to_str, runway_state.py:156-171 *)
Definition surface_friction_to_str (r : runway_state) (fric : option str) : option str :=
  match fric with
  | None => Some []
  | Some f => match int_of_str f with
              | Ok n => if (n <? 91)%Z
                        then Some (py "estimated surface friction " ++ fmt_opt (rs_friction r))
                        else rs_friction r
              | Raise _ => rs_friction r
              end
  end.

(** runway_state.py:173-188 *)
Definition runway_state_str (r : runway_state) : str :=
  match rs_raw r with
  | None => []
  | Some (deposit, depth, fric) =>
      if rs_snoclo r then py "aerodrome is closed due to extreme deposit of snow"
      else match rs_clrd_text r with
           | Some t => t
           | None =>
               fmt_opt (rs_name r) ++ py ", " ++ fmt_opt (deposits_to_str r deposit depth)
               ++ py ", contamination " ++ fmt_opt (rs_contamination r) ++ py ", "
               ++ fmt_opt (surface_friction_to_str r fric)
           end
  end.

(** ** The attributes shared by METAR, TAF and their change periods

    The string buffer of StringAttributeMixin and the attributes of
    MetarWindMixin (metar/wind.py:63-77), MetarPrevailingMixin
    (metar/visibility.py:208-222), MetarWeatherMixin (metar/weather.py:132-147)
    and MetarCloudMixin (metar/cloud.py:6-21). *)
Record common := mk_common {
  c_string : str;
  c_wind : metar_wind;
  c_vis : visibility;
  c_weathers : grouplist weather;
  c_clouds : grouplist cloud
}.

(** The mixins' __init__. *)
Definition common_new (buffer : str) : result common :=
  w <- metar_wind_new None ;;
  v <- prevailing_new None ;;
  Ok (mk_common buffer w v (gl_new 3) cloudlist_new).

(** metar/wind.py:69-72 *)
Definition handle_wind (m : rmatch) (c : common) : result common :=
  w <- metar_wind_new (Some m) ;;
  Ok (mk_common (concat_string (c_string c) (metar_wind_str w)) w (c_vis c)
        (c_weathers c) (c_clouds c)).

(** metar/visibility.py:214-217 *)
Definition handle_prevailing (m : rmatch) (c : common) : result common :=
  v <- prevailing_new (Some m) ;;
  Ok (mk_common (concat_string (c_string c) (prevailing_str v)) (c_wind c) v
        (c_weathers c) (c_clouds c)).

(** metar/weather.py:138-142 *)
Definition handle_weather (m : rmatch) (c : common) : result common :=
  let w := weather_new (Some m) in
  ws <- gl_add w (c_weathers c) ;;
  Ok (mk_common (concat_string (c_string c) (weather_str w)) (c_wind c) (c_vis c)
        ws (c_clouds c)).

(** metar/cloud.py:12-16 *)
Definition handle_cloud (m : rmatch) (c : common) : result common :=
  cl <- cloud_from_metar (Some m) ;;
  cs <- gl_add cl (c_clouds c) ;;
  Ok (mk_common (concat_string (c_string c) (cloud_str cl)) (c_wind c) (c_vis c)
        (c_weathers c) cs).

Definition set_string (s : str) (c : common) : common :=
  mk_common s (c_wind c) (c_vis c) (c_weathers c) (c_clouds c).
Definition add_string (s : str) (c : common) : common :=
  set_string (concat_string (c_string c) s) c.

Definition set_clouds (cs : grouplist cloud) (c : common) : common :=
  mk_common (c_string c) (c_wind c) (c_vis c) (c_weathers c) cs.
Definition set_weathers (ws : grouplist weather) (c : common) : common :=
  mk_common (c_string c) (c_wind c) (c_vis c) ws (c_clouds c).

(** FlightRulesMixin on these attributes (base/flight_rules.py:40-66). *)
Definition flight_rules (c : common) : option str :=
  flight_rules_of (v_vis (c_vis c)) (gl_list (c_clouds c)).

(** ** metar/should_be_cavok.py *)

Definition f10000 : float := Eval vm_compute in flit "10000.0".
Definition f4999 : float := Eval vm_compute in flit "4999.99999999".

(** The loop body, should_be_cavok.py:44-52.  [same] says whether the
    interpreter shares the constant "indefinite ceiling" between the two
    modules, i.e. whether [is] behaves as [==] there; CPython 3.11 does not. *)
Definition cavok_rejects (same : bool) (c : cloud) : bool :=
  (same && opt_str_eqb (cl_cover c) (py "indefinite ceiling"))
  || opt_str_eqb (cl_type c) (py "cumulonimbus")
  || opt_str_eqb (cl_type c) (py "towering cumulus")
  || match cl_feet c with Some h => fltb h f4999 | None => false end.

(** should_be_cavok, should_be_cavok.py:26-54: the answer and the object
    afterwards (the loop moves the cursor of the cloud list). *)
Definition should_be_cavok (same : bool) (c : common) : result (bool * common) :=
  if Nat.ltb 0 (gl_len (c_weathers c)) then Ok (false, c)
  else
    ceil <- ceiling_of (gl_list (c_clouds c)) ;;
    if (ceil : bool) then Ok (false, c)
    else
      match v_vis (c_vis c) with
      | None => Ok (false, c)
      | Some v =>
          if Nat.eqb (gl_len (c_clouds c)) 0 then Ok (false, c)
          else if fltb v f10000 then Ok (false, c)
          else
            match gl_for (fun cl => if cavok_rejects same cl then Some tt else None)
                         (c_clouds c) with
            | (Some _, cs) => Ok (false, set_clouds cs c)
            | (None, cs) => Ok (true, set_clouds cs c)
            end
      end.
