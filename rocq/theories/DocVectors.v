(** * The examples of the documentation, replayed on the model

    The outputs printed in /repo/doc/docs.md and /repo/README.md (tests, not
    proofs).  The station table is cut down to the station docs.md describes;
    floats are shown as Python shows them. *)
From Coq Require Import String Ascii.
From Coq Require Import List NArith ZArith Bool.
From Coq Require Import Floats.SpecFloat.
From Verif Require Import PyBase PyRegex AeroRegex PyFloat PyTime Utils Base MetarGroups Trend Metar Taf Accessors Messages ProofValues.
Import ListNotations.
Local Open Scope string_scope.
Local Open Scope list_scope.

Definition o (s : option str) : str := match s with Some s => s | None => py "None" end.
Definition f (x : option float) : str := match x with Some x => repr x | None => py "None" end.
Definition b (x : bool) : str := if x then py "True" else py "False".
Definition z (x : Z) : str := Z_str x.
Definition E : env := mk_env 2022 9
  [[py "NY NYC/JFK ARPT"; py "KJFK"; py "JFK"; py "74486"; py "40.38N"; py "073.46W"; py "9"; py "US"]]
  [(py "US", py "United States of America (the)")].
Definition metar (s : string) := metar_parse E (py s) None None false.
Definition taf (s : string) (y mo : Z) := taf_parse E (py s) (Some y) (Some mo) false.
Fixpoint alike (l : list str) (m : list string) : bool :=
  match l, m with
  | [], [] => true
  | a :: l', c :: m' => str_eqb a (py c) && alike l' m'
  | _, _ => false
  end.
Definition shows {A} (r : result A) (g : A -> list str) (l : list string) : bool := match r with Ok x => alike (g x) l | Raise _ => false end.

(** docs.md:102-108, 221-228, 283-294, 343-416, 624-661 *)
Definition kmia := "KMIA 130053Z 25005KT 250V140 10SM FEW030 FEW045 BKN250 29/23 A2994 RMK AO2 SLP140 T02940233".
Example doc_kmia : shows (metar kmia) (fun x =>
  [o (ty_code (me_type x)); o (ty_type (me_type x)); o (t_code (me_time x)); z (dt_day (t_dt (me_time x))); z (dt_hour (t_dt (me_time x))); z (dt_minute (t_dt (me_time x)));
   o (w_code (c_wind (me_common x))); o (cardinal (w_dir (c_wind (me_common x)))); b (dir_variable (w_dir (c_wind (me_common x))));
   f (dir_value (w_dir (c_wind (me_common x)))); f (in_miph (w_speed (c_wind (me_common x)))); f (in_kph (w_gust (c_wind (me_common x))));
   o (wv_code (me_wvar x)); o (cardinal (wv_from (me_wvar x))); f (dir_value (wv_from (me_wvar x))); o (cardinal (wv_to (me_wvar x))); f (dir_value (wv_to (me_wvar x)));
   o (v_code (c_vis (me_common x))); f (v_vis (c_vis (me_common x))); b (v_cavok (c_vis (me_common x)));
   f (te_temp (me_temps x)); f (in_fahrenheit (te_temp (me_temps x))); f (te_dewpt (me_temps x)); f (in_fahrenheit (te_dewpt (me_temps x)));
   o (pr_code (me_press x))])
  ["METAR"; "Meteorological Aerodrome Report"; "130053Z"; "13"; "0"; "53"; "25005KT"; "WSW"; "False"; "250.0"; "5.7539"; "None";
   "250V140"; "WSW"; "250.0"; "SE"; "140.0"; "10SM"; "18520.0"; "False"; "29.0"; "84.2"; "23.0"; "73.4"; "A2994"] = true.
Proof. vm_compute. reflexivity. Qed.

(** docs.md:650-661, shown there with six digits *)
Definition near (x : option float) (y : string) : bool :=
  match x with Some x => fltb (SFabs (fsub x (flit y))) (flit "0.0000005") | None => false end.
Example doc_pressure : match metar kmia with
  | Ok x => near (in_atm (pr_value (me_press x))) "1.000626" && near (pr_value (me_press x)) "1013.884186" && near (in_inHg (pr_value (me_press x))) "29.94"
  | Raise _ => false end = true.
Proof. vm_compute. reflexivity. Qed.

(** docs.md:122-129, 148-153, 161-168, 313-320 *)
Example doc_bad_group :
  match metar_error E (py "KMIA 130053Z 00000KT 10SM FEWT030 FEW045 BKN250 29/23 A2994 RMK AO2 SLP140 T02940233") None None with
  | Some t => str_eqb t (py "failed while processing FEWT030 from: KMIA 130053Z 00000KT 10SM FEWT030 FEW045 BKN250 29/23 A2994 RMK AO2 SLP140 T02940233")
  | None => false end = true
  /\ shows (metar "KMIA 130053Z 00000KT 10SM FEW030 FEW045 BKN250 29/23 A2994 RMK AO2 SLP140 T02940233") me_sections
       ["KMIA 130053Z 00000KT 10SM FEW030 FEW045 BKN250 29/23 A2994"; ""; "RMK AO2 SLP140 T02940233"] = true
  /\ shows (metar "KMIA 130053Z COR 00000KT 10SM FEWT030 FEW045 BKN250 29/23 A2994 RMK AO2 SLP140 T02940233")
       (fun x => me_unparsed x ++ [o (mo_code (me_modifier x)); o (mo_desc (me_modifier x))]) ["FEWT030"; "COR"; "Correction"] = true.
Proof. conjs; vm_compute; reflexivity. Qed.

(** docs.md:245-266; the report of KJFK is not shown there *)
Example doc_station : shows (metar "KJFK 130053Z") (fun x =>
    [o (st_code (me_station x)); o (st_name (me_station x)); o (st_country E (me_station x)); o (st_elevation (me_station x));
     o (st_longitude (me_station x)); o (st_latitude (me_station x)); o (st_icao (me_station x)); o (st_iata (me_station x)); o (st_synop (me_station x))])
  ["KJFK"; "NY NYC/JFK ARPT"; "United States of America (the)"; "9"; "073.46W"; "40.38N"; "KJFK"; "JFK"; "74486"] = true.
Proof. vm_compute. reflexivity. Qed.

(** docs.md:434-449 *)
Example doc_minimum : shows (metar "MROC 160700Z 09003KT 3000 1000SW BR SCT005 BKN015 19/19 A3007 NOSIG") (fun x =>
    [o (v_code (me_minvis x)); f (v_vis (me_minvis x)); o (cardinal (v_dir (me_minvis x))); f (dir_value (v_dir (me_minvis x)))])
  ["1000SW"; "1000.0"; "SW"; "225.0"] = true.
Proof. vm_compute. reflexivity. Qed.

(** docs.md:474-491 *)
Example doc_range : shows (metar "METAR SCFA 121300Z 21008KT 9999 3000W R07L/M0150V0600U TSRA FEW020 20/13 Q1014 NOSIG") (fun x =>
    flat_map (fun r => [o (rr_code r); o (rr_name r); range2str (rr_low r) (rr_rvr_low r); f (in_sea_miles (rr_high r))]) (gl_list (me_rvr x)))
  ["R07L/M0150V0600U"; "07 left"; "below of 150.0 m"; "0.3239740820734341"] = true.
Proof. vm_compute. reflexivity. Qed.

(** docs.md:509-543 (with the report named there, "metar_code") *)
Example doc_weather : shows (metar "METAR BIBD 191100Z 03002KT 5000 +RA BR VCTS SCT008CB OVC020 04/03 Q1013") (fun x =>
    flat_map (fun w => [o (we_code w); o (we_int w); o (we_desc w); o (we_prec w); o (we_obsc w); o (we_other w)]) (gl_list (c_weathers (me_common x))))
  ["+RA"; "heavy"; "None"; "rain"; "None"; "None";
   "BR"; "None"; "None"; "None"; "mist"; "None";
   "VCTS"; "nearby"; "thunderstorm"; "None"; "None"; "None"] = true.
Proof. vm_compute. reflexivity. Qed.

(** docs.md:568-607, the heights shown there with one digit *)
Example doc_cloud : shows (metar "METAR BIBD 191100Z 03002KT 5000 +RA BR VCTS FEW010CB SCT020 BKN120 04/03 Q1013") (fun x =>
    match ceiling_of (gl_list (c_clouds (me_common x))) with Ok c => b c | Raise _ => [] end
    :: flat_map (fun c => [o (cl_code c); o (cl_cover c); o (cl_oktas c); o (cl_type c); numeric_str (cl_feet c)]) (gl_list (c_clouds (me_common x))))
  ["False"; "FEW010CB"; "a few"; "1-2"; "cumulonimbus"; "1000.0"; "SCT020"; "scattered"; "3-4"; "None"; "2000.0";
   "BKN120"; "broken"; "5-7"; "None"; "12000.0"] = true.
Proof. vm_compute. reflexivity. Qed.

(** docs.md:674-693 *)
Example doc_recent : shows (metar "METAR BIBD 191100Z 03002KT 9999 VCTS FEW010CB SCT020 BKN120 04/03 Q1013 RETSRA NOSIG") (fun x =>
    [o (rw_code (me_recent x)); o (rw_desc (me_recent x)); o (rw_prec (me_recent x)); o (rw_obsc (me_recent x)); o (rw_other (me_recent x))])
  ["RETSRA"; "thunderstorm"; "rain"; "None"; "None"] = true.
Proof. vm_compute. reflexivity. Qed.

(** docs.md:713-746 *)
Example doc_windshear : shows (metar "METAR MROC 202000Z 12013G23KT 9999 FEW040 SCT100 27/16 A2997 WS R07L WS R25C NOSIG") (fun x =>
    b (all_runways (gl_list (me_ws x))) :: map o (windshear_names (gl_list (me_ws x)))
    ++ flat_map (fun w => [o (ws_code w); b (ws_all_ w); o (ws_name w)]) (gl_list (me_ws x)))
  ["False"; "07 left"; "25 center"; "WS R07L"; "False"; "07 left"; "WS R25C"; "False"; "25 center"] = true.
Proof. vm_compute. reflexivity. Qed.

(** docs.md:765-784 *)
Example doc_sea : shows (metar "METAR LXGB 201950Z AUTO 09012KT 9999 BKN080/// 14/07 Q1016 RERA W20/S5") (fun x =>
    [o (se_code (me_sea x)); o (se_state (me_sea x)); f (se_temp (me_sea x)); f (in_kelvin (se_temp (me_sea x))); f (in_fahrenheit (se_temp (me_sea x))); f (in_inches (se_height (me_sea x)))])
  ["W20/S5"; "rough"; "20.0"; "293.15"; "68.0"; "None"] = true.
Proof. vm_compute. reflexivity. Qed.

(** docs.md:801-826 *)
Example doc_runway : shows (metar "METAR PANC 210353Z 01006KT 10SM FEW045 BKN070 OVC100 M05/M17 A2965 R10R/527650") (fun x =>
    [o (rs_code (me_rwy x)); o (rs_name (me_rwy x)); o (rs_deposits (me_rwy x)); o (rs_depth (me_rwy x)); o (rs_contamination (me_rwy x)); o (rs_friction (me_rwy x));
     b (rs_snoclo (me_rwy x)); o (rs_clrd_text (me_rwy x))])
  ["R10R/527650"; "10 right"; "wet snow"; "76 mm"; "11%-25% of runway"; "0.50"; "False"; "None"] = true.
Proof. vm_compute. reflexivity. Qed.

(** docs.md:864-890; the degree sign is character 176 *)
Definition plain_degree (s : str) : str := replace [176%N] (py "*") s.
Example doc_trend : shows (metar "METAR BIAR 190800Z 20015KT 9999 FEW049 BKN056 10/03 Q1016 BECMG 25010G20KT 5000 RA SCT010 BKN015") (fun x =>
    flat_map (fun p => [o (cp_code p); trend_ind_str (cp_ind p); plain_degree (metar_wind_str (c_wind (cp_common p))); prevailing_str (c_vis (cp_common p));
      join (py " | ") (map weather_str (gl_list (c_weathers (cp_common p)))); join (py " | ") (map cloud_str (gl_list (c_clouds (cp_common p))))]) (gl_list (me_trends x)))
  ["BECMG 25010G20KT 5000 RA SCT010 BKN015"; "becoming from 2022-09-19 08:00:00 until 2022-09-19 10:00:00"; "WSW (250.0*) 10.0 kt gust of 20.0 kt"; "5.0 km"; "rain";
   "scattered at 1000.0 feet | broken at 1500.0 feet"] = true.
Proof. vm_compute. reflexivity. Qed.

(** docs.md:974-987, 1023-1034 *)
Example doc_taf_head :
  shows (taf "TAF SKBO 261630Z NIL" 2022 9) (fun x => [o (mo_code (mi_mod (ta_missing x))); o (mo_desc (mi_mod (ta_missing x))); b (mi_missing (ta_missing x))])
    ["NIL"; "Missing report"; "True"] = true
  /\ shows (taf "KATL 251958Z 2520/2624 CNL" 2022 9) (fun x => [o (ca_code (ta_cancelled x)); b (ca_cancelled (ta_cancelled x))]) ["CNL"; "True"] = true.
Proof. conjs; vm_compute; reflexivity. Qed.

(** docs.md:901-909, 1001-1013 *)
Definition katl := py "KATL 251958Z 2520/2624 27009KT P6SM VCSH FEW040 BKN120" ++ [10%N] ++ py "  FM260100 28005KT P6SM SCT060 SCT120" ++ [10%N]
  ++ py "  FM260800 32004KT P6SM FEW150" ++ [10%N] ++ py "  FM261500 32011G18KT P6SM SKC".
Example doc_valid : shows (taf_parse E katl (Some 2022%Z) (Some 3%Z) false) (fun x =>
    [time_str (va_from (ta_valid x)); time_str (va_until (ta_valid x)); z (va_duration (ta_valid x) / 60)])
  ["2022-03-25 20:00:00"; "2022-03-27 00:00:00"; "28"] = true.
Proof. vm_compute. reflexivity. Qed.

(** docs.md:1054-1092 *)
Definition rkny := py "TAF AMD RKNY 021725Z 0218/0324 26017G35KT CAVOK TX07/0305Z TNM03/0321Z" ++ [10%N] ++ py "        BECMG 0223/0224 27010KT" ++ [10%N]
  ++ py "        BECMG 0302/0303 03006KT" ++ [10%N] ++ py "        BECMG 0308/0309 23006KT".
Example doc_temperature : shows (taf_parse E rkny (Some 2022%Z) (Some 9%Z) false) (fun x =>
    flat_map (fun t => [o (tt_code t); f (tt_value t); f (in_kelvin (tt_value t)); time_str (tt_time t)]) (gl_list (ta_max x) ++ gl_list (ta_min x)))
  ["TX07/0305Z"; "7.0"; "280.15"; "2022-09-03 05:00:00"; "TNM03/0321Z"; "-3.0"; "270.15"; "2022-09-03 21:00:00"] = true.
Proof. vm_compute. reflexivity. Qed.

(** docs.md:1127-1161 *)
Example doc_changes : shows (taf_parse E katl (Some 2022%Z) (Some 10%Z) false) (fun x =>
    flat_map (fun p => [o (cf_code p); translation_str (tc_trans (cf_ind p)); plain_degree (metar_wind_str (c_wind (cf_common p))); prevailing_str (c_vis (cf_common p));
      join (py " | ") (map weather_str (gl_list (c_weathers (cf_common p)))); join (py " | ") (map cloud_str (gl_list (c_clouds (cf_common p))))]) (gl_list (ta_changes x)))
  ["FM260100 28005KT P6SM SCT060 SCT120"; "from 2022-10-26 01:00:00 until 2022-10-26 07:00:00"; "W (280.0*) 5.0 kt"; "11.1 km"; ""; "scattered at 6000.0 feet | scattered at 12000.0 feet";
   "FM260800 32004KT P6SM FEW150"; "from 2022-10-26 08:00:00 until 2022-10-26 14:00:00"; "NW (320.0*) 4.0 kt"; "11.1 km"; ""; "a few at 15000.0 feet";
   "FM261500 32011G18KT P6SM SKC"; "from 2022-10-26 15:00:00 until 2022-10-27 00:00:00"; "NW (320.0*) 11.0 kt gust of 18.0 kt"; "11.1 km"; ""; "clear"] = true.
Proof. vm_compute. reflexivity. Qed.

(** Where the documentation is wrong: docs.md:926-938 lists SKC among the
    failed groups, README.md:67 says 1014.0 hPa for A2994, docs.md:995-998
    says that a missing validity is the current day (see C63_taf_month). *)
Definition bad_katl := py "KATL 251958Z 2520/2624 27009KT P6SM VCHS FEW040 BKN120" ++ [10%N] ++ py "  FM260100 28005KT P6SM SCT060 SCT120" ++ [10%N]
  ++ py "  FM260800 32004KT P6SM FEW150" ++ [10%N] ++ py "  FM261500 32011G18KT P6SM SKC".
Example doc_wrong :
  match taf_error E bad_katl None None with
  | Some t => str_eqb t (py "failed while processing VCHS from: KATL 251958Z 2520/2624 27009KT P6SM VCHS FEW040 BKN120 FM260100 28005KT P6SM SCT060 SCT120 FM260800 32004KT P6SM FEW150 FM261500 32011G18KT P6SM SKC")
  | None => false end = true
  /\ shows (metar "METAR MROC 071200Z 10018KT 3000 R07/P2000N BR VV003 17/09 A2994 RESHRA NOSIG") (fun x =>
       [f (w_speed (c_wind (me_common x))); f (dir_value (w_dir (c_wind (me_common x)))); f (te_temp (me_temps x)); f (pr_value (me_press x))])
       ["18.0"; "100.0"; "17.0"; "1013.884185574"] = true
  /\ shows (taf "TAF SKBO 261630Z NIL" 2022 9) (fun x => [time_str (va_from (ta_valid x)); time_str (va_until (ta_valid x))])
       ["2022-09-01 01:00:00"; "2022-09-02 01:00:00"] = true.
Proof. conjs; vm_compute; reflexivity. Qed.
