(** * Properties C15-C18, C20-C23, C25-C29, C54: what the groups decode to *)
From Coq Require Import String Ascii.
From Coq Require Import List NArith ZArith Bool Lia QArith.
From Verif Require Import PyBase PyRegex AeroRegex PyFloat Base MetarGroups SpecNum SpecGroups
  ProofValues ProofValues2 ProofValues3.
Import ListNotations.
Local Open Scope string_scope.
Local Open Scope nat_scope.
Local Open Scope list_scope.

(** In each theorem a group of the documented form ([X_wf]) is written out
    ([X_code]), matched with the pattern of the group and given to the
    constructor, as the handlers do. *)

(** ** C15: wind in knots *)

Theorem C15_wind_knots : forall g, wind_wf g -> wg_units g = KT ->
  exists w, metar_wind_new (re_match r_WIND (wind_code g)) = Ok w
    /\ w_code w = Some (wind_code g)
    /\ opt_num (dir_value (w_dir w)) (degrees (wg_dir g))
    /\ dir_variable (w_dir w) = is_vrb (wg_dir g)
    /\ opt_num (w_speed w) (coded_speed (wg_speed g))
    /\ opt_num (w_gust w) (coded_gust (wg_gust g)).
Proof. exact wind_kt. Qed.
Print Assumptions C15_wind_knots.

Example C15_case :
  let g := mk_wind_g (DirDeg 27) (Spd false false 8) (Some (true, true, 100)%N) KT in
  wind_wf g /\ wind_code g = py "27008GP100KT".
Proof. split; [|reflexivity]. cbv. repeat split; congruence. Qed.

(** ** C16: wind in metres per second *)

Theorem C16_wind_mps : forall g, wind_wf g -> wg_units g = MPS ->
  exists w, metar_wind_new (re_match r_WIND (wind_code g)) = Ok w
    /\ w_code w = Some (wind_code g)
    /\ opt_num (dir_value (w_dir w)) (degrees (wg_dir g))
    /\ dir_variable (w_dir w) = is_vrb (wg_dir g)
    /\ opt_close (1 # 10 ^ 15) (w_speed w) (knots (coded_speed (wg_speed g)))
    /\ opt_close (1 # 10 ^ 15) (w_gust w) (knots (coded_gust (wg_gust g)))
    /\ opt_within (1 # 10 ^ 9) (in_mps (w_speed w)) (coded_speed (wg_speed g))
    /\ opt_within (1 # 10 ^ 9) (in_mps (w_gust w)) (coded_gust (wg_gust g)).
Proof. exact wind_mps. Qed.
Print Assumptions C16_wind_mps.

Example C16_case :
  let g := mk_wind_g DirVrb (Spd false false 3) None MPS in
  wind_wf g /\ wind_code g = py "VRB03MPS".
Proof. split; [|reflexivity]. cbv. repeat split. Qed.

(** ** C17 and C18: visibility *)

(** [vis_close] is equality with [vis_meters] except for miles, where it
    allows 1e-6 m. *)
Theorem C17_C18_prevailing : forall g, vis_wf g ->
  exists v, prevailing_new (re_match r_VISIBILITY (vis_code g)) = Ok v
    /\ v_code v = Some (vis_spelled g)
    /\ vis_close g (v_vis v)
    /\ opt_num (dir_value (v_dir v)) (vis_degrees g)
    /\ dir_variable (v_dir v) = false
    /\ v_cavok v = is_cavok g.
Proof. exact prevailing_ok. Qed.
Print Assumptions C17_C18_prevailing.

Theorem C17_minimum : forall g, vis_wf g -> min_vis g ->
  exists v, minimum_visibility_new (re_match r_MINIMUM_VISIBILITY (vis_code g)) = Ok v
    /\ v_code v = Some (vis_code g)
    /\ opt_num (v_vis v) (vis_meters g)
    /\ opt_num (dir_value (v_dir v)) (vis_degrees g)
    /\ dir_variable (v_dir v) = false
    /\ v_cavok v = false.
Proof. exact minimum_ok. Qed.
Print Assumptions C17_minimum.

Example C17_case :
  let g := VisMeters 9999 (Some ("SW", 225%Z)) in
  vis_wf g /\ min_vis g /\ vis_code g = py "9999SW" /\ vis_meters g = Some (10000 # 1)%Q.
Proof. split; [|repeat split; reflexivity]. split; [reflexivity|]. simpl. tauto. Qed.
Example C18_case :
  let g := VisMiles (Some true) (Some (false, 2)%N) (Some (1, 2)%N) in
  vis_wf g /\ vis_code g = py "M2_1/2SM" /\ vis_spelled g = py "M2 1/2SM"
  /\ (miles (Some (false, 2)%N) (Some (1, 2)%N) == 5 # 2)%Q.
Proof.
  split; [|repeat split; reflexivity]. split; [reflexivity|]. split; [|left; discriminate].
  cbn. lia.
Qed.

(** ** C20: temperatures *)

Theorem C20_temperatures : forall g, temps_wf g ->
  exists t, temperatures_new (re_match r_TEMPERATURES (temps_code g)) = Ok t
    /\ te_code t = Some (temps_code g)
    /\ temp_is (te_temp t) (celsius (tg_temp g))
    /\ temp_is (te_dewpt t) (celsius (tg_dewpt g)).
Proof. exact temps_ok. Qed.
Print Assumptions C20_temperatures.

Example C20_case :
  let g := mk_temps_g (TValue (Some true) 5) (TMissing "XX") in
  temps_wf g /\ temps_code g = py "M05/XX".
Proof. split; [|reflexivity]. split; [reflexivity|]. simpl. tauto. Qed.

(** ** C21 and C22: pressure *)

Theorem C21_hectopascals : forall g, press_wf g ->
  pg_prefix g = PfQ \/ pg_prefix g = PfQNH -> pg_ins g = false ->
  exists p, metar_pressure_new (re_match r_PRESSURE (press_code g)) = Ok p
    /\ pr_code p = Some (press_code g) /\ opt_num (pr_value p) (option_map ofN (pg_value g)).
Proof. exact press_Q_ok. Qed.
Print Assumptions C21_hectopascals.

Theorem C21_inches : forall g, press_wf g -> pg_prefix g = PfA \/ pg_ins g = true ->
  exists p, metar_pressure_new (re_match r_PRESSURE (press_code g)) = Ok p
    /\ pr_code p = Some (press_code g)
    /\ opt_within (1 # 10 ^ 9) (pr_value p)
         (option_map (fun n => ofN n / (100 # 1) / (2953 # 100000))%Q (pg_value g)).
Proof. exact press_A_ok. Qed.
Print Assumptions C21_inches.

Example C21_case :
  press_wf (mk_press_g PfQ (Some 1013%N) false)
  /\ press_code (mk_press_g PfQ (Some 1013%N) false) = py "Q1013"
  /\ press_wf (mk_press_g PfNone (Some 2992%N) true)
  /\ press_code (mk_press_g PfNone (Some 2992%N) true) = py "2992INS".
Proof. repeat split. Qed.

(** Missing from C22: the same with the A group above 2500, which is false. *)
Theorem C22_unitless_partial : forall n, (n <= 2500)%N ->
  exists p q, metar_pressure_new (re_match r_PRESSURE (press_code (mk_press_g PfNone (Some n) false))) = Ok p
    /\ metar_pressure_new (re_match r_PRESSURE (press_code (mk_press_g PfQ (Some n) false))) = Ok q
    /\ pr_value p = pr_value q.
Proof. exact press_none_ok. Qed.
Print Assumptions C22_unitless_partial.

(** 2992 gives more than a hundred thousand hectopascals. *)
Theorem C22_unitless_refuted : exists p q,
  metar_pressure_new (re_match r_PRESSURE (py "2992")) = Ok p
  /\ metar_pressure_new (re_match r_PRESSURE (py "A2992")) = Ok q
  /\ within (1 # 1) (pr_value p) (101320 # 1) /\ within (1 # 1) (pr_value q) (1013 # 1).
Proof. exact press_2992. Qed.
Print Assumptions C22_unitless_refuted.

(** ** C23: clouds *)

Theorem C23_clouds : forall g, cloud_wf g ->
  exists c, cloud_from_metar (re_match r_CLOUD (cloud_code g)) = Ok c
    /\ cl_code c = Some (cloud_code g)
    /\ cl_cover c = Some (py (snd (fst (cg_cover g))))
    /\ cl_oktas c = Some (py (snd (cg_cover g)))
    /\ cl_type c = type_text (cg_type g)
    /\ opt_within (1 # 10 ^ 9) (cl_height c) (height_meters (cg_height g))
    /\ opt_within (1 # 10 ^ 9) (cl_feet c) (height_feet (cg_height g)).
Proof. exact cloud_ok. Qed.
Print Assumptions C23_clouds.

Example C23_case :
  let g := mk_cloud_g ("BKN", "broken", "5-7") (HtHundreds 15) TyCB in
  cloud_wf g /\ cloud_code g = py "BKN015CB".
Proof.
  split; [|reflexivity]. split; [simpl; tauto|]. split; [reflexivity|]. intros [H _]; discriminate H.
Qed.

(** ** C25: runway visual range *)

Theorem C25_runway_range : forall g, rvr_wf g ->
  exists r, runway_range_new (re_match r_RUNWAY_RANGE (rvr_code g)) = Ok r
    /\ rr_code r = Some (rvr_code g)
    /\ rr_name r = Some (runway_name (rg_runway g))
    /\ within (1 # 10 ^ 9) (rr_low r) (rvr_meters (rg_feet g) (rg_low g))
    /\ opt_within (1 # 10 ^ 9) (rr_high r) (high_meters g)
    /\ rr_rvr_low r = option_map text_of (rg_lim_low g)
    /\ rr_rvr_high r = option_map text_of (high_limit g)
    /\ rr_trend r = option_map text_of (rg_trend g).
Proof. exact rvr_ok. Qed.
Print Assumptions C25_runway_range.

Example C25_case :
  let g := mk_rvr_g (mk_runway 6 (Some ("L", "left"))) (Some ("M", "below of")) (4, 600%N)
             (Some (Some ("P", "above of"), (4, 1200%N))) true (Some ("U", "increasing")) in
  rvr_wf g /\ rvr_code g = py "R06L/M0600VP1200FTU" /\ runway_name (rg_runway g) = py "06 left".
Proof.
  split; [|split; reflexivity]. repeat split; cbn; try tauto; try lia; reflexivity.
Qed.

(** ** C26: weather *)

Theorem C26_weather : forall g, weather_wf g ->
  let w := weather_new (re_match r_WEATHER (weather_code g)) in
  we_code w = Some (weather_code g)
  /\ we_int w = option_map text_of (xg_int g) /\ we_desc w = option_map text_of (xg_desc g)
  /\ we_prec w = ph_prec g /\ we_obsc w = ph_obsc g /\ we_other w = ph_other g
  /\ weather_str w = spaced [option_map text_of (xg_int g); option_map text_of (xg_desc g);
                             ph_prec g; ph_obsc g; ph_other g].
Proof. exact weather_ok. Qed.
Print Assumptions C26_weather.

Example C26_case :
  let g := mk_weather_g (Some ("+", "heavy")) (Some ("TS", "thunderstorm"))
             (Some (PhPrec ("RA", "rain"))) in
  weather_wf g /\ weather_code g = py "+TSRA"
  /\ weather_str (weather_new (re_match r_WEATHER (weather_code g))) = py "heavy thunderstorm rain".
Proof. split; [|split; vm_compute; reflexivity]. repeat split; cbn; tauto. Qed.

(** ** C27: recent weather *)

Theorem C27_recent : forall g, recent_wf g ->
  let w := recent_weather_new (re_match r_RECENT_WEATHER (recent_code g)) in
  rw_code w = Some (recent_code g)
  /\ rw_desc w = option_map text_of (eg_desc g) /\ rw_prec w = option_map text_of (eg_prec g)
  /\ rw_obsc w = option_map text_of (eg_obsc g) /\ rw_other w = option_map text_of (eg_other g).
Proof. exact recent_ok. Qed.
Print Assumptions C27_recent.

Example C27_case :
  let g := mk_recent_g (Some ("SH", "showers")) (Some ("SN", "snow")) None None in
  recent_wf g /\ recent_code g = py "RESHSN".
Proof. split; [|reflexivity]. repeat split; cbn; tauto. Qed.

(** ** C28: windshear *)

Theorem C28_windshear_group : forall g, ws_wf g ->
  let w := windshear_new (re_match r_WINDSHEAR (ws_token g)) in
  MetarGroups.ws_code w = Some (SpecGroups.ws_code g) /\ ws_name w = ws_name_of g
  /\ ws_all_ w = ws_is_all g.
Proof. exact ws_ok. Qed.
Print Assumptions C28_windshear_group.

(** The list of a report: [all_runways] and [names]. *)
Theorem C28_windshear_list : forall gs, Forall ws_wf gs ->
  let ws := map (fun g => windshear_new (re_match r_WINDSHEAR (ws_token g))) gs in
  (all_runways ws = true <-> gs = [WsAll])
  /\ (gs <> [WsAll] -> windshear_names ws = map ws_name_of gs)
  /\ (gs = [WsAll] -> windshear_names ws = []).
Proof. exact ws_list_ok. Qed.
Print Assumptions C28_windshear_list.

Example C28_case :
  let gs := [WsRunway (mk_runway 7 (Some ("C", "center"))); WsRunway (mk_runway 25 None)] in
  Forall ws_wf gs /\ map ws_token gs = [py "WS_R07C"; py "WS_R25"]
  /\ map ws_name_of gs = [Some (py "07 center"); Some (py "25")].
Proof. split; [|split; reflexivity]. repeat constructor; cbn; tauto. Qed.

(** ** C29: sea state and runway state *)

Theorem C29_sea_state : forall g, sea_wf g ->
  exists s, sea_state_new (re_match r_SEA_STATE (sea_code g)) = Ok s
    /\ se_code s = Some (sea_code g)
    /\ is_num (se_temp s) (sea_celsius g)
    /\ se_state s = sea_text_of g
    /\ opt_within (1 # 10 ^ 9) (se_height s) (sea_height_dm g).
Proof. exact sea_ok. Qed.
Print Assumptions C29_sea_state.

Theorem C29_runway_state : forall g, rs_wf g ->
  let r := runway_state_new (re_match r_RUNWAY_STATE (rs_code_of g)) in
  rs_code r = Some (rs_code_of g)
  /\ rs_name r = option_map runway_name (sg_runway g)
  /\ rs_deposits r = rs_deposit_of (sg_state g)
  /\ rs_contamination r = rs_cont_of (sg_state g)
  /\ rs_depth r = rs_depth_of (sg_state g)
  /\ rs_friction r = rs_friction_of (sg_state g)
  /\ rs_snoclo r = is_snoclo (sg_state g)
  /\ rs_clrd r = is_clrd (sg_state g).
Proof. exact rs_ok. Qed.
Print Assumptions C29_runway_state.

Example C29_case :
  let g := mk_sea_g true 1 (SeaState ("3", "slight")) in
  let h := mk_rs_g (Some (mk_runway 88 None))
             (RsCodes ("4", "dry snow") ("5", Some "26%-50% of runway") (Some 12%N) (Some 30%N)) in
  sea_wf g /\ sea_code g = py "WM01/S3" /\ rs_wf h /\ rs_code_of h = py "R88/451230"
  /\ depth_text (Some 12%N) = py "12 mm" /\ friction_text (Some 30%N) = py "0.30".
Proof.
  split; [split; cbn; [reflexivity|tauto]|]. split; [reflexivity|]. split; [|repeat split; reflexivity].
  repeat split; cbn; try tauto; reflexivity.
Qed.

(** ** C54: wind variation *)

Theorem C54_wind_variation : forall g, wvar_wf g ->
  exists w, wind_variation_new (re_match r_WIND_VARIATION (wvar_code g)) = Ok w
    /\ wv_code w = Some (wvar_code g)
    /\ is_num (dir_value (wv_from w)) (ofN (10 * vg_from g))
    /\ is_num (dir_value (wv_to w)) (ofN (10 * vg_to g))
    /\ dir_variable (wv_from w) = false /\ dir_variable (wv_to w) = false.
Proof. exact wvar_ok. Qed.
Print Assumptions C54_wind_variation.

Example C54_case : wvar_wf (mk_wvar_g 35 4) /\ wvar_code (mk_wvar_g 35 4) = py "350V040".
Proof. split; [|reflexivity]. cbv. repeat split; congruence. Qed.
