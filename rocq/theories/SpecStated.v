(** * What the groups of an accepted report say (C78): specification vocabulary *)
From Coq Require Import String Ascii.
From Coq Require Import List NArith ZArith Bool QArith.
From Verif Require Import PyBase PyFloat PyTime Base MetarGroups SpecNum SpecKept SpecGroups SpecTime SpecGrammar SpecByCode.
Import ListNotations.
Local Open Scope string_scope.
Local Open Scope nat_scope.
Local Open Scope list_scope.

(** Every group of the list that has a code says what the code means. *)
Definition explained {A} (code : A -> option str) (says : str -> A -> Prop) (l : list A) : Prop :=
  forall a c, In a l -> code a = Some c -> typed c -> says c a.

(** ** Values of documented groups *)

Definition speed_is (u : wunits) (v : option float) (q : option Q) : Prop :=
  match u with KT => opt_num v q | MPS => opt_close (1 # 10 ^ 15) v (knots q) end.
Definition wind_is (g : wind_g) (w : metar_wind) : Prop :=
  opt_num (dir_value (w_dir w)) (degrees (wg_dir g)) /\ dir_variable (w_dir w) = is_vrb (wg_dir g)
  /\ speed_is (wg_units g) (w_speed w) (coded_speed (wg_speed g)) /\ speed_is (wg_units g) (w_gust w) (coded_gust (wg_gust g)).
Definition wvar_is (g : wvar_g) (w : wind_variation) : Prop :=
  is_num (dir_value (wv_from w)) (ofN (10 * vg_from g)) /\ is_num (dir_value (wv_to w)) (ofN (10 * vg_to g))
  /\ dir_variable (wv_from w) = false /\ dir_variable (wv_to w) = false.
Definition vis_is (g : vis_g) (v : visibility) : Prop :=
  vis_close g (v_vis v) /\ opt_num (dir_value (v_dir v)) (vis_degrees g) /\ dir_variable (v_dir v) = false /\ v_cavok v = is_cavok g.
Definition rvr_is (g : rvr_g) (r : runway_range) : Prop :=
  rr_name r = Some (runway_name (rg_runway g))
  /\ within (1 # 10 ^ 9) (rr_low r) (rvr_meters (rg_feet g) (rg_low g)) /\ opt_within (1 # 10 ^ 9) (rr_high r) (high_meters g)
  /\ rr_rvr_low r = option_map text_of (rg_lim_low g) /\ rr_rvr_high r = option_map text_of (high_limit g)
  /\ rr_trend r = option_map text_of (rg_trend g).
Definition weather_is (g : weather_g) (w : weather) : Prop :=
  we_int w = option_map text_of (xg_int g) /\ we_desc w = option_map text_of (xg_desc g)
  /\ we_prec w = ph_prec g /\ we_obsc w = ph_obsc g /\ we_other w = ph_other g.
Definition recent_is (g : recent_g) (w : recent_weather) : Prop :=
  rw_desc w = option_map text_of (eg_desc g) /\ rw_prec w = option_map text_of (eg_prec g)
  /\ rw_obsc w = option_map text_of (eg_obsc g) /\ rw_other w = option_map text_of (eg_other g).
Definition cloud_is (g : cloud_g) (c : cloud) : Prop :=
  cl_cover c = Some (py (snd (fst (cg_cover g)))) /\ cl_oktas c = Some (py (snd (cg_cover g))) /\ cl_type c = type_text (cg_type g)
  /\ opt_within (1 # 10 ^ 9) (cl_height c) (height_meters (cg_height g)) /\ opt_within (1 # 10 ^ 9) (cl_feet c) (height_feet (cg_height g)).
Definition temps_is (g : temps_g) (t : temperatures) : Prop :=
  temp_is (te_temp t) (celsius (tg_temp g)) /\ temp_is (te_dewpt t) (celsius (tg_dewpt g)).
(** Without a prefix and without INS, four digits above 2500 are divided by
    0.02953 as if they were inches (C22). *)
Definition hectopascals (g : press_g) (p : option float) : Prop :=
  match pg_prefix g, pg_ins g with
  | PfA, _ | _, true => opt_within (1 # 10 ^ 9) p (option_map (fun n => ofN n / (100 # 1) / (2953 # 100000))%Q (pg_value g))
  | PfNone, false =>
      match pg_value g with
      | Some n => if (n <=? 2500)%N then is_num p (ofN n) else within (1 # 10 ^ 9) p (ofN n / (2953 # 100000))%Q
      | None => p = None
      end
  | _, _ => opt_num p (option_map ofN (pg_value g))
  end.
Definition shear_is (g : ws_g) (w : windshear) : Prop := ws_name w = ws_name_of g /\ ws_all_ w = ws_is_all g.
Definition sea_is (g : sea_g) (s : sea_state) : Prop :=
  is_num (se_temp s) (sea_celsius g) /\ se_state s = sea_text_of g /\ opt_within (1 # 10 ^ 9) (se_height s) (sea_height_dm g).
Definition rwy_is (g : rs_g) (r : runway_state) : Prop :=
  rs_name r = option_map runway_name (sg_runway g) /\ rs_deposits r = rs_deposit_of (sg_state g)
  /\ rs_contamination r = rs_cont_of (sg_state g) /\ rs_depth r = rs_depth_of (sg_state g) /\ rs_friction r = rs_friction_of (sg_state g)
  /\ rs_snoclo r = is_snoclo (sg_state g) /\ rs_clrd r = is_clrd (sg_state g).

(** ** What is left beyond the documented groups *)

(** Of the odd visibilities, those that are read at all. *)
Definition odd_read (c : str) : Prop :=
  exists g, long_wf g /\ long_odd g /\ c = blanked (long_code g)
    /\ ~ (lo_unit g = "SM" /\ exists a, lo_frac g = Some (a, 0%N)) /\ ~ (lo_unit g = "KM" /\ lo_int g = None /\ lo_frac g <> None).
(** A visibility and something behind it (TAF). *)
Definition run_on (c : str) : Prop :=
  exists x t, ((exists n, (n < 10000)%N /\ x = digits 4 n) \/ exists g, long_wf g /\ x = long_code g) /\ t <> [] /\ c = blanked (x ++ t).

Definition stated {G A} (wf : G -> Prop) (code : G -> str) (is : G -> A -> Prop) (c : str) (a : A) : Prop := exists g, wf g /\ c = code g /\ is g a.

Definition wind_says (c : str) (w : metar_wind) : Prop := stated wind_wf wind_code wind_is c w \/ wind_above c.
Definition taf_wind_says : str -> metar_wind -> Prop := stated wind_whole wind_code wind_is.
Definition vis_says (c : str) (v : visibility) : Prop := stated vis_wf vis_spelled vis_is c v \/ odd_read c.
Definition taf_vis_says (c : str) (v : visibility) : Prop := vis_says c v \/ run_on c.
Definition cloud_says (c : str) (a : cloud) : Prop := stated cloud_wf cloud_code cloud_is c a \/ zero_vc c.
Definition temps_says (c : str) (a : temperatures) : Prop := stated temps_wf temps_code temps_is c a \/ signed_missing c.
Definition shear_says (c : str) (a : windshear) : Prop :=
  stated ws_wf SpecGroups.ws_code shear_is c a \/ c = py "WS RWY" \/ exists r, runway_wf r /\ c = py "WS ALL R" ++ runway_code r.

(** The four kinds of groups that all parts of a report have. *)
Definition parts_say (wind : str -> metar_wind -> Prop) (vis : str -> visibility -> Prop) (l : list common) : Prop :=
  explained w_code wind (winds l) /\ explained v_code vis (sights l)
  /\ explained we_code (stated weather_wf weather_code weather_is) (phenomena l) /\ explained cl_code cloud_says (layers l).

(** ** Header groups *)

Definition time_says (y mo : Z) (c : str) (t : time) : Prop :=
  exists d h mi, day d /\ (h < 24)%N /\ (mi <= 59)%N /\ c = stamp_code d h mi /\ t_dt t = mk_dt y mo (Z.of_N d) (Z.of_N h) (Z.of_N mi).
Definition row_of (c : str) (row : list str) : Prop := nth_error row 1 = Some c.
Definition station_says (table : list (list str)) (c : str) (s : station) : Prop :=
  station_wf c /\ ((exists row, In row table /\ row_of c row /\ st_row s = map Some row) \/ ((forall row, In row table -> ~ row_of c row) /\ st_row s = repeat None 8)).
Definition modifier_says (t : table) (c : str) (a : modifier) : Prop := exists x, In x t /\ c = code_of x /\ mo_desc a = Some (text_of x).
(** The corrections and amendments of a TAF. *)
Definition taf_modifiers : table := [("COR", "Correction"); ("AMD", "Amendment")].
