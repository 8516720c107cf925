(** * Well-formed METARs: specification

    The groups of a METAR in the documented order, the text they are written
    with, and what a parsed report must hold for them. *)
From Coq Require Import String Ascii.
From Coq Require Import List NArith ZArith Bool Lia QArith.
From Verif Require Import PyBase PyFloat PyTime Base MetarGroups Trend Metar SpecNum SpecGroups SpecTime SpecText SpecWords.
Import ListNotations.
Local Open Scope string_scope.
Local Open Scope nat_scope.
Local Open Scope list_scope.

(** ** The fields of a report *)

Definition wind_is (g : wind_g) (w : metar_wind) : Prop :=
  w_code w = Some (wind_code g)
  /\ opt_num (dir_value (w_dir w)) (degrees (wg_dir g)) /\ dir_variable (w_dir w) = is_vrb (wg_dir g)
  /\ match wg_units g with
     | KT => opt_num (w_speed w) (coded_speed (wg_speed g)) /\ opt_num (w_gust w) (coded_gust (wg_gust g))
     | MPS => opt_close (1 # 10 ^ 15) (w_speed w) (knots (coded_speed (wg_speed g)))
              /\ opt_close (1 # 10 ^ 15) (w_gust w) (knots (coded_gust (wg_gust g)))
              /\ opt_within (1 # 10 ^ 9) (in_mps (w_speed w)) (coded_speed (wg_speed g))
              /\ opt_within (1 # 10 ^ 9) (in_mps (w_gust w)) (coded_gust (wg_gust g))
     end.
Definition wvar_is (g : wvar_g) (w : wind_variation) : Prop :=
  wv_code w = Some (wvar_code g)
  /\ is_num (dir_value (wv_from w)) (ofN (10 * vg_from g)) /\ is_num (dir_value (wv_to w)) (ofN (10 * vg_to g))
  /\ dir_variable (wv_from w) = false /\ dir_variable (wv_to w) = false.
Definition vis_is (g : vis_g) (v : visibility) : Prop :=
  v_code v = Some (vis_spelled g) /\ vis_close g (v_vis v)
  /\ opt_num (dir_value (v_dir v)) (vis_degrees g) /\ dir_variable (v_dir v) = false /\ v_cavok v = is_cavok g.
Definition rvr_is (g : rvr_g) (r : runway_range) : Prop :=
  rr_code r = Some (rvr_code g) /\ rr_name r = Some (runway_name (rg_runway g))
  /\ within (1 # 10 ^ 9) (rr_low r) (rvr_meters (rg_feet g) (rg_low g))
  /\ opt_within (1 # 10 ^ 9) (rr_high r) (high_meters g)
  /\ rr_rvr_low r = option_map text_of (rg_lim_low g) /\ rr_rvr_high r = option_map text_of (high_limit g)
  /\ rr_trend r = option_map text_of (rg_trend g).
Definition weather_is (g : weather_g) (w : weather) : Prop :=
  we_code w = Some (weather_code g)
  /\ we_int w = option_map text_of (xg_int g) /\ we_desc w = option_map text_of (xg_desc g)
  /\ we_prec w = ph_prec g /\ we_obsc w = ph_obsc g /\ we_other w = ph_other g
  /\ weather_str w = spaced [option_map text_of (xg_int g); option_map text_of (xg_desc g);
                             ph_prec g; ph_obsc g; ph_other g].
Definition cloud_is (g : cloud_g) (c : cloud) : Prop :=
  cl_code c = Some (cloud_code g) /\ cl_cover c = Some (py (snd (fst (cg_cover g))))
  /\ cl_oktas c = Some (py (snd (cg_cover g))) /\ cl_type c = type_text (cg_type g)
  /\ opt_within (1 # 10 ^ 9) (cl_height c) (height_meters (cg_height g))
  /\ opt_within (1 # 10 ^ 9) (cl_feet c) (height_feet (cg_height g)).
Definition temps_is (g : temps_g) (t : temperatures) : Prop :=
  te_code t = Some (temps_code g)
  /\ temp_is (te_temp t) (celsius (tg_temp g)) /\ temp_is (te_dewpt t) (celsius (tg_dewpt g)).
(** Inches of mercury (A, or INS) or hectopascals. *)
Definition in_inches (g : press_g) : bool :=
  match pg_prefix g with PfA => true | _ => pg_ins g end.
Definition press_is (g : press_g) (p : pressure) : Prop :=
  pr_code p = Some (press_code g)
  /\ if in_inches g
     then opt_within (1 # 10 ^ 9) (pr_value p)
            (option_map (fun n => ofN n / (100 # 1) / (2953 # 100000))%Q (pg_value g))
     else opt_num (pr_value p) (option_map ofN (pg_value g)).
Definition recent_is (g : recent_g) (w : recent_weather) : Prop :=
  rw_code w = Some (recent_code g)
  /\ rw_desc w = option_map text_of (eg_desc g) /\ rw_prec w = option_map text_of (eg_prec g)
  /\ rw_obsc w = option_map text_of (eg_obsc g) /\ rw_other w = option_map text_of (eg_other g).
Definition ws_is (g : ws_g) (w : windshear) : Prop :=
  MetarGroups.ws_code w = Some (SpecGroups.ws_code g) /\ ws_name w = ws_name_of g /\ ws_all_ w = ws_is_all g.
Definition sea_is (g : sea_g) (s : sea_state) : Prop :=
  se_code s = Some (sea_code g) /\ is_num (se_temp s) (sea_celsius g) /\ se_state s = sea_text_of g
  /\ opt_within (1 # 10 ^ 9) (se_height s) (sea_height_dm g).
Definition rs_is (g : rs_g) (r : runway_state) : Prop :=
  rs_code r = Some (rs_code_of g) /\ rs_name r = option_map runway_name (sg_runway g)
  /\ rs_deposits r = rs_deposit_of (sg_state g) /\ rs_contamination r = rs_cont_of (sg_state g)
  /\ rs_depth r = rs_depth_of (sg_state g) /\ rs_friction r = rs_friction_of (sg_state g)
  /\ rs_snoclo r = is_snoclo (sg_state g) /\ rs_clrd r = is_clrd (sg_state g).
Definition modifier_is (x : string * string) (m : modifier) : Prop :=
  mo_code m = Some (code_of x) /\ mo_desc m = Some (text_of x).

(** Nothing was reported. *)
Definition no_modifier (m : modifier) : Prop := mo_code m = None /\ mo_desc m = None.
Definition no_wind (w : metar_wind) : Prop :=
  w_code w = None /\ dir_value (w_dir w) = None /\ dir_variable (w_dir w) = false /\ w_speed w = None /\ w_gust w = None.
Definition no_wvar (w : wind_variation) : Prop :=
  wv_code w = None /\ dir_value (wv_from w) = None /\ dir_value (wv_to w) = None
  /\ dir_variable (wv_from w) = false /\ dir_variable (wv_to w) = false.
Definition no_vis (v : visibility) : Prop :=
  v_code v = None /\ v_vis v = None /\ dir_value (v_dir v) = None /\ dir_variable (v_dir v) = false /\ v_cavok v = false.
Definition no_temps (t : temperatures) : Prop := te_code t = None /\ te_temp t = None /\ te_dewpt t = None.
Definition no_press (p : pressure) : Prop := pr_code p = None /\ pr_value p = None.
Definition no_recent (w : recent_weather) : Prop :=
  rw_code w = None /\ rw_desc w = None /\ rw_prec w = None /\ rw_obsc w = None /\ rw_other w = None.
Definition no_sea (s : sea_state) : Prop :=
  se_code s = None /\ se_temp s = None /\ se_state s = None /\ se_height s = None.
Definition no_rs (r : runway_state) : Prop :=
  rs_code r = None /\ rs_name r = None /\ rs_deposits r = None /\ rs_contamination r = None
  /\ rs_depth r = None /\ rs_friction r = None /\ rs_snoclo r = false /\ rs_clrd r = false.

(** A field holds its group, or nothing if the group is absent. *)
Definition holds {A B} (is : A -> B -> Prop) (no : B -> Prop) (o : option A) (v : B) : Prop :=
  match o with Some g => is g v | None => no v end.

(** ** The report *)

Record metar_g := mk_metar_g {
  g_type : string * string;
  g_station : str;
  g_day : N; g_hour : N; g_minute : N;
  g_modifier : option (string * string);
  g_wind : option wind_g;
  g_wvar : option wvar_g;
  g_vis : option vis_g;
  g_minvis : option vis_g;
  g_rvrs : list rvr_g;
  g_weathers : list weather_g;
  g_clouds : list cloud_g;
  g_temps : option temps_g;
  g_press : list press_g;
  g_recent : option recent_g;
  g_ws : list (bool * ws_g);               (* with: written RWYnn, not Rnn *)
  g_sea : option sea_g;
  g_rwy : option rs_g
}.

Definition of_option {A B} (f : A -> B) (o : option A) : list B :=
  match o with Some x => [f x] | None => [] end.
Definition vis_tok (g : vis_g) : mtok :=
  match g with
  | VisMiles _ (Some (two, n)) (Some (a, b)) => MMixed two n a b
  | _ => MWord (vis_code g)
  end.

(** The groups after the type. *)
Definition metar_toks (g : metar_g) : list mtok :=
  [MWord (g_station g); MWord (stamp_code (g_day g) (g_hour g) (g_minute g))]
  ++ of_option (fun x => MWord (code_of x)) (g_modifier g)
  ++ of_option (fun x => MWord (wind_code x)) (g_wind g)
  ++ of_option (fun x => MWord (wvar_code x)) (g_wvar g)
  ++ of_option vis_tok (g_vis g)
  ++ of_option (fun x => MWord (vis_code x)) (g_minvis g)
  ++ map (fun x => MWord (rvr_code x)) (g_rvrs g)
  ++ map (fun x => MWord (weather_code x)) (g_weathers g)
  ++ map (fun x => MWord (cloud_code x)) (g_clouds g)
  ++ of_option (fun x => MWord (temps_code x)) (g_temps g)
  ++ map (fun x => MWord (press_code x)) (g_press g)
  ++ of_option (fun x => MWord (recent_code x)) (g_recent g)
  ++ map (fun x => MWs (fst x) (snd x)) (g_ws g)
  ++ of_option (fun x => MWord (sea_code x)) (g_sea g)
  ++ of_option (fun x => MWord (rs_code_of x)) (g_rwy g).
(** The words as they are written. *)
Definition metar_words (g : metar_g) : list str :=
  flat_map m_words (MWord (code_of (g_type g)) :: metar_toks g).

(** A prefix before a mixed number (M2 1/2SM) is not in the documented form. *)
Definition vis_spellable (g : vis_g) : Prop :=
  match g with VisMiles (Some _) (Some _) (Some _) => False | _ => True end.
(** The unit of the pressure is written. *)
Definition press_unit (g : press_g) : Prop := pg_prefix g <> PfNone \/ pg_ins g = true.

Definition metar_wf (y mo : Z) (g : metar_g) : Prop :=
  In (g_type g) [("METAR", "Meteorological Aerodrome Report"); ("SPECI", "Special Aerodrome Report")]
  /\ (station_wf (g_station g) /\ starts_with (py "RMK") (g_station g) = false)
  /\ (1000 <= y)%Z /\ real_date y mo (Z.of_N (g_day g)) /\ (g_hour g < 24)%N /\ (g_minute g < 60)%N
  /\ opt_all (fun x => In x modifiers) (g_modifier g)
  /\ opt_all wind_wf (g_wind g)
  /\ opt_all wvar_wf (g_wvar g)
  /\ opt_all (fun x => vis_wf x /\ vis_spellable x) (g_vis g)
  /\ (opt_all (fun x => vis_wf x /\ min_vis x) (g_minvis g) /\ (g_vis g = None -> g_minvis g = None))
  /\ (Forall rvr_wf (g_rvrs g) /\ length (g_rvrs g) <= 3)
  /\ (Forall (fun x => weather_wf x /\ weather_code x <> []) (g_weathers g) /\ length (g_weathers g) <= 3)
  /\ (Forall cloud_wf (g_clouds g) /\ length (g_clouds g) <= 4)
  /\ opt_all temps_wf (g_temps g)
  /\ (Forall (fun x => press_wf x /\ press_unit x) (g_press g) /\ length (g_press g) <= 2)
  /\ opt_all recent_wf (g_recent g)
  /\ (Forall (fun x => ws_wf (snd x)) (g_ws g) /\ length (g_ws g) <= 3)
  /\ opt_all sea_wf (g_sea g)
  /\ opt_all rs_wf (g_rwy g).
(** The last group is not a mixed visibility (see [C41_refuted]). *)
Definition not_last (g : metar_g) : Prop :=
  is_mixed (last (metar_toks g) (MWord [])) = false.

(** The last element of a list, if any. *)
Definition last_of {A} (l : list A) : option A := fold_left (fun _ x => Some x) l None.

(** The parsed report holds exactly the groups. *)
Definition metar_holds (y mo : Z) (g : metar_g) (x : metar) : Prop :=
  (ty_code (me_type x) = Some (code_of (g_type g)) /\ ty_type (me_type x) = Some (text_of (g_type g)))
  /\ st_code (me_station x) = Some (g_station g)
  /\ (t_code (me_time x) = Some (stamp_code (g_day g) (g_hour g) (g_minute g))
      /\ t_dt (me_time x) = mk_dt y mo (Z.of_N (g_day g)) (Z.of_N (g_hour g)) (Z.of_N (g_minute g)))
  /\ holds modifier_is no_modifier (g_modifier g) (me_modifier x)
  /\ holds wind_is no_wind (g_wind g) (c_wind (me_common x))
  /\ holds wvar_is no_wvar (g_wvar g) (me_wvar x)
  /\ holds vis_is no_vis (g_vis g) (c_vis (me_common x))
  /\ holds vis_is no_vis (g_minvis g) (me_minvis x)
  /\ Forall2 rvr_is (g_rvrs g) (gl_list (me_rvr x))
  /\ Forall2 weather_is (g_weathers g) (gl_list (c_weathers (me_common x)))
  /\ Forall2 cloud_is (g_clouds g) (gl_list (c_clouds (me_common x)))
  /\ holds temps_is no_temps (g_temps g) (me_temps x)
  /\ holds press_is no_press (last_of (g_press g)) (me_press x)
  /\ holds recent_is no_recent (g_recent g) (me_recent x)
  /\ Forall2 ws_is (map snd (g_ws g)) (gl_list (me_ws x))
  /\ holds sea_is no_sea (g_sea g) (me_sea x)
  /\ holds rs_is no_rs (g_rwy g) (me_rwy x).

(** The clock shows a year of four digits. *)
Definition clock_wf (e : env) : Prop := (1000 <= now_year e <= 9999)%Z /\ (1 <= now_month e <= 12)%Z.

(** A remark: RMK and any words that do not begin another section. *)
Definition remark_wf (ws : list str) : Prop :=
  ws = [] \/ exists us, ws = py "RMK" :: us
    /\ Forall (fun w => word w /\ ~ In 61%N w /\ ~ In 124%N w /\ begins_any section_words w = false) us.

(** The code shows the words in some layout, perhaps closed by [=]. *)
Definition shows (ws : list str) (code : str) : Prop :=
  exists a t e b, code = a ++ t ++ e ++ b /\ laid_out ws t /\ blanks a /\ blanks b /\ (e = [] \/ e = py "=").
