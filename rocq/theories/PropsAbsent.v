(** * Properties C31, C39, C51, C52, C53: statements only *)
From Coq Require Import String Ascii.
From Coq Require Import List NArith ZArith Bool Lia.
From Verif Require Import PyBase PyRegex AeroRegex PyFloat PyTime Utils Base MetarGroups Trend Metar Taf AsDict SpecNum SpecGroups SpecTime
  SpecText SpecWords SpecMetar SpecFailures SpecAbsent ProofMetarText ProofAbsent ProofAbsentTaf ProofClock ProofCor ProofSilent
  PropsMetar PropsFailures.
Import ListNotations.
Local Open Scope string_scope.
Local Open Scope nat_scope.
Local Open Scope list_scope.

Definition read_taf (y mo : Z) (s : string) : result taf := taf_parse some_env (py s) (Some y) (Some mo) false.
Definition gives {A} (r : result A) (p : A -> bool) : bool := match r with Ok x => p x | Raise _ => false end.
Lemma gives_ok : forall A (r : result A) p, gives r p = true -> exists x, r = Ok x /\ p x = true.
Proof. intros A [x|ex] p H; [exists x; auto|discriminate]. Qed.
Definition is_none {A} (o : option A) : bool := match o with None => true | Some _ => false end.
Definition is_some (o : option str) (s : string) : bool := match o with Some t => str_eqb t (py s) | None => false end.

(** ** C31: the clock *)

Theorem C31_metar : forall y1 m1 y2 m2 st co code y mo tr,
  clock_wf (mk_env y1 m1 st co) -> clock_wf (mk_env y2 m2 st co) ->
  metar_parse (mk_env y1 m1 st co) code (Some y) (Some mo) tr = metar_parse (mk_env y2 m2 st co) code (Some y) (Some mo) tr.
Proof. exact metar_clock. Qed.
Print Assumptions C31_metar.

(** Missing from the full statement: the forecasts without time or without
    validity, which keep values computed from the clock ([C31_refuted]). *)
Theorem C31_taf_partial : forall y1 m1 y2 m2 st co code y mo tr x,
  clock_wf (mk_env y1 m1 st co) -> clock_wf (mk_env y2 m2 st co) ->
  taf_parse (mk_env y1 m1 st co) code (Some y) (Some mo) tr = Ok x ->
  t_code (ta_time x) <> None -> va_code (ta_valid x) <> None ->
  taf_parse (mk_env y2 m2 st co) code (Some y) (Some mo) tr = Ok x.
Proof. exact taf_clock. Qed.
Print Assumptions C31_taf_partial.

Example C31_case :
  clock_wf (mk_env 1999 2 [] []) /\ clock_wf (mk_env 2026 11 [] [])
  /\ exists x, taf_parse (mk_env 1999 2 [] []) (py "TAF SEQM 142300Z 1500/1524 05005KT 9999 BKN030") (Some 2024%Z) (Some 2%Z) false = Ok x
       /\ t_code (ta_time x) <> None /\ va_code (ta_valid x) <> None.
Proof.
  split; [unfold clock_wf; cbn; lia|]. split; [unfold clock_wf; cbn; lia|].
  destruct (gives_ok _ (taf_parse (mk_env 1999 2 [] []) (py "TAF SEQM 142300Z 1500/1524 05005KT 9999 BKN030") (Some 2024%Z) (Some 2%Z) false)
    (fun x => is_some (t_code (ta_time x)) "142300Z" && is_some (va_code (ta_valid x)) "1500/1524")) as (x & E & P).
  { vm_compute. reflexivity. }
  exists x. split; [exact E|]. apply andb_true_iff in P. destruct P as [P1 P2].
  split; intro N; rewrite N in *; discriminate.
Qed.

(** The same forecast, year and month, one month apart. *)
Theorem C31_refuted : exists code e1 e2 x1 x2,
  clock_wf e1 /\ clock_wf e2
  /\ taf_parse e1 code (Some 2024%Z) (Some 2%Z) false = Ok x1 /\ taf_parse e2 code (Some 2024%Z) (Some 2%Z) false = Ok x2
  /\ t_dt (ta_time x1) <> t_dt (ta_time x2) /\ t_dt (va_from (ta_valid x1)) <> t_dt (va_from (ta_valid x2)).
Proof.
  exists (py "TAF SEQM 05005KT 9999 BKN030"), (mk_env 2026 10 [] []), (mk_env 2026 11 [] []).
  destruct (gives_ok _ (taf_parse (mk_env 2026 10 [] []) (py "TAF SEQM 05005KT 9999 BKN030") (Some 2024%Z) (Some 2%Z) false)
    (fun x => Z.eqb (dt_month (t_dt (ta_time x))) 10 && Z.eqb (dt_month (t_dt (va_from (ta_valid x)))) 10)) as (x & E & P).
  { vm_compute. reflexivity. }
  destruct (gives_ok _ (taf_parse (mk_env 2026 11 [] []) (py "TAF SEQM 05005KT 9999 BKN030") (Some 2024%Z) (Some 2%Z) false)
    (fun x => Z.eqb (dt_month (t_dt (ta_time x))) 11 && Z.eqb (dt_month (t_dt (va_from (ta_valid x)))) 11)) as (x' & E' & P').
  { vm_compute. reflexivity. }
  exists x, x'. apply andb_true_iff in P, P'. rewrite !Z.eqb_eq in P, P'. destruct P as [P1 P2], P' as [P1' P2'].
  split; [unfold clock_wf; cbn; lia|]. split; [unfold clock_wf; cbn; lia|]. split; [exact E|]. split; [exact E'|].
  split; intro N; rewrite N in *; lia.
Qed.
Print Assumptions C31_refuted.

(** ** C39: COR before the station *)

(** Every well-formed report loses its station and its time when COR is
    written after METAR. *)
Theorem C39_refuted : forall e y mo g rmk tr code x, metar_wf y mo g -> not_last g -> remark_wf rmk ->
  shows (code_of (g_type g) :: py "COR" :: tl (metar_words g) ++ rmk) code ->
  metar_parse e code (Some y) (Some mo) tr = Ok x ->
  st_code (me_station x) = None /\ t_code (me_time x) = None /\ mo_code (me_modifier x) = Some (py "COR").
Proof. exact cor_loses. Qed.
Print Assumptions C39_refuted.

Example C39_case :
  metar_wf 2024 2 full_report /\ not_last full_report /\ remark_wf []
  /\ shows (code_of (g_type full_report) :: py "COR" :: tl (metar_words full_report) ++ [])
       (sentence (code_of (g_type full_report) :: py "COR" :: tl (metar_words full_report)))
  /\ sentence (code_of (g_type full_report) :: py "COR" :: tl (metar_words full_report))
     = py "SPECI COR KJWS 292359Z AUTO 360P012G035MPS 010V360 12 1/4SM 0800SW R07L/0600FT +TSRA BKN007CB M03/// Q1013 A2992 WS RWY25 WS ALL RWY"
  /\ gives (read_in 2024 2 "METAR COR MROC 071200Z 01018KT 9999") (fun x =>
       is_none (st_code (me_station x)) && is_none (t_code (me_time x)) && is_some (w_code (c_wind (me_common x))) "01018KT"
       && is_some (mo_code (me_modifier x)) "COR") = true
  /\ gives (read_in 2024 2 "METAR MROC 071200Z COR 01018KT 9999") (fun x =>
       is_some (st_code (me_station x)) "MROC" && is_some (t_code (me_time x)) "071200Z"
       && is_some (mo_code (me_modifier x)) "COR") = true.
Proof.
  pose proof C47_case as (H1 & H2 & _).
  split; [exact H1|]. split; [exact H2|]. split; [left; reflexivity|]. split.
  { rewrite app_nil_r. exists [], (sentence (code_of (g_type full_report) :: py "COR" :: tl (metar_words full_report))), [], [].
    split; [rewrite !app_nil_r; reflexivity|]. split; [apply sentence_laid_out; discriminate|].
    split; [constructor|]. split; [constructor|left; reflexivity]. }
  split; [reflexivity|]. split; vm_compute; reflexivity.
Qed.

(** ** C51: dictionaries carry the code *)

(** Missing from the full statement: MetarPressure, whose dictionary has no
    entry, and TafTemperature, whose entry is always [None]
    ([C51_refuted]). *)
Theorem C51_groups_partial :
  (forall w, carries (wind_dict w) (w_code w)) /\ (forall w, carries (wvar_dict w) (wv_code w))
  /\ (forall v, carries (vis_dict v) (v_code v)) /\ (forall v, carries (prevailing_dict v) (v_code v))
  /\ (forall c, carries (cloud_dict c) (cl_code c)) /\ (forall w, carries (weather_dict w) (we_code w))
  /\ (forall w, carries (recent_dict w) (rw_code w)) /\ (forall r, carries (rvr_dict r) (rr_code r))
  /\ (forall t, carries (temps_dict t) (te_code t)) /\ (forall w, carries (ws_dict w) (MetarGroups.ws_code w))
  /\ (forall s, carries (sea_dict s) (se_code s)) /\ (forall r, carries (rs_dict r) (rs_code r))
  /\ (forall t, carries (type_dict t) (ty_code t)) /\ (forall m, carries (modifier_dict m) (mo_code m))
  /\ (forall e s, carries (station_dict e s) (st_code s)) /\ (forall t, carries (time_dict t) (t_code t))
  /\ (forall i, carries (trend_ind_dict i) (ti_code i)) /\ (forall v, carries (valid_dict v) (va_code v))
  /\ (forall m, carries (missing_dict m) (mo_code (mi_mod m))) /\ (forall c, carries (cancelled_dict c) (ca_code c))
  /\ (forall i, carries (taf_ind_dict i) (tc_code i)).
Proof. exact dict_codes. Qed.
Print Assumptions C51_groups_partial.

Theorem C51_changes_partial :
  (forall p, carries (change_period_dict p) (cp_code p)) /\ (forall p, carries (change_fc_dict p) (cf_code p)).
Proof. exact (conj trend_dict_code change_dict_code). Qed.
Print Assumptions C51_changes_partial.

Theorem C51_metar_partial : forall e x d, metar_dict e x = Ok d ->
  entry d (py "code") (VStr (me_raw x))
  /\ shown d "type_" (ty_code (me_type x)) /\ shown d "station" (st_code (me_station x)) /\ shown d "time" (t_code (me_time x))
  /\ shown d "modifier" (mo_code (me_modifier x)) /\ shown d "wind" (w_code (c_wind (me_common x)))
  /\ shown d "wind_variation" (wv_code (me_wvar x)) /\ shown d "prevailing_visibility" (v_code (c_vis (me_common x)))
  /\ shown d "minimum_visibility" (v_code (me_minvis x)) /\ shown d "temperatures" (te_code (me_temps x))
  /\ shown d "recent_weather" (rw_code (me_recent x)) /\ shown d "sea_state" (se_code (me_sea x))
  /\ shown d "runway_state" (rs_code (me_rwy x))
  /\ shown_list rvr_dict d "runway_ranges" (gl_list (me_rvr x)) rr_code
  /\ shown_list weather_dict d "weathers" (gl_list (c_weathers (me_common x))) we_code
  /\ shown_list cloud_dict d "clouds" (gl_list (c_clouds (me_common x))) cl_code
  /\ shown_list ws_dict d "windshears" (gl_list (me_ws x)) MetarGroups.ws_code
  /\ shown_list change_period_dict d "weather_trends" (gl_list (me_trends x)) cp_code.
Proof. exact metar_dict_codes. Qed.
Print Assumptions C51_metar_partial.

Theorem C51_taf_partial : forall e x d, taf_dict e x = Ok d ->
  entry d (py "code") (VStr (ta_raw x))
  /\ shown d "type_" (ty_code (ta_type x)) /\ shown d "station" (st_code (ta_station x)) /\ shown d "time" (t_code (ta_time x))
  /\ shown d "modifier" (mo_code (ta_modifier x)) /\ shown d "missing" (mo_code (mi_mod (ta_missing x)))
  /\ shown d "valid" (va_code (ta_valid x)) /\ shown d "cancelled" (ca_code (ta_cancelled x))
  /\ shown d "wind" (w_code (c_wind (ta_common x))) /\ shown d "prevailing_visibility" (v_code (c_vis (ta_common x)))
  /\ shown_list weather_dict d "weathers" (gl_list (c_weathers (ta_common x))) we_code
  /\ shown_list cloud_dict d "clouds" (gl_list (c_clouds (ta_common x))) cl_code
  /\ shown_list change_fc_dict d "changes_forecasted" (gl_list (ta_changes x)) cf_code.
Proof. exact taf_dict_codes. Qed.
Print Assumptions C51_taf_partial.

Theorem C51_refuted :
  (forall e x d, metar_dict e x = Ok d -> exists dp, entry d (py "pressure") (VDict dp) /\ ~ In (py "code") (map fst dp))
  /\ (forall m t0 t, taf_temp_new m t0 = Ok t -> tt_code t <> None /\ carries (taf_temp_dict t) None).
Proof. exact (conj pressure_no_code taf_temp_no_code). Qed.
Print Assumptions C51_refuted.

Example C51_case :
  gives (x <- read_in 2024 2 "METAR SEQM 071200Z 01018KT 9999 10/08 Q1013" ;; metar_dict some_env x) (fun _ => true) = true
  /\ gives (read_in 2024 2 "METAR SEQM 071200Z 01018KT 9999 10/08 Q1013") (fun x => is_some (pr_code (me_press x)) "Q1013") = true
  /\ gives (read_taf 2024 2 "TAF SEQM 142300Z 1500/1524 05005KT 9999 BKN030 TX25/1516Z") (fun x => Nat.eqb (length (gl_list (ta_max x))) 1)
     = true
  /\ gives (x <- read_taf 2024 2 "TAF SEQM 142300Z 1500/1524 05005KT 9999 BKN030 TX25/1516Z" ;; taf_dict some_env x) (fun _ => true) = true.
Proof. repeat split; vm_compute; reflexivity. Qed.

(** ** C52: absent groups *)

(** Missing from the full statement: the texts of Station and Cloud and the
    dates of Time, Valid and the change periods ([C52_refuted]). *)
Theorem C52_classes_partial :
  (exists w, metar_wind_new None = Ok w /\ wind_absent w) /\ (exists w, wind_variation_new None = Ok w /\ wvar_absent w)
  /\ (exists v, prevailing_new None = Ok v /\ vis_absent v) /\ (exists v, minimum_visibility_new None = Ok v /\ vis_absent v)
  /\ (exists r, runway_range_new None = Ok r /\ rvr_absent r) /\ (exists t, temperatures_new None = Ok t /\ temps_absent t)
  /\ (exists p, metar_pressure_new None = Ok p /\ press_absent p) /\ (exists s, sea_state_new None = Ok s /\ sea_absent s)
  /\ weather_absent (weather_new None) /\ recent_absent (recent_weather_new None) /\ ws_absent (windshear_new None)
  /\ rs_absent (runway_state_new None) /\ modifier_absent (modifier_new None) /\ missing_absent (missing_new None)
  /\ cancelled_absent (cancelled_new None) /\ (forall e, station_absent e (station_new e None)).
Proof.
  exact (conj wind_none (conj wvar_none (conj prevailing_none (conj minimum_none (conj rvr_none (conj temps_none (conj press_none
    (conj sea_none (conj weather_none (conj recent_none (conj ws_none (conj rs_none (conj modifier_none (conj missing_none
    (conj cancelled_none station_none))))))))))))))).
Qed.
Print Assumptions C52_classes_partial.

Theorem C52_metar_partial : forall e code y mo tr x, metar_parse e code y mo tr = Ok x -> metar_kept e x /\ trends_kept x.
Proof. exact metar_absent. Qed.
Print Assumptions C52_metar_partial.

Theorem C52_taf_partial : forall e code y mo tr x, taf_parse e code y mo tr = Ok x -> taf_kept e x.
Proof. exact taf_absent. Qed.
Print Assumptions C52_taf_partial.

Example C52_case :
  gives (read_in 2024 2 "METAR BECMG") (fun x => is_none (w_code (c_wind (me_common x))) && is_none (te_code (me_temps x))
    && is_none (pr_code (me_press x)) && is_none (st_code (me_station x)) && Nat.eqb (length (gl_list (me_trends x))) 1) = true
  /\ gives (read_taf 2024 2 "TAF SEQM BECMG 1500/1504") (fun x => is_none (w_code (c_wind (ta_common x)))
    && is_none (ca_code (ta_cancelled x)) && Nat.eqb (length (gl_list (ta_changes x))) 1) = true.
Proof. split; vm_compute; reflexivity. Qed.

Theorem C52_refuted :
  station_str some_env (station_new some_env None)
    = py "Name: None | Coordinates: None None | Elevation: None m MSL | Country: None"
  /\ exists x, read_in 2024 2 "METAR SEQM" = Ok x /\ t_code (me_time x) = None /\ time_str (me_time x) = py "2024-02-01 00:00:00".
Proof.
  split; [vm_compute; reflexivity|].
  destruct (gives_ok _ (read_in 2024 2 "METAR SEQM") (fun x => is_none (t_code (me_time x)) && str_eqb (time_str (me_time x)) (py "2024-02-01 00:00:00")))
    as (x & E & P); [vm_compute; reflexivity|].
  exists x. split; [exact E|]. apply andb_true_iff in P. destruct P as [P1 P2].
  split; [destruct (t_code (me_time x)); [discriminate|reflexivity]|apply str_eqb_eq; exact P2].
Qed.
Print Assumptions C52_refuted.

(** ** C53: the standard output *)

(** Missing from the full statement: the reports in which a text such as
    FM1200 occurs ([C53_refuted]), what was printed before an exception, and
    TAF, in whose code there is no print. *)
Theorem C53_partial : forall e code y mo tr x, metar_parse e code y mo tr = Ok x -> me_out x <> [] ->
  exists p, contains (unsigned code) p /\ period p.
Proof. exact metar_silent. Qed.
Print Assumptions C53_partial.

Theorem C53_refuted : exists x, read_in 2024 2 "METAR SEQM 071200Z 01018KT TEMPO FM1230 4000 BECMG AT1300 CAVOK" = Ok x
  /\ me_out x = [py "None"; py "2024-02-07 13:00:00"].
Proof.
  destruct (gives_ok _ (read_in 2024 2 "METAR SEQM 071200Z 01018KT TEMPO FM1230 4000 BECMG AT1300 CAVOK")
    (fun x => match me_out x with [a; b] => str_eqb a (py "None") && str_eqb b (py "2024-02-07 13:00:00") | _ => false end))
    as (x & E & P); [vm_compute; reflexivity|].
  exists x. split; [exact E|]. destruct (me_out x) as [|a [|b [|c l]]]; try discriminate P. apply andb_true_iff in P. destruct P as [P1 P2].
  apply str_eqb_eq in P1, P2. rewrite P1, P2. reflexivity.
Qed.
Print Assumptions C53_refuted.
