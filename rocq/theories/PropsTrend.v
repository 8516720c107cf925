(** * Property C56 (METAR with trends round trip): statements only *)
From Coq Require Import String Ascii.
From Coq Require Import List NArith ZArith Bool Lia.
From Verif Require Import PyBase PyRegex AeroRegex PyFloat PyTime Utils Base MetarGroups Trend Metar SpecNum SpecGroups SpecTime
  SpecText SpecWords SpecMetar SpecTafReport SpecTrend TextFacts ProofText TimeFacts ProofMetarText ProofTrendReport.
Import ListNotations.
Local Open Scope string_scope.
Local Open Scope nat_scope.
Local Open Scope list_scope.

(** A well-formed METAR with at most two well-formed trends is read back: the
    body as in C47 and every trend with its indicator, times, wind,
    visibility, weather and clouds.  One line is printed for every time.
    Missing from the full statement: what is missing in C47, a mixed number of
    miles at the end of a trend, more than two trends, and 2400 in a report of
    23 hours (see the refutation). *)
Theorem C56_round_trip_partial : forall e y mo g ts rmk tr code te,
  clock_wf e -> metar_wf y mo g -> not_last g -> remark_wf rmk ->
  two_hours (issue_of y mo g) te -> trends_wf (issue_of y mo g) ts ->
  shows (metar_words g ++ flat_map trend_text ts ++ rmk) code ->
  exists x, metar_parse e code (Some y) (Some mo) tr = Ok x
    /\ metar_holds y mo g x /\ Forall2 (trend_is (issue_of y mo g) te) ts (gl_list (me_trends x))
    /\ me_unparsed x = [] /\ length (me_out x) = list_sum (map (fun g => length (n_times g)) ts)
    /\ me_raw x = sentence (metar_words g ++ flat_map trend_text ts ++ rmk)
    /\ me_sections x = [sentence (metar_words g); sentence (flat_map trend_text ts); sentence rmk].
Proof. exact trend_round_trip. Qed.
Print Assumptions C56_round_trip_partial.

(** A report of the last hours of a year with two trends. *)
Definition eve : metar_g :=
  mk_metar_g ("METAR", "Meteorological Aerodrome Report") (py "MROC") 31 22 30 None None None
    (Some (VisMeters 9999 None)) None [] [] [] None [mk_press_g PfQ (Some 1013%N) false] None [] None None.
Definition changes : list trend_g :=
  [mk_trend TBecmg [(PFrom, (23%N, 10%N)); (PUntil, (24%N, 0%N))]
     (mk_wx (Some (mk_wind_g (DirDeg 24) (Spd false false 15) (Some (false, false, 25%N)) KT))
        (Some (VisMiles None (Some (false, 2%N)) (Some (1%N, 2%N))))
        [mk_weather_g (Some ("+", "heavy")) (Some ("TS", "thunderstorm")) (Some (PhPrec ("RA", "rain")))]
        [mk_cloud_g ("BKN", "broken", "5-7") (HtHundreds 7) TyCB]);
   mk_trend TTempo [(PAt, (0%N, 30%N))] (mk_wx None (Some (VisMeters 800 None)) [] [])].

Example C56_case :
  let rmk := [py "RMK"; py "A02"] in let ws := metar_words eve ++ flat_map trend_text changes ++ rmk in
  clock_wf (mk_env 2026 11 [] []) /\ metar_wf 2023 12 eve /\ not_last eve /\ remark_wf rmk
  /\ two_hours (issue_of 2023 12 eve) (mk_dt 2024 1 1 0 30) /\ trends_wf (issue_of 2023 12 eve) changes
  /\ sentence ws = py "METAR MROC 312230Z 9999 Q1013 BECMG FM2310 TL2400 24015G25KT 2 1/2SM +TSRA BKN007CB TEMPO AT0030 0800 RMK A02"
  /\ shows ws (sentence ws).
Proof.
  cbv zeta. split; [cbv; intuition discriminate|]. split; [|split; [reflexivity|split; [|split; [|split; [|split; [reflexivity|]]]]]].
  - unfold metar_wf, eve. cbn [g_type g_station g_day g_hour g_minute g_modifier g_wind g_wvar g_vis g_minvis g_rvrs
      g_weathers g_clouds g_temps g_press g_recent g_ws g_sea g_rwy].
    split; [cbn; auto|]. split; [split; [|reflexivity]|].
    { exists 77%N, 82%N, 79%N, 67%N. split; [reflexivity|]. unfold is_alnum, is_upper. lia. }
    split; [lia|]. split; [apply valid_date_spec; reflexivity|]. split; [lia|]. split; [lia|].
    split; [exact I|]. split; [exact I|]. split; [exact I|]. split; [cbn; intuition (try discriminate; try lia)|].
    split; [split; [exact I|discriminate]|]. split; [split; [constructor|cbn; lia]|]. split; [split; [constructor|cbn; lia]|].
    split; [split; [constructor|cbn; lia]|]. split; [exact I|].
    split; [split; [|cbn; lia]; apply Forall_cons; [split; [cbn; lia|left; discriminate]|apply Forall_nil]|].
    split; [exact I|]. split; [split; [constructor|cbn; lia]|]. split; exact I.
  - right. eexists. split; [reflexivity|]. repeat constructor; try discriminate; cbn; intuition discriminate.
  - split; [apply later_valid; vm_compute; reflexivity|discriminate].
  - split; [|split; [cbn; lia|repeat constructor; discriminate]].
    assert (C : forall k u hm, k <= 120 -> minutes_later k (issue_of 2023 12 eve) u ->
      (Z.of_N (fst hm) = dt_hour u \/ (fst hm = 24%N /\ dt_hour u = 0%Z /\ dt_minute u = 0%Z)) -> Z.of_N (snd hm) = dt_minute u ->
      exists u, clock_at (issue_of 2023 12 eve) hm u).
    { intros k u hm Hk Hu Hh Hm. exists u. split; [exists k; auto|]. split; [|exact Hm].
      destruct Hh as [Hh|(H1 & H2 & H3)]; [left; exact Hh|right; auto]. }
    apply Forall_cons; [|apply Forall_cons; [|apply Forall_nil]]; unfold trend_wf; cbn [n_times n_wx n_kind changes snd fst map].
    + split; [split; [|split; [|cbn; lia]]|].
      * apply Forall_cons; [|apply Forall_cons; [|apply Forall_nil]].
        -- apply (C 40 (mk_dt 2023 12 31 23 10)); [lia|apply later_valid; vm_compute; reflexivity|left; reflexivity|reflexivity].
        -- apply (C 90 (mk_dt 2024 1 1 0 0)); [lia|apply later_valid; vm_compute; reflexivity|right; auto|reflexivity].
      * repeat constructor; cbn; intuition discriminate.
      * split; [|split; [reflexivity|discriminate]].
        unfold wx_wf. cbn [x_wind x_vis x_weathers x_clouds opt_all].
        split; [split; [unfold wind_wf; cbn; repeat split; lia|split; [discriminate|exact I]]|].
        split; [cbn; intuition (try discriminate; try lia)|].
        split; [split; [|cbn; lia]; repeat constructor; cbn; auto 12; discriminate|].
        split; [|cbn; lia]. repeat constructor; cbn; auto 12; intros [K _]; discriminate K.
    + split; [split; [|split; [|cbn; lia]]|].
      * apply Forall_cons; [|apply Forall_nil].
        apply (C 120 (mk_dt 2024 1 1 0 30)); [lia|apply later_valid; vm_compute; reflexivity|left; reflexivity|reflexivity].
      * repeat constructor. intros [].
      * split; [|split; [reflexivity|discriminate]].
        unfold wx_wf. cbn [x_wind x_vis x_weathers x_clouds opt_all].
        split; [exact I|]. split; [cbn; intuition (try discriminate; try lia)|].
        split; (split; [constructor|cbn; lia]).
  - exists [], (sentence (metar_words eve ++ flat_map trend_text changes ++ [py "RMK"; py "A02"])), [], [].
    split; [rewrite app_nil_r; reflexivity|]. split; [|split; [constructor|split; [constructor|left; reflexivity]]].
    apply sentence_laid_out. discriminate.
Qed.

(** Documented trends it gets wrong: a mixed visibility at the end of a trend
    leaves a weather without a code; a third trend is refused
    or left unparsed; midnight in the
    trend of a report of 23:30 is one in the morning. *)
Theorem C56_refuted :
  (exists x p, metar_parse (mk_env 2024 1 [] []) (py "METAR MROC 071200Z 9999 TEMPO 2 1/2SM") (Some 2024%Z) (Some 1%Z) true = Ok x
     /\ gl_list (me_trends x) = [p] /\ map we_code (gl_list (c_weathers (cp_common p))) = [Some []])
  /\ metar_parse (mk_env 2024 1 [] []) (py "METAR MROC 071200Z 9999 TEMPO 5000 TEMPO 2000 BECMG 1000") (Some 2024%Z) (Some 1%Z) true
     = Raise RangeError
  /\ (exists x, metar_parse (mk_env 2024 1 [] []) (py "METAR MROC 071200Z 9999 BECMG 5000 TEMPO 2000 TEMPO 1000")
       (Some 2024%Z) (Some 1%Z) false = Ok x
     /\ length (gl_list (me_trends x)) = 2 /\ me_unparsed x = [py "TEMPO"; py "1000"])
  /\ (exists x p, metar_parse (mk_env 2024 1 [] []) (py "METAR MROC 072330Z 9999 BECMG TL2400 5000") (Some 2024%Z) (Some 1%Z) true = Ok x
     /\ gl_list (me_trends x) = [p] /\ t_dt (ti_until (cp_ind p)) = mk_dt 2024 1 8 1 0).
Proof.
  split; [|split; [vm_compute; reflexivity|split]].
  - do 2 eexists. split; [vm_compute; reflexivity|]. split; vm_compute; reflexivity.
  - eexists. split; [vm_compute; reflexivity|]. split; vm_compute; reflexivity.
  - do 2 eexists. split; [vm_compute; reflexivity|]. split; vm_compute; reflexivity.
Qed.
Print Assumptions C56_refuted.
