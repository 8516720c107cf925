(** * Property C47 (well-formed METAR round trip): statements only *)
From Coq Require Import String Ascii.
From Coq Require Import List NArith ZArith Bool Lia.
From Verif Require Import PyBase PyRegex AeroRegex PyFloat PyTime Utils Base MetarGroups Trend Metar SpecNum SpecGroups SpecTime
  SpecText SpecWords SpecMetar TextFacts ProofText TimeFacts ProofMetarText.
Import ListNotations.
Local Open Scope string_scope.
Local Open Scope nat_scope.
Local Open Scope list_scope.

(** Missing from the full statement: a mixed number of miles at the end of the
    body or with a prefix, a pressure without prefix and unit, a station that
    begins with RMK ([C47_refuted]), more than three runway ranges, weathers or
    windshears, four clouds and two pressures. *)
Theorem C47_round_trip_partial : forall e y mo g rmk tr code,
  clock_wf e -> metar_wf y mo g -> not_last g -> remark_wf rmk -> shows (metar_words g ++ rmk) code ->
  exists x, metar_parse e code (Some y) (Some mo) tr = Ok x
    /\ metar_holds y mo g x /\ me_unparsed x = [] /\ gl_list (me_trends x) = [] /\ me_out x = []
    /\ me_raw x = sentence (metar_words g ++ rmk) /\ me_sections x = [sentence (metar_words g); []; sentence rmk].
Proof. exact metar_round_trip. Qed.
Print Assumptions C47_round_trip_partial.

(** A report with every kind of group. *)
Definition full_report : metar_g :=
  mk_metar_g ("SPECI", "Special Aerodrome Report") (py "KJWS") 29 23 59
    (Some ("AUTO", "Automatic report"))
    (Some (mk_wind_g (DirDeg 36) (Spd true true 12) (Some (false, true, 35%N)) MPS))
    (Some (mk_wvar_g 1 36))
    (Some (VisMiles None (Some (true, 12%N)) (Some (1%N, 4%N))))
    (Some (VisMeters 800 (Some ("SW", 225%Z))))
    [mk_rvr_g (mk_runway 7 (Some ("L", "left"))) None (4, 600%N) None true None]
    [mk_weather_g (Some ("+", "heavy")) (Some ("TS", "thunderstorm")) (Some (PhPrec ("RA", "rain")))]
    [mk_cloud_g ("BKN", "broken", "5-7") (HtHundreds 7) TyCB]
    (Some (mk_temps_g (TValue (Some true) 3) (TMissing "//")))
    [mk_press_g PfQ (Some 1013%N) false; mk_press_g PfA (Some 2992%N) false]
    None
    [(true, WsRunway (mk_runway 25 None)); (false, WsAll)]
    None None.

Example C47_case :
  let rmk := [py "RMK"; py "A02"; py "SLP982"] in
  metar_wf 2024 2 full_report /\ not_last full_report /\ remark_wf rmk
  /\ sentence (metar_words full_report ++ rmk)
     = py "SPECI KJWS 292359Z AUTO 360P012G035MPS 010V360 12 1/4SM 0800SW R07L/0600FT +TSRA BKN007CB M03/// Q1013 A2992 WS RWY25 WS ALL RWY RMK A02 SLP982"
  /\ shows (metar_words full_report ++ rmk) (sentence (metar_words full_report ++ rmk))
  /\ clock_wf (mk_env 2026 11 [] []).
Proof.
  cbv zeta. split; [|split; [reflexivity|split; [|split; [reflexivity|split]]]].
  - unfold metar_wf, full_report. cbn [g_type g_station g_day g_hour g_minute g_modifier g_wind g_wvar g_vis g_minvis g_rvrs
      g_weathers g_clouds g_temps g_press g_recent g_ws g_sea g_rwy].
    split; [cbn; auto|]. split; [split; [|reflexivity]|].
    { exists 75%N, 74%N, 87%N, 83%N. split; [reflexivity|]. unfold is_alnum, is_upper. lia. }
    split; [lia|]. split; [apply valid_date_spec; reflexivity|]. split; [lia|]. split; [lia|].
    split; [cbn; tauto|]. split; [cbn; unfold wind_wf; cbn; repeat split; lia|]. split; [unfold opt_all, wvar_wf; cbn; lia|].
    split; [cbn; intuition (try discriminate; try lia)|].
    split; [split; [|discriminate]; cbn; intuition (try discriminate; try lia)|].
    split; [split; [|cbn; lia]; repeat constructor; cbn; auto; lia|].
    split; [split; [|cbn; lia]; repeat constructor; cbn; auto 12; discriminate|].
    split; [split; [|cbn; lia]; repeat constructor; cbn; auto 12; intros [K _]; discriminate K|].
    split; [repeat constructor; cbn; auto; lia|].
    split; [split; [|cbn; lia]; do 2 (apply Forall_cons; [split; [cbn; lia|left; discriminate]|]); apply Forall_nil|].
    split; [exact I|]. split; [split; [|cbn; lia]; repeat constructor; cbn; auto; lia|]. split; exact I.
  - right. eexists. split; [reflexivity|]. repeat constructor; try discriminate; cbn; intuition discriminate.
  - exists [], (sentence (metar_words full_report ++ [py "RMK"; py "A02"; py "SLP982"])), [], [].
    split; [rewrite app_nil_r; reflexivity|]. split; [|split; [constructor|split; [constructor|left; reflexivity]]].
    apply sentence_laid_out. discriminate.
  - cbv. intuition discriminate.
Qed.

(** Documented reports it gets wrong: the station taken for a remark,
    the pressure taken for the visibility, the empty group after a mixed
    visibility taken for a weather. *)
Theorem C47_refuted :
  (exists x, metar_parse (mk_env 2024 1 [] []) (py "METAR RMKA 071200Z 9999") (Some 2024%Z) (Some 1%Z) true = Ok x
     /\ st_code (me_station x) = None /\ v_code (c_vis (me_common x)) = None)
  /\ (exists x, metar_parse (mk_env 2024 1 [] []) (py "METAR MROC 071200Z 1013") (Some 2024%Z) (Some 1%Z) true = Ok x
     /\ v_code (c_vis (me_common x)) = Some (py "1013") /\ pr_code (me_press x) = None)
  /\ (exists x, metar_parse (mk_env 2024 1 [] []) (py "METAR MROC 071200Z 2 1/2SM") (Some 2024%Z) (Some 1%Z) true = Ok x
     /\ map we_code (gl_list (c_weathers (me_common x))) = [Some []]).
Proof.
  split; [|split]; (eexists; split; [vm_compute; reflexivity|]; try split; vm_compute; reflexivity).
Qed.
Print Assumptions C47_refuted.
