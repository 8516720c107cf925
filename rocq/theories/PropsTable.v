(** * The table of stations (C88): statements only *)
From Coq Require Import String Ascii.
From Coq Require Import List NArith ZArith Bool Lia.
From Verif Require Import PyBase PyRegex PyTime Base MetarGroups Trend Metar Taf Stations SpecGroups SpecTime SpecText SpecMetar SpecTaf SpecTafReport
  SpecStation SpecTable TimeFacts ProofMetarText ProofValues ProofTable.
Import ListNotations.
Local Open Scope string_scope.
Local Open Scope nat_scope.
Local Open Scope list_scope.

(** Every row of the table but one has eight entries in the documented form. *)
Theorem C88_rows : forall row, In row STATIONS -> row_wf longitude row \/ row = armstrong.
Proof. exact rows_wf. Qed.
Print Assumptions C88_rows.
(** That row is in the table and its longitude is none. *)
Theorem C88_longitude_refuted : In armstrong STATIONS /\ ~ longitude (py ".88.54W").
Proof. exact armstrong_off. Qed.
Print Assumptions C88_longitude_refuted.

(** The station of every report, where it is known, has a place. *)
Theorem C88_metar : forall cy cm code y mo tr x, metar_parse (database cy cm) code y mo tr = Ok x ->
  st_name (me_station x) <> None -> placed (me_station x).
Proof. exact metar_place. Qed.
Print Assumptions C88_metar.
Theorem C88_taf : forall cy cm code y mo tr x, taf_parse (database cy cm) code y mo tr = Ok x ->
  st_name (ta_station x) <> None -> placed (ta_station x).
Proof. exact taf_place. Qed.
Print Assumptions C88_taf.

(** Every code of the table fits the pattern of a station and is not taken for
    a remark, and those taken for a change begin with FM. *)
Theorem C88_codes : forall row c, In row STATIONS -> icao_of row = Some c -> c <> py "None" ->
  station_wf c /\ starts_with (py "RMK") c = false.
Proof. exact row_icao. Qed.
Print Assumptions C88_codes.
Theorem C88_change_words : forall row c, In row STATIONS -> icao_of row = Some c ->
  begins_any change_words c = true -> starts_with (py "FM") c = true.
Proof. exact row_change. Qed.
Print Assumptions C88_change_words.

(** So every documented report of a station in the table shows its row, *)
Theorem C88_metar_known : forall cy cm y mo g rmk tr code row,
  clock_wf (database cy cm) -> metar_wf y mo g -> not_last g -> remark_wf rmk -> SpecMetar.shows (metar_words g ++ rmk) code ->
  In row STATIONS -> icao_of row = Some (g_station g) ->
  exists x, metar_parse (database cy cm) code (Some y) (Some mo) tr = Ok x /\ SpecStation.shows (database cy cm) (me_station x) row.
Proof. exact metar_known. Qed.
Print Assumptions C88_metar_known.
Theorem C88_taf_known : forall cy cm y mo g tr code row,
  clock_wf (database cy cm) -> taf_wf y mo g -> SpecMetar.shows (taf_words g) code ->
  In row STATIONS -> icao_of row = Some (h_station g) ->
  exists x, taf_parse (database cy cm) code (Some y) (Some mo) tr = Ok x /\ SpecStation.shows (database cy cm) (ta_station x) row.
Proof. exact taf_known. Qed.
Print Assumptions C88_taf_known.
(** except an amended or corrected TAF of a station whose code begins with FM. *)
Theorem C88_lost_refuted : forall cy cm m row c dd h mi rest y mo tr code x, In row STATIONS -> icao_of row = Some c -> starts_with (py "FM") c = true ->
  In m taf_modifiers -> Forall (fun w => word w /\ ~ In 61%N w) rest ->
  SpecMetar.shows (py "TAF" :: code_of m :: c :: stamp_code dd h mi :: rest) code ->
  taf_parse (database cy cm) code y mo tr = Ok x -> st_code (ta_station x) = None /\ unknown (database cy cm) (ta_station x).
Proof. exact fm_lost. Qed.
Print Assumptions C88_lost_refuted.

Definition place_of (r : result metar) : option (option str * option str * option str) :=
  match r with Ok x => Some (st_latitude (me_station x), st_longitude (me_station x), st_elevation (me_station x)) | Raise _ => None end.
Definition name_of (r : result taf) : option (option str) := match r with Ok x => Some (st_name (ta_station x)) | Raise _ => None end.
Example C88_case :
  place_of (metar_parse (database 2026 1) (py "METAR SEQM 162000Z") (Some 2026%Z) (Some 1%Z) true) = Some (Some (py "00.07S"), Some (py "078.21W"), Some (py "2400"))
  /\ place_of (metar_parse (database 2026 1) (py "METAR CYYW 162000Z") (Some 2026%Z) (Some 1%Z) true) = Some (Some (py "50.18N"), Some (py ".88.54W"), Some (py "351"))
  /\ name_of (taf_parse (database 2026 1) (py "TAF FMMI 162000Z 1620/1720") (Some 2026%Z) (Some 1%Z) false) = Some (Some (py "ANTANANARIVO/IVA"))
  /\ name_of (taf_parse (database 2026 1) (py "TAF AMD FMMI 162000Z 05005KT 9999") (Some 2026%Z) (Some 1%Z) false) = Some None
  /\ name_of (taf_parse (database 2026 1) (py "TAF AMD FMMI 162000Z 1620/1720 05005KT") (Some 2026%Z) (Some 1%Z) false) = None
  /\ N.of_nat (length (filter (fun r => starts_with (py "FM") (nth 1 r [])) STATIONS)) = 29%N.
Proof. conjs; vm_compute; reflexivity. Qed.

(** Two short reports of Quito *)
Definition quito : list str := map py ["QUITO/NEW INTL"; "SEQM"; "None"; "None"; "00.07S"; "078.21W"; "2400"; "EC"].
Definition short_metar : metar_g :=
  mk_metar_g ("METAR", "Meteorological Aerodrome Report") (py "SEQM") 16 20 0 None None None None None [] [] [] None [] None [] None None.
Definition short_taf : taf_g := mk_taf_g (Some ("AMD", "Amendment")) (py "SEQM") 16 20 0 true None false (mk_wx None None [] []) [] [].
Example C88_known_case :
  In quito STATIONS /\ icao_of quito = Some (g_station short_metar) /\ icao_of quito = Some (h_station short_taf)
  /\ metar_wf 2026 1 short_metar /\ not_last short_metar /\ remark_wf [] /\ taf_wf 2026 1 short_taf
  /\ SpecMetar.shows (metar_words short_metar ++ []) (py "METAR SEQM 162000Z") /\ SpecMetar.shows (taf_words short_taf) (py "TAF AMD SEQM 162000Z NIL")
  /\ clock_wf (database 2026 1).
Proof.
  assert (W : station_wf (py "SEQM")) by (apply station_ok; vm_compute; reflexivity).
  split. { assert (T : existsb (fun r => same_row r quito) STATIONS = true) by (vm_compute; reflexivity).
    apply existsb_exists in T. destruct T as (r & I & E). apply same_row_ok in E. rewrite <- E. exact I. }
  split; [reflexivity|]. split; [reflexivity|].
  split. { unfold metar_wf, short_metar. cbn [g_type g_station g_day g_hour g_minute g_modifier g_wind g_wvar g_vis g_minvis g_rvrs
      g_weathers g_clouds g_temps g_press g_recent g_ws g_sea g_rwy opt_all].
    split; [left; reflexivity|]. split; [split; [exact W|reflexivity]|]. split; [lia|]. split; [apply valid_date_spec; reflexivity|].
    conjs; try exact I; try apply Forall_nil; try (cbn; lia). reflexivity. }
  split; [reflexivity|]. split; [left; reflexivity|].
  split. { unfold taf_wf, short_taf. cbn [h_modifier h_station h_day h_hour h_minute h_nil h_valid h_cnl h_body h_temps h_changes opt_all].
    split; [cbn; auto|]. split; [split; [exact W|reflexivity]|]. split; [lia|]. split; [apply valid_date_spec; reflexivity|].
    split; [lia|]. split; [lia|]. split; [exact I|].
    split; [split; [unfold wx_wf; cbn; conjs; try exact I; try apply Forall_nil; try lia|split; [exact I|intros _; apply Forall_nil]]|].
    split; [split; [apply Forall_nil|cbn; lia]|]. split; [reflexivity|]. split; [cbn; lia|]. split; [cbn; lia|]. reflexivity. }
  assert (Sh : forall ws, ws <> [] -> SpecMetar.shows ws (sentence ws)).
  { intros ws N. exists [], (sentence ws), [], []. split; [rewrite app_nil_r; reflexivity|].
    split; [apply sentence_laid_out; exact N|]. split; [constructor|]. split; [constructor|left; reflexivity]. }
  split; [apply (Sh (metar_words short_metar ++ [])); discriminate|].
  split; [apply (Sh (taf_words short_taf)); discriminate|].
  cbv. intuition discriminate.
Qed.
