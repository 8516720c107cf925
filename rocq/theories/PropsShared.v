(** * C79: words that fit two kinds of groups *)
From Coq Require Import String Ascii.
From Coq Require Import List NArith ZArith Bool Lia.
From Verif Require Import PyBase PyRegex AeroRegex PyTime Base MetarGroups Trend Metar Taf SpecNum SpecByCode SpecGroups SpecGrammar SpecStated SpecForeign SpecShared.
From Verif Require Import ProofValues ProofSharedWords PropsFailures.
Import ListNotations.
Local Open Scope string_scope.
Local Open Scope nat_scope.
Local Open Scope list_scope.

(** C79 (trends): no word fits two kinds of groups. *)
Theorem C79_trend : forall w, typed w -> ~ shared trend_patterns w.
Proof. exact trend_shared. Qed.
Print Assumptions C79_trend.

(** C79 (changes of a TAF): no word fits two kinds of groups. *)
Theorem C79_change : forall w, typed w -> ~ shared change_patterns w.
Proof. exact change_shared. Qed.
Print Assumptions C79_change.

(** C79 (body of a METAR): a word fits two kinds exactly when it has the four
    letters of a station and is a modifier, weather, recent weather, a
    visibility with a limit or VVCB, or when it is a visibility in metres. *)
Theorem C79_metar : forall w, typed w -> (shared metar_patterns w <-> like_station w \/ documented min_wf vis_code w \/ odd_direction w).
Proof. exact metar_shared. Qed.
Print Assumptions C79_metar.

(** C79 (body of a METAR): which two kinds. *)
Theorem C79_metar_kinds : forall w, typed w ->
  (accepts r_STATION w /\ accepts r_MODIFIER w <-> In w (map (fun x => py x) ["CORR"; "AUTO"; "TEST"; "FINO"]))
  /\ (accepts r_STATION w /\ accepts r_VISIBILITY w <-> limit_letters w)
  /\ (accepts r_STATION w /\ accepts r_WEATHER w <-> weather_letters w)
  /\ (accepts r_STATION w /\ accepts r_CLOUD w <-> w = py "VVCB")
  /\ (accepts r_STATION w /\ accepts r_RECENT_WEATHER w <-> recent_letters w)
  /\ (accepts r_VISIBILITY w /\ accepts r_MINIMUM_VISIBILITY w <-> documented min_wf vis_code w \/ odd_direction w)
  /\ (accepts r_VISIBILITY w /\ accepts r_PRESSURE w <-> bare w)
  /\ (accepts r_MINIMUM_VISIBILITY w /\ accepts r_PRESSURE w <-> bare w)
  /\ (forall r r', In (r, r') (pairs metar_patterns) -> accepts r w -> accepts r' w ->
       In (r, r') [(r_STATION, r_MODIFIER); (r_STATION, r_VISIBILITY); (r_STATION, r_WEATHER); (r_STATION, r_CLOUD); (r_STATION, r_RECENT_WEATHER);
                   (r_VISIBILITY, r_MINIMUM_VISIBILITY); (r_VISIBILITY, r_PRESSURE); (r_MINIMUM_VISIBILITY, r_PRESSURE)]).
Proof. exact metar_kinds. Qed.
Print Assumptions C79_metar_kinds.

(** C79 (body of a TAF): here the visibility, whose pattern has no end, takes
    times, periods, winds, stations and weather as well. *)
Theorem C79_taf : forall w, typed w -> (shared taf_patterns w <->
  (station_wf w /\ unit_ahead w) \/ weather_letters w \/ In w [py "VVCB"; py "METAR"] \/ written_time w \/ written_validity w \/ wind_digits w \/ shallow w).
Proof. exact taf_shared. Qed.
Print Assumptions C79_taf.

(** C79 (body of a TAF): which two kinds. *)
Theorem C79_taf_kinds : forall w, typed w ->
  (accepts r_TYPE w /\ accepts r_T_VISIBILITY w <-> w = py "METAR")
  /\ (accepts r_STATION w /\ accepts r_T_VISIBILITY w <-> station_wf w /\ unit_ahead w)
  /\ (accepts r_STATION w /\ accepts r_WEATHER w <-> weather_letters w)
  /\ (accepts r_STATION w /\ accepts r_CLOUD w <-> w = py "VVCB")
  /\ (accepts r_TIME w /\ accepts r_T_VISIBILITY w <-> written_time w)
  /\ (accepts r_T_VALID w /\ accepts r_T_VISIBILITY w <-> written_validity w)
  /\ (accepts r_T_WIND w /\ accepts r_T_VISIBILITY w <-> wind_digits w)
  /\ (accepts r_T_VISIBILITY w /\ accepts r_WEATHER w <-> shallow w)
  /\ (forall r r', In (r, r') (pairs taf_patterns) -> accepts r w -> accepts r' w ->
       In (r, r') [(r_TYPE, r_T_VISIBILITY); (r_STATION, r_T_VISIBILITY); (r_STATION, r_WEATHER); (r_STATION, r_CLOUD); (r_TIME, r_T_VISIBILITY);
                   (r_T_VALID, r_T_VISIBILITY); (r_T_WIND, r_T_VISIBILITY); (r_T_VISIBILITY, r_WEATHER)]).
Proof. exact taf_kinds. Qed.
Print Assumptions C79_taf_kinds.

(** ** Words of two kinds, and what becomes of them *)

Definition in_both (r r' : regex) (l : list string) : bool :=
  forallb (fun s => forallb (fun c => (c <? 128)%N && negb (c =? 10)%N) (py s) && (taken r (py s) && taken r' (py s))) l.
Example C79_example :
  in_both r_STATION r_MODIFIER ["CORR"; "AUTO"] = true /\ in_both r_STATION r_VISIBILITY ["P6SM"; "M12U"] = true
  /\ in_both r_STATION r_WEATHER ["VCTS"; "TSRA"; "FZFG"] = true /\ in_both r_STATION r_CLOUD ["VVCB"] = true /\ in_both r_STATION r_RECENT_WEATHER ["RERA"; "RETS"] = true
  /\ in_both r_VISIBILITY r_MINIMUM_VISIBILITY ["9999"; "4000NE"; "////WW"] = true /\ in_both r_VISIBILITY r_PRESSURE ["1013"; "////"] = true
  /\ in_both r_TYPE r_T_VISIBILITY ["METAR"] = true /\ in_both r_STATION r_T_VISIBILITY ["MROC"; "KMIA"; "SMJP"; "UUEE"; "P6SM"] = true
  /\ in_both r_TIME r_T_VISIBILITY ["071200Z"] = true /\ in_both r_T_VALID r_T_VISIBILITY ["0712/0812"] = true /\ in_both r_T_WIND r_T_VISIBILITY ["24005KT"] = true
  /\ in_both r_WEATHER r_T_VISIBILITY ["MIFG"; "UP"; "MI/"] = true.
Proof. conjs; vm_compute; reflexivity. Qed.
(** A second wind of a TAF is read as a visibility, and so is shallow fog in
    place of the visibility; behind the visibility it is weather. *)
Example C79_taken :
  exists x y z, taf_parse some_env (py "TAF MROC 071130Z 0712/0812 24005KT 26010KT") None None false = Ok x
    /\ taf_parse some_env (py "TAF MROC 071130Z 0712/0812 24005KT MIFG") None None false = Ok y
    /\ taf_parse some_env (py "TAF MROC 071130Z 0712/0812 24005KT 9999 MIFG") None None false = Ok z
    /\ map v_code (sights (taf_parts x)) = [Some (py "26010KT")]
    /\ map v_code (sights (taf_parts y)) = [Some (py "MIFG")] /\ map we_code (SpecByCode.phenomena (taf_parts y)) = []
    /\ map v_code (sights (taf_parts z)) = [Some (py "9999")] /\ map we_code (SpecByCode.phenomena (taf_parts z)) = [Some (py "MIFG")].
Proof. do 3 eexists. split; [vm_compute; reflexivity|]. split; [vm_compute; reflexivity|]. split; [vm_compute; reflexivity|]. conjs; vm_compute; reflexivity. Qed.
