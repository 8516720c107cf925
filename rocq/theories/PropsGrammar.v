(** * C77: which words the patterns accept *)
From Coq Require Import String Ascii.
From Coq Require Import List NArith ZArith Bool Lia.
From Verif Require Import PyBase PyRegex AeroRegex SpecNum SpecGroups SpecGrammar ProofValues ProofGrammar ProofGrammarRest.
Import ListNotations.
Local Open Scope string_scope.
Local Open Scope nat_scope.
Local Open Scope list_scope.

(** C77 (winds): a word is accepted as a wind exactly when it is a documented
    wind group or has a [P] before a missing speed; a TAF takes whole winds
    only; a wind variation is exactly a documented one. *)
Theorem C77_wind : forall w, typed w ->
  (accepts r_WIND w <-> documented wind_wf wind_code w \/ wind_above w)
  /\ (accepts r_T_WIND w <-> documented wind_whole wind_code w)
  /\ (accepts r_WIND_VARIATION w <-> documented wvar_wf wvar_code w).
Proof. exact (fun w T => conj (wind_words w T) (conj (twind_words w T) (wvar_words w T))). Qed.
Print Assumptions C77_wind.

(** C77 (visibilities): beyond the documented groups a METAR takes the four
    directions that are no points of the compass and odd forms with units; a
    TAF takes anything that begins with a visibility. *)
Theorem C77_visibility : forall w, typed w ->
  (accepts r_VISIBILITY w <-> documented vis_wf vis_code w \/ odd_direction w \/ odd_long w)
  /\ (accepts r_MINIMUM_VISIBILITY w <-> documented min_wf vis_code w \/ odd_direction w)
  /\ (accepts r_T_VISIBILITY w <->
       (exists n t, (n < 10000)%N /\ w = digits 4 n ++ t) \/ (exists g t, long_wf g /\ w = long_code g ++ t) \/ w = py "CAVOK").
Proof. exact (fun w T => conj (vis_words w T) (conj (minvis_words w T) (tvis_words w T))). Qed.
Print Assumptions C77_visibility.

(** C77 (runways): exactly the documented groups. *)
Theorem C77_runway : forall w, typed w ->
  (accepts r_RUNWAY_RANGE w <-> documented rvr_wf rvr_code w) /\ (accepts r_RUNWAY_STATE w <-> documented rs_wf rs_code_of w).
Proof. exact (fun w T => conj (rvr_words w T) (rwy_words w T)). Qed.
Print Assumptions C77_runway.

(** C77 (weather): exactly the documented groups. *)
Theorem C77_weather : forall w, typed w ->
  (accepts r_WEATHER w <-> documented weather_wf weather_code w) /\ (accepts r_RECENT_WEATHER w <-> documented recent_wf recent_code w).
Proof. exact (fun w T => conj (weather_words w T) (recent_words w T)). Qed.
Print Assumptions C77_weather.

(** C77 (clouds): beyond the documented groups only [0VC]. *)
Theorem C77_cloud : forall w, typed w -> (accepts r_CLOUD w <-> documented cloud_wf cloud_code w \/ zero_vc w).
Proof. exact cloud_words. Qed.
Print Assumptions C77_cloud.

(** C77 (temperatures): beyond the documented groups only missing values with a
    sign; an extreme of a TAF may be followed by anything. *)
Theorem C77_temperature : forall w, typed w ->
  (accepts r_TEMPERATURES w <-> documented temps_wf temps_code w \/ signed_missing w)
  /\ (accepts r_T_TEMPERATURE w <-> exists x t, written_extreme x /\ w = x ++ t).
Proof. exact (fun w T => conj (temps_words w T) (extreme_words w T)). Qed.
Print Assumptions C77_temperature.

(** C77 (pressure and sea state): exactly the documented groups. *)
Theorem C77_pressure : forall w, typed w ->
  (accepts r_PRESSURE w <-> documented press_wf press_code w) /\ (accepts r_SEA_STATE w <-> documented sea_wf sea_code w).
Proof. exact (fun w T => conj (press_words w T) (sea_words w T)). Qed.
Print Assumptions C77_pressure.

(** C77 (windshear): beyond the documented groups only a runway without a name
    and all of a named one. *)
Theorem C77_windshear : forall w, typed w -> (accepts r_WINDSHEAR w <-> documented ws_wf ws_token w \/ odd_shear w).
Proof. exact shear_words. Qed.
Print Assumptions C77_windshear.

(** C77 (header): exactly the documented words. *)
Theorem C77_header : forall w, typed w ->
  (accepts r_TYPE w <-> of_table types w) /\ (accepts r_STATION w <-> station_wf w) /\ (accepts r_TIME w <-> written_time w)
  /\ (accepts r_MODIFIER w <-> of_table modifiers w) /\ (accepts r_T_AMD_COR w <-> w = py "COR" \/ w = py "AMD")
  /\ (accepts r_T_NIL w <-> w = py "NIL") /\ (accepts r_T_CANCELLED w <-> w = py "CNL") /\ (accepts r_T_VALID w <-> written_validity w).
Proof.
  exact (fun w T => conj (type_words_ok w T) (conj (station_words w T) (conj (time_words w T) (conj (modifier_words w T) (conj (amd_words w T)
    (conj (nil_words w T) (conj (cancel_words w T) (valid_words w T)))))))).
Qed.
Print Assumptions C77_header.

(** C77 (changes): the words that open a change are taken with anything behind
    them, except for NOSIG and the probabilities. *)
Theorem C77_change : forall w, typed w ->
  (accepts r_CHANGE_INDICATOR w <-> begins (py "TEMPO") w \/ begins (py "BECMG") w \/ w = py "NOSIG")
  /\ (accepts r_T_CHANGE_INDICATOR w <->
       begins (py "TEMPO") w \/ begins (py "BECMG") w \/ (exists x t, written_from x /\ w = x ++ t)
       \/ exists p tempo, In p ["PROB30"; "PROB40"] /\ w = py p ++ flag tempo "_TEMPO")
  /\ (accepts r_TREND_TIME_PERIOD w <-> written_period w).
Proof. exact (fun w T => conj (change_words w T) (conj (tchange_words w T) (period_words w T))). Qed.
Print Assumptions C77_change.

(** ** Words accepted and refused *)

Definition typed_b (w : str) : bool := forallb (fun c => (c <? 128)%N && negb (c =? 10)%N) w.
Definition taken (r : regex) (w : str) : bool := match re_match r w with Some _ => true | None => false end.
Definition sorted_out (r : regex) (good bad : list string) : bool :=
  forallb (fun s => typed_b (py s) && taken r (py s)) good && forallb (fun s => typed_b (py s) && negb (taken r (py s))) bad.
Example C77_example :
  sorted_out r_WIND ["24005G18KT"; "VRBP99KT"; "/////KT"; "240P//KT"] ["24005"; "24105KT"; "37005KT"; "24005GKT"] = true
  /\ sorted_out r_T_WIND ["24005KT"; "00000MPS"] ["///05KT"; "240//KT"] = true
  /\ sorted_out r_VISIBILITY ["9999"; "CAVOK"; "2_1/2SM"; "4000NW"; "4000WW"; "P6KM"; "M"; "1/0SM"] ["999"; "4000NN"; "10"; "CAVOKK"] = true
  /\ sorted_out r_T_VISIBILITY ["9999"; "CAVOK"; "99999"; "P6SMX"] ["999"; "CAVOKK"; "////"] = true
  /\ sorted_out r_CLOUD ["BKN015CB"; "NSC"; "0VC010"; "VV///"] ["BKN15"; "ABC015"; "BKN015XX"] = true
  /\ sorted_out r_TEMPERATURES ["22/M01"; "XX/XX"; "M///22"; "-XX/12"] ["22/1"; "2212"; "022/17"] = true
  /\ sorted_out r_WINDSHEAR ["WS_R23"; "WS_ALL_RWY"; "WS_RWY"; "WS_ALL_R23L"] ["WS"; "WS_R2"; "WS_RWY23"] = true
  /\ sorted_out r_STATION ["MROC"; "K0A1"] ["1ROC"; "MRO"; "mroc"] = true
  /\ sorted_out r_TIME ["311259Z"; "012400Z"] ["001200Z"; "321200Z"; "012500Z"; "011260Z"] = true
  /\ sorted_out r_T_CHANGE_INDICATOR ["TEMPO"; "TEMPORARY"; "FM311200"; "PROB30_TEMPO"] ["PROB50"; "PROB30_"; "FM321200"; "NOSIG"] = true
  /\ sorted_out r_T_TEMPERATURE ["TX12/3112Z"; "TNM01/0103Z"; "TX12/3112ZTN05"] ["TX12/3124Z"; "T12/3112Z"] = true.
Proof. conjs; vm_compute; reflexivity. Qed.
(** A documented group and each of the groups beyond. *)
Example C77_documented : typed (py "24005G18KT") /\ documented wind_wf wind_code (py "24005G18KT").
Proof.
  split; [unfold typed; apply Forall_forall; intros c I; vm_compute in I; repeat (destruct I as [<-|I]; [split; [reflexivity|discriminate]|]); contradiction|].
  exists (mk_wind_g (DirDeg 24) (Spd false false 5) (Some (false, false, 18%N)) KT). split; [|vm_compute; reflexivity]. unfold wind_wf, two_or_three. cbn. lia.
Qed.
Example C77_beyond :
  wind_above (py "240P//KT") /\ odd_direction (py "4000WW") /\ odd_long (py "1/0SM") /\ zero_vc (py "0VC010") /\ signed_missing (py "M///22") /\ odd_shear (py "WS_ALL_R23L").
Proof.
  split; [|split; [|split; [|split; [|split]]]].
  - exists (mk_wind_g (DirDeg 24) (SpdNone false) None KT), false. split; [unfold wind_wf; cbn; lia|]. split; [reflexivity|vm_compute; reflexivity].
  - exists "WW". split; [cbn; auto 6|]. left. exists 4000%N. split; [reflexivity|vm_compute; reflexivity].
  - exists (mk_long None None false (Some (1%N, 0%N)) "SM"). split; [unfold long_wf; cbn; split; [exact I|split; [lia|auto]]|]. split; [|vm_compute; reflexivity].
    do 5 right. left. exists 1%N. reflexivity.
  - exists (mk_cloud_g ("OVC", "overcast", "8") (HtHundreds 10) TyAbsent). split; [|split; [reflexivity|vm_compute; reflexivity]].
    split; [cbn; auto 10|]. split; [reflexivity|]. intros [E _]. discriminate E.
  - exists (mk_temps_g (TMissing "//") (TValue None 22)), (py "M//"), (py "22"). split; [vm_compute; auto|]. split; [right; exists "//", true; auto|]. split; [left; vm_compute; reflexivity|].
    split; [vm_compute; reflexivity|]. left. discriminate.
  - right. exists (mk_runway 23 (Some ("L", "left"))). split; [split; [reflexivity|cbn; auto]|vm_compute; reflexivity].
Qed.
