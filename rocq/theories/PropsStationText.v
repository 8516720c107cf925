(** * The text of the station of a report (C62): statements only *)
From Coq Require Import String Ascii.
From Coq Require Import List NArith ZArith Bool Lia.
From Verif Require Import PyBase PyRegex PyTime Base MetarGroups Trend Metar Taf Stations SpecText SpecStation SpecStationText
  ProofValues ProofStationText.
Import ListNotations.
Local Open Scope string_scope.
Local Open Scope nat_scope.
Local Open Scope list_scope.

(** Name, coordinates, elevation and country are those of the row with the code. *)
Theorem C62_station_metar : forall y mo code year month tr x, metar_parse (database y mo) code year month tr = Ok x ->
  says_station (st_code (me_station x)) (station_str (database y mo) (me_station x)).
Proof. exact metar_station_text. Qed.
Print Assumptions C62_station_metar.

Theorem C62_station_taf : forall y mo code year month tr x, taf_parse (database y mo) code year month tr = Ok x ->
  says_station (st_code (ta_station x)) (station_str (database y mo) (ta_station x)).
Proof. exact taf_station_text. Qed.
Print Assumptions C62_station_taf.

Definition station_text (code : string) : str :=
  match metar_parse (database 2026 1) (py code) (Some 2026%Z) (Some 1%Z) false with
  | Ok x => station_str (database 2026 1) (me_station x)
  | Raise _ => []
  end.
Example C62_station_case :
  station_text "METAR KJFK 071200Z 9999"
    = place (py "NY NYC/JFK ARPT") (py "40.38N") (py "073.46W") (py "9") (py "United States of America (the)")
  /\ station_text "METAR ZZZZ 071200Z 9999" = no_text
  /\ place (py "a") (py "b") (py "c") (py "d") (py "e") = py "Name: a | Coordinates: b c | Elevation: d m MSL | Country: e".
Proof. conjs; vm_compute; reflexivity. Qed.
