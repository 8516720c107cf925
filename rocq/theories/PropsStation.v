(** * Property C49 (stations): statements only *)
From Coq Require Import String Ascii.
From Coq Require Import List NArith ZArith Bool Lia.
From Verif Require Import PyBase PyRegex PyTime Base MetarGroups Trend Metar Taf Stations SpecStation ProofStation.
Import ListNotations.
Local Open Scope string_scope.
Local Open Scope nat_scope.
Local Open Scope list_scope.

(** An ICAO code stands in one row only; 206 rows have the text None instead. *)
Theorem C49_unique : forall i j r r' c, c <> py "None" -> nth_error STATIONS i = Some r -> nth_error STATIONS j = Some r' ->
  icao_of r = Some c -> icao_of r' = Some c -> i = j.
Proof. exact unique_row. Qed.
Print Assumptions C49_unique.

(** Station(c, "ICAO") *)
Theorem C49_lookup : forall y mo c, c <> py "None" -> looked_up (database y mo) c (station_new (database y mo) (Some c)).
Proof. exact station_found. Qed.
Print Assumptions C49_lookup.

(** The station of a report; its group is never the text None. *)
Theorem C49_metar : forall y mo code year month tr x, metar_parse (database y mo) code year month tr = Ok x ->
  station_right (database y mo) (me_station x).
Proof. exact metar_station. Qed.
Print Assumptions C49_metar.

Theorem C49_taf : forall y mo code year month tr x, taf_parse (database y mo) code year month tr = Ok x ->
  station_right (database y mo) (ta_station x).
Proof. exact taf_station. Qed.
Print Assumptions C49_taf.

(** Every row has a country that the other table names, but for four codes. *)
Theorem C49_countries : forall r, In r STATIONS ->
  exists c, nth_error r 7 = Some c /\ ((exists n, In (c, n) COUNTRIES) \/ In c (map py ["CS"; "DN"; "TP"; "AN"])).
Proof. exact row_country. Qed.
Print Assumptions C49_countries.

(** The class itself takes the text None of the table for a code. *)
Theorem C49_refuted : st_name (station_new (database 2026 1) (Some (py "None"))) = Some (py "AK BARROW ARM-NSA").
Proof. vm_compute. reflexivity. Qed.
Print Assumptions C49_refuted.

Definition is_text (o : option str) (s : string) : bool := match o with Some t => str_eqb t (py s) | None => false end.
Example C49_case :
  match metar_parse (database 2026 1) (py "METAR MROC 071200Z 9999") (Some 2026%Z) (Some 1%Z) false with
  | Ok x => is_text (st_name (me_station x)) "JUAN SANTAMARIA" && is_text (st_country (database 2026 1) (me_station x)) "Costa Rica"
  | Raise _ => false
  end
  && match taf_parse (database 2026 1) (py "TAF ZZZZ 071200Z 0712/0812") (Some 2026%Z) (Some 1%Z) false with
     | Ok x => is_text (st_code (ta_station x)) "ZZZZ" && negb (is_some (st_name (ta_station x)))
     | Raise _ => false
     end
  && negb (is_some (st_country (database 2026 1) (station_new (database 2026 1) (Some (py "TNCB"))))) = true.
Proof. vm_compute. reflexivity. Qed.
