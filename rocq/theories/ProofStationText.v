(** * The text of a station: proof *)
From Coq Require Import String Ascii.
From Coq Require Import List NArith ZArith Bool Lia.
From Verif Require Import PyBase PyRegex PyTime Base MetarGroups Trend Metar Taf Stations SpecText SpecStation ProofStation SpecStationText.
Import ListNotations.
Local Open Scope string_scope.
Local Open Scope nat_scope.
Local Open Scope list_scope.
Local Opaque STATIONS COUNTRIES.

Lemma place_is : forall a b c d f, place a b c d f
  = py "Name: " ++ a ++ py " | " ++ py "Coordinates: " ++ b ++ py " " ++ c
    ++ py " | " ++ py "Elevation: " ++ d ++ py " m MSL | " ++ py "Country: " ++ f.
Proof.
  intros a b c d f. unfold place, sentence. cbn. repeat (rewrite <- ?app_assoc; cbn). reflexivity.
Qed.

Lemma right_text : forall e s, station_right e s -> says_station (st_code s) (station_str e s).
Proof.
  assert (U : forall e s, unknown e s -> station_str e s = no_text).
  { intros e s (E1 & _ & _ & _ & E2 & E3 & E4 & E5). unfold station_str, no_text. rewrite E1, E2, E3, E4, E5. cbv zeta. rewrite place_is. reflexivity. }
  intros e s H. unfold station_right, says_station in *. destruct (st_code s) as [c|]; [|exact (U e s H)].
  destruct H as [(row & O & name & icao & iata & synop & la & lo & el & co & -> & E1 & _ & _ & _ & E2 & E3 & E4 & E5)|[N H]].
  - left. eexists. split; [exact O|]. exists name, icao, iata, synop, la, lo, el, co, (fmt_opt (st_country e s)).
    split; [reflexivity|]. split.
    + destruct (st_country e s) as [n|]; [left; exact E5|right; split; [reflexivity|exact E5]].
    + unfold station_str. rewrite E1, E2, E3, E4, place_is. reflexivity.
  - right. split; [exact N|exact (U e s H)].
Qed.

Lemma metar_station_text : forall y mo code year month tr x, metar_parse (database y mo) code year month tr = Ok x ->
  says_station (st_code (me_station x)) (station_str (database y mo) (me_station x)).
Proof. intros y mo code year month tr x H. apply right_text. eapply metar_station. exact H. Qed.

Lemma taf_station_text : forall y mo code year month tr x, taf_parse (database y mo) code year month tr = Ok x ->
  says_station (st_code (ta_station x)) (station_str (database y mo) (ta_station x)).
Proof. intros y mo code year month tr x H. apply right_text. eapply taf_station. exact H. Qed.
