(** * The text of a station: specification *)
From Coq Require Import String Ascii.
From Coq Require Import List NArith ZArith Bool Lia.
From Verif Require Import PyBase Stations SpecText SpecStation.
Import ListNotations.
Local Open Scope string_scope.
Local Open Scope nat_scope.
Local Open Scope list_scope.

(** Four parts with a bar between them. *)
Definition place (name latitude longitude elevation country : str) : str :=
  join (py " | ") [sentence [py "Name:"; name]; sentence [py "Coordinates:"; latitude; longitude];
                   sentence [py "Elevation:"; elevation; py "m"; py "MSL"]; sentence [py "Country:"; country]].

(** From a row of the table; a country the other table does not name is None. *)
Definition row_text (row : list str) (text : str) : Prop :=
  exists name icao iata synop latitude longitude elevation code country,
    row = [name; icao; iata; synop; latitude; longitude; elevation; code]
    /\ (In (code, country) COUNTRIES \/ country = py "None" /\ forall n, ~ In (code, n) COUNTRIES)
    /\ text = place name latitude longitude elevation country.
Definition no_text : str := let n := py "None" in place n n n n n.

(** The text for a code: that of its only row, or five times None. *)
Definition says_station (code : option str) (text : str) : Prop :=
  match code with
  | Some c => (exists row, only_row c row /\ row_text row text) \/ (no_row c /\ text = no_text)
  | None => text = no_text
  end.
