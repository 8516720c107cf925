(** * Stations (C49): specification *)
From Coq Require Import String Ascii.
From Coq Require Import List NArith ZArith Bool Lia.
From Verif Require Import PyBase Base Stations.
Import ListNotations.
Local Open Scope string_scope.
Local Open Scope nat_scope.
Local Open Scope list_scope.

(** The library with its own tables, at some date. *)
Definition database (year month : Z) : env := mk_env year month STATIONS COUNTRIES.

(** The columns are name, ICAO, IATA, SYNOP, latitude, longitude, elevation,
    country (stations.py:14-15); a missing entry is the text None. *)
Definition icao_of (row : list str) : option str := nth_error row 1.

(** The name of a country, where the table has one. *)
Definition country_named (code : str) (name : option str) : Prop :=
  match name with
  | Some n => In (code, n) COUNTRIES
  | None => forall n, ~ In (code, n) COUNTRIES
  end.

Definition shows (e : env) (s : station) (row : list str) : Prop :=
  exists name icao iata synop latitude longitude elevation country,
    row = [name; icao; iata; synop; latitude; longitude; elevation; country]
    /\ st_name s = Some name /\ st_icao s = Some icao /\ st_iata s = Some iata /\ st_synop s = Some synop
    /\ st_latitude s = Some latitude /\ st_longitude s = Some longitude /\ st_elevation s = Some elevation
    /\ country_named country (st_country e s).

Definition unknown (e : env) (s : station) : Prop :=
  st_name s = None /\ st_icao s = None /\ st_iata s = None /\ st_synop s = None
  /\ st_latitude s = None /\ st_longitude s = None /\ st_elevation s = None /\ st_country e s = None.

(** Only one place of the table has the code. *)
Definition only_row (c : str) (row : list str) : Prop :=
  exists i, nth_error STATIONS i = Some row /\ icao_of row = Some c
    /\ forall j r, nth_error STATIONS j = Some r -> icao_of r = Some c -> j = i.
Definition no_row (c : str) : Prop := forall r, In r STATIONS -> icao_of r <> Some c.

(** The station with this code, as the table has it. *)
Definition looked_up (e : env) (c : str) (s : station) : Prop :=
  (exists row, only_row c row /\ shows e s row) \/ (no_row c /\ unknown e s).
Definition station_right (e : env) (s : station) : Prop :=
  match st_code s with Some c => looked_up e c s | None => unknown e s end.
