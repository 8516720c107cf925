(** * The rows of the table of stations (C88): specification *)
From Coq Require Import String Ascii.
From Coq Require Import List NArith Bool.
From Verif Require Import PyBase Base SpecGroups.
Import ListNotations.
Local Open Scope string_scope.
Local Open Scope list_scope.

(** A number written with the digits 0 to 9 *)
Definition written (s : str) (n : N) : Prop :=
  s <> [] /\ Forall (fun c => (48 <= c <= 57)%N) s /\ fold_left (fun a c => a * 10 + (c - 48))%N s 0%N = n.

(** Degrees, a point, minutes and the direction *)
Definition degrees (places : nat) (below : N) (directions : list string) (s : str) : Prop :=
  exists d m h nd nm, s = d ++ py "." ++ m ++ py h
    /\ length d = places /\ written d nd /\ (nd < below)%N
    /\ length m = 2 /\ written m nm /\ (nm < 60)%N /\ In h directions.
Definition latitude : str -> Prop := degrees 2 90 ["N"; "S"].
Definition longitude : str -> Prop := degrees 3 180 ["E"; "W"].

(** Metres above, or at most 35 below, the level of the sea *)
Definition elevation (s : str) : Prop :=
  (exists n, written s n /\ (n <= 4057)%N) \/ (exists t n, s = py "-" ++ t /\ written t n /\ (n <= 35)%N).

(** An entry that may be missing *)
Definition maybe (P : str -> Prop) (s : str) : Prop := s = py "None" \/ P s.

Definition row_wf (longitude_wf : str -> Prop) (row : list str) : Prop :=
  exists name icao iata synop lat long elev country,
    row = [name; icao; iata; synop; lat; long; elev; country]
    /\ (name <> [] /\ Forall (fun c => (32 <= c <= 126)%N) name)
    /\ maybe station_wf icao
    /\ maybe (fun s => length s = 3 /\ Forall is_alnum s) iata
    /\ maybe (fun s => length s = 5 /\ exists n, written s n) synop
    /\ latitude lat /\ longitude_wf long /\ elevation elev
    /\ (length country = 2 /\ Forall is_upper country).

(** The only row whose longitude is not one, stations.py:4369 *)
Definition armstrong : list str :=
  map py ["ON ARMSTRONG (MARS)"; "CYYW"; "None"; "71841"; "50.18N"; ".88.54W"; "351"; "CN"].

(** A station with a place on the globe, but for the longitude of that row *)
Definition placed (s : station) : Prop :=
  exists lat long elev, st_latitude s = Some lat /\ st_longitude s = Some long /\ st_elevation s = Some elev
    /\ latitude lat /\ (longitude long \/ (st_code s = Some (py "CYYW") /\ long = py ".88.54W")) /\ elevation elev.
