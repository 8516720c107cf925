(** * Words that fit two kinds of groups (C79): specification vocabulary *)
From Coq Require Import String Ascii.
From Coq Require Import List NArith ZArith Bool.
From Verif Require Import PyBase PyRegex AeroRegex SpecNum SpecGroups SpecGrammar SpecForeign.
Import ListNotations.
Local Open Scope string_scope.
Local Open Scope list_scope.

(** The patterns of a trend (metar.py) and of a change of a TAF
    (change_forecast.py); those of the bodies are in SpecForeign. *)
Definition trend_patterns : list regex := [r_CHANGE_INDICATOR; r_TREND_TIME_PERIOD; r_WIND; r_VISIBILITY; r_WEATHER; r_CLOUD].
Definition change_patterns : list regex := [r_T_CHANGE_INDICATOR; r_T_VALID; r_T_WIND; r_VISIBILITY; r_WEATHER; r_CLOUD].

(** Two entries of a list, the first of them earlier. *)
Fixpoint pairs {A} (l : list A) : list (A * A) := match l with [] => [] | x :: l' => map (fun y => (x, y)) l' ++ pairs l' end.
(** Two kinds of groups have the word. *)
Definition shared (kinds : list regex) (w : str) : Prop := exists r r', In (r, r') (pairs kinds) /\ accepts r w /\ accepts r' w.

(** ** Words like a station *)

Definition phenomena : table := precipitations ++ obscurations ++ others.
Definition nearby : table := [("VC", "nearby")].
(** Four letters of weather: nearby, a descriptor, a phenomenon; two of these. *)
Definition weather_letters (w : str) : Prop :=
  exists a b, ((In a nearby /\ In b (descriptors ++ phenomena)) \/ (In a descriptors /\ In b phenomena)) /\ w = code_of a ++ code_of b.
(** Recent weather of one descriptor or phenomenon, FU not among them. *)
Definition recent_letters (w : str) : Prop :=
  exists a, In a (descriptors ++ phenomena) /\ fst a <> "FU" /\ w = py "RE" ++ code_of a.
(** A limit and one digit in miles or kilometres, or two digits of the other units. *)
Definition limit_letters (w : str) : Prop :=
  exists l two n u, (n < 10 ^ (if two : bool then 2 else 1))%N /\ In u (if two then ["M"; "U"] else ["SM"; "KM"])
    /\ w = limit_code (Some l) ++ one_or_two two n ++ py u.
Definition like_station (w : str) : Prop :=
  In w (map (fun x => py x) ["CORR"; "AUTO"; "TEST"; "FINO"; "VVCB"]) \/ weather_letters w \/ recent_letters w \/ limit_letters w.

(** ** Words like a visibility *)

(** Four digits or four strokes. *)
Definition bare (w : str) : Prop := (exists n, (n < 10000)%N /\ w = digits 4 n) \/ w = py "////".

(** Stations that begin with a visibility: its unit, or a limit and its unit,
    or a limit, a digit and its unit. *)
Definition unit_ahead (w : str) : Prop :=
  exists g t, long_wf g /\ lo_link g = false /\ lo_frac g = None /\ (lo_limit g = None -> lo_int g = None) /\ w = long_code g ++ t.
(** Winds that begin with four digits. *)
Definition wind_digits (w : str) : Prop :=
  exists g t wide n, wind_whole g /\ wg_dir g = DirDeg t /\ wg_speed g = Spd false wide n /\ w = wind_code g.
(** Shallow weather and unknown precipitation, in which M and U pass for units. *)
Definition shallow (w : str) : Prop := w = py "UP" \/ exists p, opt_all phenomenon_wf p /\ w = py "MI" ++ opt phenomenon_code p.
