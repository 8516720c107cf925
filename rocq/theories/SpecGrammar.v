(** * Which words the patterns accept (C77): specification vocabulary *)
From Coq Require Import String Ascii.
From Coq Require Import List NArith ZArith Bool.
From Verif Require Import PyBase PyRegex SpecNum SpecGroups.
Import ListNotations.
Local Open Scope string_scope.
Local Open Scope list_scope.

(** A word of ASCII characters without a line break. *)
Definition typed (w : str) : Prop := Forall (fun c => (c < 128)%N /\ c <> 10%N) w.
Definition accepts (r : regex) (w : str) : Prop := re_match r w <> None.
(** The word is a group of the documented form (SpecGroups). *)
Definition documented {G} (wf : G -> Prop) (code : G -> str) (w : str) : Prop := exists g, wf g /\ w = code g.
Definition of_table (t : table) (w : str) : Prop := exists x, In x t /\ w = code_of x.
Definition begins (p : str) (w : str) : Prop := exists t, w = p ++ t.

(** ** Accepted although not documented *)

(** A wind whose speed is missing but above something. *)
Definition gust_code (g : option (bool * bool * N)) : str := opt (fun '(p, w, n) => py "G" ++ flag p "P" ++ digits (width w) n) g.
Definition units_code (u : wunits) : str := match u with KT => py "KT" | MPS => py "MPS" end.
Definition wind_above (w : str) : Prop :=
  exists g wide, wind_wf g /\ wg_speed g = SpdNone wide
    /\ w = wdir_code (wg_dir g) ++ py "P" ++ wspeed_code (SpdNone wide) ++ gust_code (wg_gust g) ++ units_code (wg_units g).
(** A wind of a TAF: nothing is missing. *)
Definition wind_whole (g : wind_g) : Prop := wind_wf g /\ wg_dir g <> DirNone /\ (forall wide, wg_speed g <> SpdNone wide).

(** A direction that is no point of the compass. *)
Definition odd_points : list string := ["EE"; "EW"; "WE"; "WW"].
Definition odd_direction (w : str) : Prop :=
  exists d, In d odd_points /\ ((exists n, (n < 10000)%N /\ w = digits 4 n ++ py d) \/ w = py "////" ++ py d).
Definition min_wf (g : vis_g) : Prop := vis_wf g /\ min_vis g.

(** A visibility with units: limit, whole part, underscore, fraction, unit. *)
Record long_g := mk_long { lo_limit : option bool; lo_int : option (bool * N); lo_link : bool; lo_frac : option (N * N); lo_unit : string }.
Definition long_wf (g : long_g) : Prop :=
  opt_all (fun '(two, n) => (n < 10 ^ (if two : bool then 2 else 1))%N) (lo_int g)
  /\ opt_all (fun '(a, b) => (a < 10)%N /\ (b < 10)%N) (lo_frac g) /\ In (lo_unit g) ["SM"; "KM"; "M"; "U"].
Definition long_code (g : long_g) : str :=
  limit_code (lo_limit g) ++ opt (fun '(two, n) => one_or_two two n) (lo_int g) ++ flag (lo_link g) "_"
  ++ opt (fun '(a, b) => digits 1 a ++ py "/" ++ digits 1 b) (lo_frac g) ++ py (lo_unit g).
(** What the documentation has no such group for. *)
Definition long_odd (g : long_g) : Prop :=
  lo_unit g = "M" \/ lo_unit g = "U"
  \/ (lo_int g = None /\ lo_frac g = None)
  \/ (lo_link g = true /\ (lo_int g = None \/ lo_frac g = None))
  \/ (lo_link g = false /\ lo_int g <> None /\ lo_frac g <> None)
  \/ (exists a, lo_frac g = Some (a, 0%N))
  \/ (lo_unit g = "KM" /\ lo_frac g <> None).
Definition odd_long (w : str) : Prop := exists g, long_wf g /\ long_odd g /\ w = long_code g.

(** An overcast layer spelled with a zero. *)
Definition zero_vc (w : str) : Prop :=
  exists g, cloud_wf g /\ fst (fst (cg_cover g)) = "OVC" /\ w = py "0VC" ++ cheight_code (cg_height g) ++ ctype_code (cg_type g).

(** A missing temperature with a sign. *)
Definition sign_code (s : bool) : str := if s then py "M" else py "-".
Definition side (t : tside) (u : str) : Prop :=
  u = tside_code t \/ exists f s, t = TMissing f /\ u = sign_code s ++ py f.
Definition signed_missing (w : str) : Prop :=
  exists g u v, temps_wf g /\ side (tg_temp g) u /\ side (tg_dewpt g) v /\ w = u ++ py "/" ++ v /\ (u <> tside_code (tg_temp g) \/ v <> tside_code (tg_dewpt g)).

(** Windshear on a runway that is not named, or on all of one. *)
Definition odd_shear (w : str) : Prop := w = py "WS_RWY" \/ exists r, runway_wf r /\ w = py "WS_ALL_R" ++ runway_code r.

(** ** Times *)

Definition day (d : N) : Prop := (1 <= d <= 31)%N.
Definition written_time (w : str) : Prop :=
  exists d h m, day d /\ (h <= 24)%N /\ (m <= 59)%N /\ w = digits 2 d ++ digits 2 h ++ digits 2 m ++ py "Z".
Definition written_period (w : str) : Prop :=
  exists p h m, In p ["FM"; "TL"; "AT"] /\ (h <= 24)%N /\ (m <= 59)%N /\ w = py p ++ digits 2 h ++ digits 2 m.
Definition written_validity (w : str) : Prop :=
  exists d h d' h', day d /\ (h <= 23)%N /\ day d' /\ (h' <= 24)%N /\ w = digits 2 d ++ digits 2 h ++ py "/" ++ digits 2 d' ++ digits 2 h'.
Definition written_from (w : str) : Prop :=
  exists d h m, day d /\ (h <= 23)%N /\ (m <= 59)%N /\ w = py "FM" ++ digits 2 d ++ digits 2 h ++ digits 2 m.
Definition written_extreme (w : str) : Prop :=
  exists k minus n d h, In k ["N"; "X"] /\ (n < 100)%N /\ day d /\ (h <= 23)%N
    /\ w = py "T" ++ py k ++ flag minus "M" ++ digits 2 n ++ py "/" ++ digits 2 d ++ digits 2 h ++ py "Z".
