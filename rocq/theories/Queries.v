(** * What a caller can ask of a report, and what asking changes

    A report that has been read is asked for its text, its dictionary, its
    flight rules and so on.  The lists of the code are their own iterators
    (base/group.py:66-76), so some questions move a cursor that later
    questions start from; here every question gives the answer and the report
    afterwards.

    Simplifications: a loop over a list is a complete one (loops left early
    are C05); a trend or change is reached by its position, not by a cursor;
    the lists handed out by [items], [sections] and [unparsed_groups] are not
    altered by the caller. *)
From Coq Require Import String Ascii.
From Coq Require Import List NArith ZArith Bool.
From Verif Require Import PyBase PyRegex PyFloat AeroRegex Base MetarGroups Trend Metar Taf AsDict Json.
Import ListNotations.
Local Open Scope list_scope.

(** Questions about the attributes shared by reports, trends and changes. *)
Inductive ask_attrs :=
| Rules                     (* x.flight_rules *)
| Cavok                     (* x.should_be_cavok() *)
| LoopWeathers              (* [w for w in x.weathers] *)
| LoopClouds                (* [c for c in x.clouds] *)
| Weather (i : Z)           (* x.weathers[i] *)
| Cloud (i : Z).            (* x.clouds[i] *)

(** Questions about a trend or a change. *)
Inductive ask_period :=
| PText                     (* str(p) *)
| PDict                     (* p.as_dict() *)
| PJson                     (* p.to_json() *)
| PAttr (q : ask_attrs).

(** Questions about a METAR. *)
Inductive ask_metar :=
| MText | MDict | MJson     (* str(x), x.as_dict(), x.to_json() *)
| MAttr (q : ask_attrs)
| MLoopRanges               (* [r for r in x.runway_ranges] *)
| MLoopWindshears           (* [w for w in x.windshears] *)
| MCodes                    (* [p.code for p in x.weather_trends] *)
| MTrend (i : nat) (q : ask_period).   (* x.weather_trends[i] asked q *)

(** Questions about a TAF. *)
Inductive ask_taf :=
| TText | TDict | TJson
| TAttr (q : ask_attrs)
| TLoopMax                  (* [t for t in x.max_temperatures] *)
| TLoopMin
| TCodes                    (* [p.code for p in x.changes_forecasted] *)
| TChange (i : nat) (q : ask_period).  (* x.changes_forecasted[i] asked q *)

Inductive answer :=
| AText (s : str)
| ADict (r : result dict)
| AJson (r : result str)
| ARules (o : option str)
| ACavok (r : result bool)
| AWeathers (l : list weather)
| AClouds (l : list cloud)
| AWeather (r : result weather)
| ACloud (r : result cloud)
| ARanges (l : list runway_range)
| AWindshears (l : list windshear)
| ATemps (l : list taf_temp)
| ACodes (l : list (option str))
| ANothing.                 (* there is no such trend or change *)

(** flight_rules.py:40-65, should_be_cavok.py:26-54, group.py:66-85 *)
Definition on_attrs (same : bool) (q : ask_attrs) (c : common) : answer * common :=
  match q with
  | Rules => (ARules (flight_rules c), c)
  | Cavok => match should_be_cavok same c with
             | Ok (b, c') => (ACavok (Ok b), c')
             | Raise x => (ACavok (Raise x), c)
             end
  | LoopWeathers => let (l, g) := gl_collect (c_weathers c) in (AWeathers l, set_weathers g c)
  | LoopClouds => let (l, g) := gl_collect (c_clouds c) in (AClouds l, set_clouds g c)
  | Weather i => (AWeather (gl_get (c_weathers c) i), c)
  | Cloud i => (ACloud (gl_get (c_clouds c) i), c)
  end.

(** Forecast, weather_trend.py:24-66, and Group.to_json, group.py:41-43;
    [after] is the buffer of the text once it has been asked for. *)
Definition on_period (same : bool) (code : option str) (text after : str) (q : ask_period) (c : common)
  : answer * common :=
  match q with
  | PText => (AText text, set_string after c)
  | PDict => let (d, c') := forecast_dict code c in (ADict (Ok d), c')
  | PJson => let (d, c') := forecast_dict code c in (AJson (Ok (dumps (VDict d))), c')
  | PAttr q => on_attrs same q c
  end.

(** A trend of a METAR keeps its buffer (string_attribute.py:18-19). *)
Definition on_trend (same : bool) (q : ask_period) (p : change_period) : answer * change_period :=
  let (a, c) := on_period same (cp_code p) (change_period_str p) (c_string (cp_common p)) q (cp_common p) in
  (a, cp_set_common c p).

(** A change of a TAF writes its buffer anew (change_forecast.py:32-36). *)
Definition cf_set_common (c : common) (p : change_fc) : change_fc :=
  mk_cf (cf_code p) (cf_valid p) c (cf_ind p) (cf_unparsed p).
Definition on_change (same : bool) (q : ask_period) (p : change_fc) : answer * change_fc :=
  let (a, c) := on_period same (cf_code p) (change_fc_str p) (change_fc_str p) q (cf_common p) in
  (a, cf_set_common c p).

(** A list with the item at a position asked, or with every item asked. *)
Fixpoint nth_set {A} (i : nat) (x : A) (l : list A) : list A :=
  match l, i with
  | [], _ => []
  | _ :: l', O => x :: l'
  | y :: l', S j => y :: nth_set j x l'
  end.
Definition gl_with {A} (l : list A) (g : grouplist A) : grouplist A := mk_gl (gl_n g) (gl_max g) l.
Definition ask_item {A} (f : A -> answer * A) (i : nat) (g : grouplist A) : answer * grouplist A :=
  match nth_error (gl_list g) i with
  | None => (ANothing, g)
  | Some p => let (a, p') := f p in (a, gl_with (nth_set i p' (gl_list g)) g)
  end.
Definition ask_items {A} (f : A -> answer * A) (g : grouplist A) : grouplist A :=
  gl_with (map (fun p => snd (f p)) (gl_list g)) g.

(** Metar.as_dict (metar.py:287-310) asks every trend for its dictionary
    (group.py:115-116); it cannot stop half way, since no list is longer
    than the ten labels. *)
Definition on_metar (e : env) (same : bool) (q : ask_metar) (x : metar) : answer * metar :=
  match q with
  | MText => (AText (metar_str x), x)
  | MDict => (ADict (metar_dict e x), upd_trends (ask_items (on_trend same PDict) (me_trends x)) x)
  | MJson => (AJson (metar_json e x), upd_trends (ask_items (on_trend same PDict) (me_trends x)) x)
  | MAttr q => let (a, c) := on_attrs same q (me_common x) in (a, upd_common c x)
  | MLoopRanges => let (l, g) := gl_collect (me_rvr x) in (ARanges l, upd_rvr g x)
  | MLoopWindshears => let (l, g) := gl_collect (me_ws x) in (AWindshears l, upd_ws g x)
  | MCodes => let (l, g) := gl_collect (me_trends x) in (ACodes (map cp_code l), upd_trends g x)
  | MTrend i q => let (a, g) := ask_item (on_trend same q) i (me_trends x) in (a, upd_trends g x)
  end.

(** Taf.as_dict, taf.py:212-229 *)
Definition on_taf (e : env) (same : bool) (q : ask_taf) (x : taf) : answer * taf :=
  match q with
  | TText => (AText (taf_str x), x)
  | TDict => (ADict (taf_dict e x), tupd_changes (ask_items (on_change same PDict) (ta_changes x)) x)
  | TJson => (AJson (taf_json e x), tupd_changes (ask_items (on_change same PDict) (ta_changes x)) x)
  | TAttr q => let (a, c) := on_attrs same q (ta_common x) in (a, tupd_common c x)
  | TLoopMax => let (l, g) := gl_collect (ta_max x) in (ATemps l, tupd_max g x)
  | TLoopMin => let (l, g) := gl_collect (ta_min x) in (ATemps l, tupd_min g x)
  | TCodes => let (l, g) := gl_collect (ta_changes x) in (ACodes (map cf_code l), tupd_changes g x)
  | TChange i q => let (a, g) := ask_item (on_change same q) i (ta_changes x) in (a, tupd_changes g x)
  end.

(** Several questions one after the other. *)
Fixpoint in_turn {Q X} (f : Q -> X -> answer * X) (qs : list Q) (x : X) : list answer * X :=
  match qs with
  | [] => ([], x)
  | q :: qs' => let (a, x1) := f q x in let (l, x2) := in_turn f qs' x1 in (a :: l, x2)
  end.
