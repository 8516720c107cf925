(** * The lines a METAR prints, also when it is refused

    Metar.v keeps the printed lines in the object, so they are lost when an
    exception is raised.  Here they are followed to the exception.  The only
    print of the package is weather_trend.py:97; everything that can raise in
    the handler it belongs to comes before it. *)
From Coq Require Import String Ascii.
From Coq Require Import List NArith ZArith Bool.
From Verif Require Import PyBase PyRegex AeroRegex PyTime Utils Base MetarGroups Trend Metar.
Import ListNotations.
Local Open Scope string_scope.
Local Open Scope nat_scope.
Local Open Scope list_scope.

(** base/__init__.py:38-50: the object as the last handler that did not raise
    left it. *)
Fixpoint reached {S} (hs : list (handler S)) (groups : list str) (index : nat) (st : S) : S :=
  match groups with
  | [] => st
  | g :: gs =>
      match first_match (skipn index hs) 0 g with
      | Some (counter, h, m) =>
          match h_handle h m st with
          | Ok st' => reached hs gs (index + counter) st'
          | Raise _ => st
          end
      | None => reached hs gs index st
      end
  end.

(** ChangePeriod.__init__, weather_trend.py:72-81, 101-119 *)
Definition trend_prints (code : str) (t : datetime) : list str :=
  let gcode := replace (py "_") (py " ") code in
  match common_new [], trend_ind_new None t with
  | Ok c, Ok i => cp_out (reached trend_handlers (split_on 32%N (sanitize_visibility gcode)) 0 (mk_cp (Some gcode) (time_at t) c i [] []))
  | _, _ => []
  end.

(** The loop metar.py:250-252: a trend that is refused, or one too many, ends
    it. *)
Fixpoint trends_print (l : list str) (x : metar) : list str :=
  match l with
  | [] => []
  | [] :: l' => trends_print l' x
  | w :: l' => trend_prints w (t_dt (me_time x))
               ++ match handle_weather_trend w x with Ok x' => trends_print l' x' | Raise _ => [] end
  end.

(** Metar(code, year, month, truncate), metar.py:31-70; the error raised for
    [truncate] comes after the last line. *)
Definition metar_prints (e : env) (code : str) (year month : option Z) : list str :=
  match (raw <- report_raw_code code ;; x <- metar_init e raw year month ;; parse_body e year month x) with
  | Ok x => trends_print (trend_codes (section 1 (me_sections x))) x
  | Raise _ => []
  end.
