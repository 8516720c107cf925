(** * The texts of RangeError, ValueError and TypeError *)
From Coq Require Import String Ascii.
From Coq Require Import List NArith ZArith Bool.
From Verif Require Import PyBase PyFloat PyTime Base MetarGroups Trend Metar Taf AsDict.
Import ListNotations.
Local Open Scope string_scope.
Local Open Scope list_scope.

(** str() of a class *)
Definition class_text (name : str) : str := py "<class '" ++ name ++ py "'>".

(** The text of the RangeError of [add], group.py:87-90, for a list of the
    class [cls] that takes [n] items *)
Definition add_text (n : nat) (cls : str) : str :=
  py "can't set more than " ++ N_str (N.of_nat n) ++ py " groups in " ++ class_text cls.
(** and of [__getitem__], group.py:76-79 *)
Definition get_text {A} (cls : str) (g : grouplist A) (i : Z) : option str :=
  if (Z.of_nat (gl_max g) <=? i)%Z
  then Some (py "can't get more than " ++ N_str (N.of_nat (gl_max g)) ++ py " items in " ++ class_text cls)
  else None.

(** metar/weather_trend.py:122, taf/temperature.py:59, taf/change_forecast.py:70 *)
Definition trends_class : str := py "aeromet_py.reports.models.metar.weather_trend.MetarWeatherTrends".
Definition temps_class : str := py "aeromet_py.reports.models.taf.temperature.TafTemperatureList".
Definition changes_class : str := py "aeromet_py.reports.models.taf.change_forecast.TafChangesForecasted".

(** The text of the RangeError raised in the loop metar.py:250-252; [None] when
    none is raised there.  A trend is read before it is added (metar.py:184-186). *)
Fixpoint trends_error (l : list str) (x : metar) : option str :=
  match l with
  | [] => None
  | [] :: l' => trends_error l' x
  | t :: l' =>
      match change_period_new t (t_dt (me_time x)) with
      | Raise _ => None
      | Ok p =>
          match gl_add p (me_trends x) with
          | Raise _ => Some (add_text (gl_max (me_trends x)) trends_class)
          | Ok g => trends_error l' (out_string (change_period_str p) (upd_out (me_out x ++ cp_out p) (upd_trends g x)))
          end
      end
  end.

(** The text of the RangeError that Metar(code, year, month) raises.  The lists
    of the body take as many items as there are handlers for them, so none of
    them is ever full (C43_body). *)
Definition metar_range_error (e : env) (code : str) (year month : option Z) : option str :=
  match (raw <- report_raw_code code ;; x <- metar_init e raw year month ;; parse_body e year month x) with
  | Ok x => trends_error (trend_codes (section 1 (me_sections x))) x
  | Raise _ => None
  end.

(** The same for the loop taf.py:180-182.  The list is the one of the class
    TafChangesForecasted; its own [add] (change_forecast.py:79-109) calls that of
    GroupList. *)
Fixpoint changes_error (l : list str) (x : taf) : option str :=
  match l with
  | [] => None
  | [] :: l' => changes_error l' x
  | t :: l' =>
      match change_fc_new t (ta_valid x) with
      | Raise _ => None
      | Ok p =>
          match changes_add p (ta_changes x) with
          | Raise RangeError => Some (add_text (gl_max (ta_changes x)) changes_class)
          | Raise _ => None
          | Ok g => changes_error l' (tout_string (change_fc_str p) (tupd_changes g x))
          end
      end
  end.

(** The text of the RangeError that Taf(code, year, month) raises.  Of the lists
    filled while the body is read only the two of temperatures can be full, and
    both are of one class and one size (taf.py:72-73). *)
Definition taf_range_error (e : env) (code : str) (year month : option Z) : option str :=
  match (raw <- report_raw_code code ;; taf_init e raw) with
  | Ok x0 =>
      match taf_parse_body e year month x0 with
      | Ok x => changes_error (ta_codes x) x
      | Raise RangeError => Some (add_text (gl_max (ta_max x0)) temps_class)
      | Raise _ => None
      end
  | Raise _ => None
  end.

(** str() of the keys of a dictionary, whose texts have nothing to escape *)
Definition keys_text (l : list str) : str :=
  py "dict_keys([" ++ join (py ", ") (map (fun k => py "'" ++ k ++ py "'") l) ++ py "])".
(** The text of the ValueError of [from_cardinal], base/wind.py:84-88 *)
Definition cardinal_text : str :=
  py "invalid cardinal direction code, use one of the following: " ++ keys_text (map fst COMPASS_DIRS).

(** type(value), for the values of [pyval] *)
Definition type_text (v : pyval) : str :=
  class_text (match v with
              | VNone => py "NoneType"
              | VBool _ => py "bool"
              | VStr _ => py "str"
              | VFloat _ => py "float"
              | VList _ => py "list"
              | VDict _ => py "dict"
              end).
(** The text of the TypeError of the setter of [cavok], metar/visibility.py:197-200 *)
Definition cavok_text (v : pyval) : option str :=
  match v with
  | VBool _ => None
  | _ => Some (py "can't set cavok to " ++ type_text v ++ py " type")
  end.
