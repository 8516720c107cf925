(** * What the texts of RangeError, ValueError and TypeError should say *)
From Coq Require Import String Ascii.
From Coq Require Import List NArith Bool.
From Verif Require Import PyBase AsDict.
Import ListNotations.
Local Open Scope string_scope.
Local Open Scope list_scope.

(** A word is listed in a text when it stands there between quotation marks. *)
Definition quoted (text word : str) : Prop := exists a b, text = a ++ py "'" ++ word ++ py "'" ++ b.
(** A word of letters *)
Definition lettered (word : str) : Prop := Forall (fun c => (65 <= c <= 90)%N) word.

(** The texts for a METAR with too many trends, and for a TAF with too many
    temperatures or changes *)
Definition many_trends : str :=
  py "can't set more than 2 groups in <class 'aeromet_py.reports.models.metar.weather_trend.MetarWeatherTrends'>".
Definition many_temps : str :=
  py "can't set more than 2 groups in <class 'aeromet_py.reports.models.taf.temperature.TafTemperatureList'>".
Definition many_changes : str :=
  py "can't set more than 8 groups in <class 'aeromet_py.reports.models.taf.change_forecast.TafChangesForecasted'>".

(** Two values of one type *)
Definition same_type (v w : pyval) : Prop :=
  match v, w with
  | VNone, VNone | VBool _, VBool _ | VStr _, VStr _ | VFloat _, VFloat _ | VList _, VList _ | VDict _, VDict _ => True
  | _, _ => False
  end.
