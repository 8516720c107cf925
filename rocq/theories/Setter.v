(** * Setting CAVOK by hand *)
From Coq Require Import String Ascii.
From Coq Require Import List NArith ZArith Bool.
From Verif Require Import PyBase PyFloat PyTime Base MetarGroups Trend Metar Taf AsDict.
Import ListNotations.
Local Open Scope list_scope.

(** The setter of [cavok], metar/visibility.py:189-200.  The values a caller
    can give are those of [pyval]. *)
Definition set_cavok (value : pyval) (v : visibility) : result visibility :=
  match value with
  | VBool b => Ok (mk_vis (v_code v) (v_vis v) (v_dir v) b)
  | _ => Raise TypeError
  end.

(** [x.prevailing_visibility.cavok = value] on a METAR, a TAF, and a trend or
    change (metar/visibility.py:216-222); the assignment changes the object
    the report holds. *)
Definition common_set_cavok (value : pyval) (c : common) : result common :=
  v <- set_cavok value (c_vis c) ;; Ok (mk_common (c_string c) (c_wind c) v (c_weathers c) (c_clouds c)).
Definition metar_set_cavok (value : pyval) (x : metar) : result metar :=
  c <- common_set_cavok value (me_common x) ;; Ok (upd_common c x).
Definition taf_set_cavok (value : pyval) (x : taf) : result taf :=
  c <- common_set_cavok value (ta_common x) ;; Ok (tupd_common c x).
