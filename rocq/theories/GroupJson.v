(** * to_json of groups and lists of groups *)
From Coq Require Import String Ascii.
From Coq Require Import List NArith ZArith Bool.
From Verif Require Import PyBase Base AsDict Json.
Import ListNotations.

(** Group.to_json, base/group.py:43-45, and Numeric.to_json,
    base/numeric.py:56-58: the dictionary is that of the class. *)
Definition group_json (d : dict) : str := dumps (VDict d).

(** GroupList.to_json, base/group.py:124-126 *)
Definition list_json {A} (f : A -> dict) (g : grouplist A) : result str :=
  d <- list_dict f g ;; Ok (dumps (VDict d)).
