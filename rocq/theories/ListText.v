(** * Texts of lists of groups: base/group.py and metar/windshear.py *)
From Coq Require Import String Ascii.
From Coq Require Import List NArith Bool.
From Verif Require Import PyBase Base MetarGroups.
Import ListNotations.
Local Open Scope list_scope.

(** GroupList.__str__, group.py:60-61 *)
Definition list_str {A} (text : A -> str) (l : list A) : str := join (py " | ") (map text l).

(** MetarWindshearList.__str__, windshear.py:67-71 *)
Definition windshear_list_str (g : grouplist windshear) : str :=
  if all_runways (gl_list g) then py "all runways" else list_str windshear_str (gl_list g).
