(** * A line that is printed: specification (C53) *)
From Coq Require Import String Ascii.
From Coq Require Import List NArith ZArith Bool.
From Verif Require Import PyBase PyTime Base.
Import ListNotations.
Local Open Scope string_scope.
Local Open Scope list_scope.

(** [print] of a time, or of the absent AT time. *)
Definition line (s : str) : Prop := s = py "None" \/ exists t, s = time_str t.
