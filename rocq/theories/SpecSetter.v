(** * What C74 says: setting CAVOK changes one entry *)
From Coq Require Import String Ascii.
From Coq Require Import List NArith ZArith Bool.
From Verif Require Import PyBase PyFloat Base SpecDict Queries.
Import ListNotations.
Local Open Scope string_scope.
Local Open Scope list_scope.

(** A row of a dictionary once CAVOK has been set. *)
Definition told (b : bool) (r : row) : row :=
  match fst r with
  | [Key k; Key l] => if str_eqb k (py "prevailing_visibility") && str_eqb l (py "cavok") then (fst r, Flag b) else r
  | _ => r
  end.

(** Questions about anything but the dictionary. *)
Definition apart_metar (q : ask_metar) : Prop := match q with MDict | MJson => False | _ => True end.
Definition apart_taf (q : ask_taf) : Prop := match q with TDict | TJson => False | _ => True end.
