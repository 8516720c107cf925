(** * Specification for C63: how long a validity lasts *)
From Coq Require Import List NArith ZArith.
From Verif Require Import PyBase PyTime Base Taf SpecTime.
Import ListNotations.
Local Open Scope list_scope.

(** A validity of a forecast: its own, or that of one of its changes. *)
Definition validity_of (x : taf) (v : valid) : Prop :=
  v = ta_valid x \/ exists p, In p (gl_list (ta_changes x)) /\ (v = cf_valid p \/ v = tc_valid (cf_ind p)).

(** It ends [z] minutes after it begins; before that for a negative [z]. *)
Definition lasts (v : valid) (z : Z) : Prop :=
  (exists k, z = Z.of_nat k /\ minutes_later k (t_dt (va_from v)) (t_dt (va_until v)))
  \/ (exists k, z = (- Z.of_nat k)%Z /\ minutes_later k (t_dt (va_until v)) (t_dt (va_from v))).
