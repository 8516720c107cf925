(** * The lines of the changes of a forecast (C61): specification

    The text of a TAF shows its FM changes as they were before later changes
    ended them. *)
From Coq Require Import String Ascii.
From Coq Require Import List NArith ZArith Bool.
From Verif Require Import PyBase PyTime Base MetarGroups Trend Metar Taf SpecTime SpecKept SpecStr SpecClocked.
From Verif Require SpecTaf.
Import ListNotations.
Local Open Scope string_scope.
Local Open Scope nat_scope.
Local Open Scope list_scope.

(** The end of the forecast, or that of a validity group behind FM. *)
Definition ends_first (v : valid) (until : time) : Prop :=
  until = va_until v \/ exists w, own_validity (t_dt (va_from v)) w /\ until = va_until w.

Definition change_says (v : valid) (p : change_fc) (line : str) : Prop :=
  (SpecTaf.is_from p -> exists until, ends_first v until
     /\ line = py "from " ++ time_str (va_from (tc_valid (cf_ind p))) ++ py " until " ++ time_str until ++ [10%N])
  /\ (~ SpecTaf.is_from p -> line = change_fc_str p).

Definition taf_says (e : env) (x : taf) : Prop :=
  exists ty temps changes, type_line (py "TAF") (ta_type x) ty
    /\ weave (map taf_temp_str (gl_list (ta_max x))) (map taf_temp_str (gl_list (ta_min x))) temps
    /\ Forall2 (change_says (ta_valid x)) (gl_list (ta_changes x)) changes
    /\ taf_str x = strip (lines (ty ++ concat (taf_lines e x) ++ temps ++ changes)).
