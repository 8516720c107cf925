(** * The line of a replaced pressure (C61): specification

    Of two pressures the second is kept (C85), but both have a line in the
    text of the report. *)
From Coq Require Import String Ascii.
From Coq Require Import List NArith ZArith Bool.
From Verif Require Import PyBase PyRegex Base MetarGroups Trend Metar SpecGroups SpecKept SpecGrammar SpecRefused SpecGiven SpecStr SpecStated.
Import ListNotations.
Local Open Scope string_scope.
Local Open Scope nat_scope.
Local Open Scope list_scope.

(** The line of a pressure word is its value in hectopascals.  The words are
    those of the documented groups when they are typed in ASCII (C77). *)
Definition pressure_word (w line : str) : Prop :=
  exists v, line = pressure_str v /\ (typed w -> exists g, press_wf g /\ w = press_code g /\ hectopascals g v).

Definition metar_says (e : env) (code : str) (x : metar) : Prop :=
  exists t u ty first, takes metar_order 0 (words_of_body code) t u
    /\ type_line (py "METAR") (me_type x) ty
    /\ Forall2 pressure_word (removelast (given 19 2 t)) first
    /\ metar_str x = strip (lines (ty ++ concat (metar_before e x) ++ first ++ concat (metar_after x)
                                   ++ map change_period_str (gl_list (me_trends x))))
    /\ Forall trend_text (gl_list (me_trends x)).
