(** * What C66 says: which parts of a report depend on which parts of its text *)
From Coq Require Import String Ascii.
From Coq Require Import List NArith ZArith Bool.
From Verif Require Import PyBase PyTime Base MetarGroups Trend Metar Taf SpecText.
Import ListNotations.
Local Open Scope list_scope.

(** What the body of a METAR says. *)
Definition body_part (x : metar) :=
  (me_type x, me_station x, me_time x, me_modifier x, c_wind (me_common x), me_wvar x, c_vis (me_common x), me_minvis x,
   me_rvr x, c_weathers (me_common x), c_clouds (me_common x), me_temps x, me_press x, me_recent x, me_ws x, me_sea x, me_rwy x).

(** Everything but the raw code and the sections. *)
Definition but_text (x : metar) :=
  (me_unparsed x, body_part x, c_string (me_common x), me_trends x, me_out x).

(** What the body of a TAF says. *)
Definition taf_part (x : taf) :=
  (ta_type x, ta_station x, ta_time x, ta_modifier x, ta_valid x, ta_missing x, ta_cancelled x, c_wind (ta_common x),
   c_vis (ta_common x), c_weathers (ta_common x), c_clouds (ta_common x), ta_max x, ta_min x).

Definition on_ok {A B} (f : A -> B) (r : result A) : result B :=
  match r with Ok a => Ok (f a) | Raise e => Raise e end.

(** Two changes of TAFs that say the same, but for the end of an FM period. *)
Definition fm (c : option str) : Prop := exists s, c = Some (py "FM" ++ s).
Record same_change (p q : change_fc) : Prop := {
  sc_code : cf_code p = cf_code q;
  sc_valid : cf_valid p = cf_valid q;
  sc_common : cf_common p = cf_common q;
  sc_unparsed : cf_unparsed p = cf_unparsed q;
  sc_ind : tc_code (cf_ind p) = tc_code (cf_ind q);
  sc_from : va_from (tc_valid (cf_ind p)) = va_from (tc_valid (cf_ind q));
  sc_rest : ~ fm (tc_code (cf_ind p)) -> p = q }.

(** A group that opens a section: a trend or the remark. *)
Definition opening (w : str) : Prop := begins_any section_words w = true.
(** A word of the text: no [=] and no [|] in it. *)
Definition plain_word (w : str) : Prop := word w /\ ~ In 61%N w /\ ~ In 124%N w.
(** A text that shows the groups [ws]: any layout, whitespace around it, an
    end mark or none. *)
Definition written (ws : list str) (t : str) : Prop :=
  exists t0 a e b, laid_out ws t0 /\ blanks a /\ blanks b /\ (e = [] \/ e = py "=") /\ t = a ++ t0 ++ e ++ b.
