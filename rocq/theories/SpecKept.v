(** * Every word of a report is accounted for (C60): specification vocabulary

    Reading a report consists of joining a few pairs of words by an
    underscore, cutting the text at the blanks and giving some of the words
    to the fields.  The specification describes the three steps without the
    regular expressions, the dispatcher or the handlers. *)
From Coq Require Import String Ascii.
From Coq Require Import List NArith ZArith Bool Lia.
From Verif Require Import PyBase Base MetarGroups Trend Metar Taf SpecText.
Import ListNotations.
Local Open Scope string_scope.
Local Open Scope nat_scope.
Local Open Scope list_scope.

(** ** Joined words *)

Definition numerals (s : str) : Prop := s <> [] /\ Forall (fun c => is_digit c = true) s.

(** [d/dSM] *)
Definition mile_fraction (s : str) : Prop :=
  exists a b, is_digit a = true /\ is_digit b = true /\ s = a :: py "/" ++ b :: py "SM".

(** [dd], [ddL], [ddC] or [ddR] *)
Definition runway_number (s : str) : Prop :=
  exists a b z, is_digit a = true /\ is_digit b = true /\ In z [[]; py "L"; py "C"; py "R"] /\ s = a :: b :: z.

(** [joined s s']: the only changes from [s] to [s'] are pairs of words
    written as one: a number and a fraction of statute miles, the words of a
    windshear group, PROBnn and TEMPO. *)
Inductive joined : str -> str -> Prop :=
| j_same : forall s, joined s s
| j_mixed : forall a b1 i b2 f b3 t s,
    blank b1 -> numerals i -> blank b2 -> mile_fraction f -> b3 = [] \/ (exists c, b3 = [c] /\ blank c) ->
    joined (a ++ py " " ++ i ++ py "_" ++ f ++ py " " ++ t) s ->
    joined (a ++ b1 :: i ++ b2 :: f ++ b3 ++ t) s
| j_all : forall a b1 b2 t s, blank b1 -> blank b2 ->
    joined (a ++ py "WS_ALL_RWY" ++ t) s -> joined (a ++ py "WS" ++ b1 :: py "ALL" ++ b2 :: py "RWY" ++ t) s
| j_runway : forall a b r n t s, blank b -> In r [py "R"; py "RWY"] -> runway_number n ->
    joined (a ++ py "WS_R" ++ n ++ t) s -> joined (a ++ py "WS" ++ b :: r ++ n ++ t) s
| j_prob : forall a p b t s, In p [py "PROB30"; py "PROB40"] -> blank b ->
    joined (a ++ p ++ py "_TEMPO" ++ t) s -> joined (a ++ p ++ b :: py "TEMPO" ++ t) s.

(** ** Words and codes *)

(** [weave l r w]: the list [w] consists of [l] and [r], each in its order. *)
Inductive weave {A} : list A -> list A -> list A -> Prop :=
| w_end : weave [] [] []
| w_left : forall x l r w, weave l r w -> weave (x :: l) r (x :: w)
| w_right : forall x l r w, weave l r w -> weave l (x :: r) (x :: w).

(** A code shows the underscores of its word as blanks. *)
Definition blanked (w : str) : str := map (fun c => if N.eqb c 95 then 32%N else c) w.

(** The words of a text are the ones left over and the ones that are now the
    codes of the fields, both in the order of the text. *)
Definition accounted (text : str) (left codes : list str) : Prop :=
  exists prepared words taken,
    joined text prepared
    /\ prepared = join (py " ") words /\ Forall (fun w => ~ In 32%N w) words
    /\ weave left taken words /\ map blanked taken = codes.

(** ** The codes of the fields, in the order of the fields *)

Definition code_of_field (c : option str) : list str := match c with Some w => [w] | None => [] end.
Definition code_of_list {A} (f : A -> option str) (l : grouplist A) : list str :=
  flat_map (fun x => code_of_field (f x)) (gl_list l).

(** The type: without a word for it the report says [METAR] or [TAF]. *)
Definition type_codes (default : str) (t : report_type) (codes : list str) : Prop :=
  codes = code_of_field (ty_code t) \/ (codes = [] /\ ty_code t = Some default).

Definition common_codes (c : common) : list str :=
  code_of_list we_code (c_weathers c) ++ code_of_list cl_code (c_clouds c).

(** METAR: from the station to the temperatures, and from the pressure on. *)
Definition metar_codes_before (x : metar) : list str :=
  code_of_field (st_code (me_station x)) ++ code_of_field (t_code (me_time x)) ++ code_of_field (mo_code (me_modifier x))
  ++ code_of_field (w_code (c_wind (me_common x))) ++ code_of_field (wv_code (me_wvar x))
  ++ code_of_field (v_code (c_vis (me_common x))) ++ code_of_field (v_code (me_minvis x))
  ++ code_of_list rr_code (me_rvr x) ++ common_codes (me_common x) ++ code_of_field (te_code (me_temps x)).
Definition metar_codes_after (x : metar) : list str :=
  code_of_field (pr_code (me_press x)) ++ code_of_field (rw_code (me_recent x)) ++ code_of_list ws_code (me_ws x)
  ++ code_of_field (se_code (me_sea x)) ++ code_of_field (rs_code (me_rwy x)).

(** When two pressures are given (in hPa and in inHg) the first one is replaced. *)
Definition replaced (p : pressure) (codes : list str) : Prop :=
  codes = [] \/ ((exists w, codes = [w]) /\ pr_code p <> None).

Definition metar_body_kept (x : metar) (left : list str) : Prop :=
  exists ty first, type_codes (py "METAR") (me_type x) ty /\ replaced (me_press x) first
    /\ accounted (nth 0 (me_sections x) []) left (ty ++ metar_codes_before x ++ first ++ metar_codes_after x).

(** A trend: the indicator with its times is one code. *)
Definition trend_kept (p : change_period) : Prop :=
  exists text ind, cp_code p = Some text
    /\ length ind <= 3 /\ match ti_code (cp_ind p) with Some c => ind <> [] /\ c = join (py " ") ind | None => ind = [] end
    /\ accounted text (cp_unparsed p)
         (ind ++ code_of_field (w_code (c_wind (cp_common p))) ++ code_of_field (v_code (c_vis (cp_common p)))
          ++ common_codes (cp_common p)).

(** TAF body: the temperatures of the two lists come in any order. *)
Definition taf_codes_before (x : taf) : list str :=
  code_of_field (mo_code (ta_modifier x)) ++ code_of_field (st_code (ta_station x)) ++ code_of_field (t_code (ta_time x))
  ++ code_of_field (mo_code (mi_mod (ta_missing x))) ++ code_of_field (va_code (ta_valid x))
  ++ code_of_field (ca_code (ta_cancelled x)) ++ code_of_field (w_code (c_wind (ta_common x)))
  ++ code_of_field (v_code (c_vis (ta_common x))) ++ common_codes (ta_common x).

Definition taf_body_kept (x : taf) (left : list str) : Prop :=
  exists ty temps, type_codes (py "TAF") (ta_type x) ty
    /\ weave (code_of_list tt_code (ta_max x)) (code_of_list tt_code (ta_min x)) temps
    /\ accounted (nth 0 (ta_sections x) []) left (ty ++ taf_codes_before x ++ temps).

(** A change: its indicator is one code with the period, but FMddhhmm drops a
    period that follows. *)
Definition change_kept (p : change_fc) : Prop :=
  exists text ind, cf_code p = Some text
    /\ length ind <= 2
    /\ match tc_code (cf_ind p) with
       | Some c => ind <> [] /\ (c = join (py " ") ind \/ (starts_with (py "FM") c = true /\ hd [] ind = blanked c))
       | None => ind = []
       end
    /\ accounted text (cf_unparsed p)
         (ind ++ code_of_field (w_code (c_wind (cf_common p))) ++ code_of_field (v_code (c_vis (cf_common p)))
          ++ common_codes (cf_common p)).

(** ** The texts of the trends and changes *)

(** The parts of a section, written with a blank between them, of which the
    empty ones are skipped. *)
Definition written_in (section : str) (texts : list (option str)) : Prop :=
  exists parts, section = join (py " ") parts
    /\ texts = map Some (filter (fun p => match p with [] => false | _ => true end) parts).

(** A bar, which the program itself uses to mark the trends, is a blank too. *)
Definition unbarred (s : str) : str := map (fun c => if N.eqb c 124 then 32%N else c) s.

(** ** The reports *)

Definition metar_words_kept (x : metar) : Prop :=
  exists left, me_unparsed x = left ++ flat_map cp_unparsed (gl_list (me_trends x))
    /\ metar_body_kept x left
    /\ written_in (blanked (unbarred (nth 1 (me_sections x) []))) (map cp_code (gl_list (me_trends x)))
    /\ Forall trend_kept (gl_list (me_trends x)).

Definition taf_words_kept (x : taf) : Prop :=
  exists left, ta_unparsed x = left ++ flat_map cf_unparsed (gl_list (ta_changes x))
    /\ taf_body_kept x left
    /\ written_in (nth 1 (ta_sections x) []) (map cf_code (gl_list (ta_changes x)))
    /\ Forall change_kept (gl_list (ta_changes x)).
