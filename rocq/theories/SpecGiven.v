(** * Which field gets which word (C85): specification

    The words of a report are offered to the patterns in their order (C83,
    C84); the words a pattern takes are the codes of its field. *)
From Coq Require Import String Ascii.
From Coq Require Import List NArith ZArith Bool.
From Verif Require Import PyBase PyRegex AeroRegex Base MetarGroups Trend Metar Taf SpecKept SpecRefused SpecRefusedTaf.
Import ListNotations.
Local Open Scope string_scope.
Local Open Scope nat_scope.
Local Open Scope list_scope.

(** The words taken by the [n] patterns from number [lo] on, as codes. *)
Definition given (lo n : nat) (t : list (nat * str)) : list str :=
  map (fun z => blanked (snd z)) (filter (fun z => Nat.leb lo (fst z) && Nat.ltb (fst z) (lo + n)) t).

(** The last word only. *)
Definition last_of (l : list str) : list str := match rev l with [] => [] | w :: _ => [w] end.
(** All words in one code. *)
Definition in_one (l : list str) : list str := match l with [] => [] | _ => [join (py " ") l] end.
(** A word that is there without being written. *)
Definition or_else (d : str) (l : list str) : list str := match l with [] => [d] | _ => l end.

(** ** METAR *)

Definition body_given (x : metar) (t : list (nat * str)) : Prop :=
  code_of_field (ty_code (me_type x)) = or_else (py "METAR") (given 0 1 t)
  /\ code_of_field (st_code (me_station x)) = given 1 1 t
  /\ code_of_field (t_code (me_time x)) = given 2 1 t
  /\ code_of_field (mo_code (me_modifier x)) = given 3 1 t
  /\ code_of_field (w_code (c_wind (me_common x))) = given 4 1 t
  /\ code_of_field (wv_code (me_wvar x)) = given 5 1 t
  /\ code_of_field (v_code (c_vis (me_common x))) = given 6 1 t
  /\ code_of_field (v_code (me_minvis x)) = given 7 1 t
  /\ code_of_list rr_code (me_rvr x) = given 8 3 t
  /\ code_of_list we_code (c_weathers (me_common x)) = given 11 3 t
  /\ code_of_list cl_code (c_clouds (me_common x)) = given 14 4 t
  /\ code_of_field (te_code (me_temps x)) = given 18 1 t
  /\ code_of_field (pr_code (me_press x)) = last_of (given 19 2 t)
  /\ code_of_field (rw_code (me_recent x)) = given 21 1 t
  /\ code_of_list ws_code (me_ws x) = given 22 3 t
  /\ code_of_field (se_code (me_sea x)) = given 25 1 t
  /\ code_of_field (rs_code (me_rwy x)) = given 26 1 t.

Definition trend_given (p : change_period) (w : str) : Prop :=
  cp_code p = Some (blanked w)
  /\ exists t, takes trend_order 0 (words_of_trend w) t (cp_unparsed p)
    /\ code_of_field (ti_code (cp_ind p)) = in_one (given 0 3 t)
    /\ code_of_field (w_code (c_wind (cp_common p))) = given 3 1 t
    /\ code_of_field (v_code (c_vis (cp_common p))) = given 4 1 t
    /\ code_of_list we_code (c_weathers (cp_common p)) = given 5 3 t
    /\ code_of_list cl_code (c_clouds (cp_common p)) = given 8 4 t.

Definition metar_given (code : str) (x : metar) : Prop :=
  exists t u, takes metar_order 0 (words_of_body code) t u /\ body_given x t
    /\ Forall2 trend_given (gl_list (me_trends x)) (trends_of code)
    /\ me_unparsed x = u ++ flat_map cp_unparsed (gl_list (me_trends x)).

(** ** TAF *)

(** The temperatures, by their first letters. *)
Definition given_temps (p : str) (t : list (nat * str)) : list str :=
  map (fun z => blanked (snd z)) (filter (fun z => Nat.leb 16 (fst z) && starts_with p (snd z)) t).

Definition forecast_given (x : taf) (t : list (nat * str)) : Prop :=
  code_of_field (ty_code (ta_type x)) = or_else (py "TAF") (given 0 1 t)
  /\ code_of_field (mo_code (ta_modifier x)) = given 1 1 t
  /\ code_of_field (st_code (ta_station x)) = given 2 1 t
  /\ code_of_field (t_code (ta_time x)) = given 3 1 t
  /\ code_of_field (mo_code (mi_mod (ta_missing x))) = given 4 1 t
  /\ code_of_field (va_code (ta_valid x)) = given 5 1 t
  /\ code_of_field (ca_code (ta_cancelled x)) = given 6 1 t
  /\ code_of_field (w_code (c_wind (ta_common x))) = given 7 1 t
  /\ code_of_field (v_code (c_vis (ta_common x))) = given 8 1 t
  /\ code_of_list we_code (c_weathers (ta_common x)) = given 9 3 t
  /\ code_of_list cl_code (c_clouds (ta_common x)) = given 12 4 t
  /\ code_of_list tt_code (ta_max x) = given_temps (py "TX") t
  /\ code_of_list tt_code (ta_min x) = given_temps (py "TN") t.

(** The indicator and the validity in one code, but FM stands alone, as it was
    written. *)
Definition change_mark (t : list (nat * str)) : list str :=
  match t with
  | (0, g) :: _ => if starts_with (py "FM") g then [g] else in_one (given 0 2 t)
  | _ => []
  end.

Definition change_given (p : change_fc) (w : str) : Prop :=
  cf_code p = Some (blanked w)
  /\ exists t, takes change_order 0 (words_of_change w) t (cf_unparsed p)
    /\ code_of_field (tc_code (cf_ind p)) = change_mark t
    /\ code_of_field (w_code (c_wind (cf_common p))) = given 2 1 t
    /\ code_of_field (v_code (c_vis (cf_common p))) = given 3 1 t
    /\ code_of_list we_code (c_weathers (cf_common p)) = given 4 3 t
    /\ code_of_list cl_code (c_clouds (cf_common p)) = given 7 4 t.

Definition taf_given (code : str) (x : taf) : Prop :=
  exists t u, takes taf_order 0 (words_of_taf code) t u /\ forecast_given x t
    /\ Forall2 change_given (gl_list (ta_changes x)) (changes_of code)
    /\ ta_unparsed x = u ++ flat_map cf_unparsed (gl_list (ta_changes x)).
