(** * The moments that the codes of a report name (C82) *)
From Coq Require Import String Ascii.
From Coq Require Import List NArith ZArith Bool.
From Verif Require Import PyBase AeroRegex PyFloat PyTime Base MetarGroups Trend Metar Taf SpecNum SpecGroups SpecTime SpecExact SpecGrammar SpecKept SpecStated SpecMoment.
From Verif Require SpecTaf.
Import ListNotations.
Local Open Scope string_scope.
Local Open Scope nat_scope.
Local Open Scope list_scope.

(** ** Trends of a METAR of the time [t] *)

Definition period_named (t : datetime) (k : period_kind) (c : str) (u : time) : Prop :=
  exists h mi, (h <= 24)%N /\ (mi <= 59)%N /\ c = period_code k h mi /\ trend_moment t h mi (t_dt u).
Definition trend_named (t : datetime) (i : trend_ind) : Prop :=
  explained t_code (period_named t PFrom) [ti_from i] /\ explained t_code (period_named t PUntil) [ti_until i]
  /\ explained t_code (period_named t PAt) match ti_at i with Some u => [u] | None => [] end.

(** ** TAF *)

(** ddhh/ddhh after [t]: either day is the day of [t] or else the next one, and
    the hour 24 is the beginning of the day after. *)
Definition validity_named (t : datetime) (c : str) (v : valid) : Prop :=
  exists d h d' h' b b', day d /\ (h <= 23)%N /\ day d' /\ (h' <= 24)%N /\ c = valid_code d h d' h'
    /\ today_or_after t (Z.of_N d) b /\ today_or_after t (Z.of_N d') b'
    /\ t_dt (va_from v) = moment b h 0
    /\ ((h' < 24)%N -> t_dt (va_until v) = moment b' h' 0)
    /\ (h' = 24%N -> exists b'', day_after b' b'' /\ t_dt (va_until v) = moment b'' 0 0).

(** TXtt/ddhhZ and TNtt/ddhhZ, with the value; anything may follow. *)
Definition extreme_named (mx : bool) (t : datetime) (c : str) (x : taf_temp) : Prop :=
  exists minus n d h rest b, (n < 100)%N /\ day d /\ (h <= 23)%N /\ c = blanked (taf_temp_code mx minus n d h ++ rest)
    /\ temp_is (tt_value x) (celsius (TValue (if minus then Some true else None) n))
    /\ today_or_after t (Z.of_N d) b /\ t_dt (tt_time x) = moment b h 0.

(** The validity [w] comes from a validity group after [t]. *)
Definition own_validity (t : datetime) (w : valid) : Prop :=
  exists u, accepts r_T_VALID u /\ (typed u -> validity_named t u w).

(** The first word of a change that does not begin with FM. *)
Definition change_word (w : str) : Prop :=
  begins (py "TEMPO") w \/ begins (py "BECMG") w \/ In w (map (fun x => py x) ["PROB30"; "PROB40"; "PROB30 TEMPO"; "PROB40 TEMPO"]).

(** FMddhhmm begins on the first date from the beginning of the forecast on
    that has that day, unless a validity group follows it.  The other changes
    have their validity group, or the validity of the forecast. *)
Definition change_named (v : valid) (c : str) (i : taf_ind) : Prop :=
  let t := t_dt (va_from v) in
  (exists d h mi rest, day d /\ (h <= 23)%N /\ (mi <= 59)%N /\ c = fm_code d h mi ++ rest
     /\ ((exists b, first_with_day (date_of t) (Z.of_N d) b /\ t_dt (va_from (tc_valid i)) = moment b h mi)
         \/ exists w, own_validity t w /\ va_from (tc_valid i) = va_from w))
  \/ exists w, change_word w
       /\ ((c = w /\ tc_valid i = v) \/ exists u, c = w ++ py " " ++ u /\ va_code (tc_valid i) = Some u /\ validity_named t u (tc_valid i)).

(** ** The end of a FM change *)

(** The change moves the end of an earlier one. *)
Definition closing (q : change_fc) : Prop := SpecTaf.begins "FM" (cf_code q) \/ SpecTaf.begins "BECMG" (cf_code q).

(** Of the changes [l] of a forecast with the validity [v]: a FM change that is
    followed by TEMPO and PROB changes only and then by a FM or BECMG change
    ends an hour before that one begins; one that no FM or BECMG change comes
    after ends with the forecast, or with a validity group of its own. *)
Definition ends_chained (v : valid) (l : list change_fc) : Prop :=
  forall l1 p l2, l = l1 ++ p :: l2 -> SpecTaf.is_from p ->
    (forall a q b, l2 = a ++ q :: b -> Forall SpecTaf.passing a -> ~ SpecTaf.passing q -> closing q ->
       minutes_later 60 (t_dt (va_until (tc_valid (cf_ind p)))) (t_dt (va_from (tc_valid (cf_ind q)))))
    /\ (Forall (fun q => ~ closing q) l2 ->
        va_until (tc_valid (cf_ind p)) = va_until v
        \/ exists w, own_validity (t_dt (va_from v)) w /\ va_until (tc_valid (cf_ind p)) = va_until w).
