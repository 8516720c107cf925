(** * Properties C30, C32 to C35, C55: times and periods *)
From Coq Require Import String Ascii.
From Coq Require Import List NArith ZArith Bool Lia.
From Verif Require Import PyBase PyRegex AeroRegex PyTime Utils Base Trend Taf SpecNum SpecGroups SpecTime SpecTaf
  TimeFacts ProofTime ProofTaf.
Import ListNotations.
Local Open Scope string_scope.
Local Open Scope Z_scope.
Local Open Scope list_scope.

(** C30: a time group gives its date and time in the given month, or a
    ValueError when there is no such date and time. *)
Theorem C30_report_time : forall e y mo d h mi,
  1000 <= y <= 9999 -> 1 <= mo <= 12 -> (1 <= d <= 31)%N -> (h <= 24)%N -> (mi <= 59)%N ->
  let r := time_from_metar e (re_match r_TIME (stamp_code d h mi)) (Some y) (Some mo) in
  (real_date y mo (Z.of_N d) /\ (h < 24)%N ->
     exists t, r = Ok t /\ t_code t = Some (stamp_code d h mi)
       /\ t_dt t = mk_dt y mo (Z.of_N d) (Z.of_N h) (Z.of_N mi))
  /\ (~ (real_date y mo (Z.of_N d) /\ (h < 24)%N) -> r = Raise ValueError).
Proof. exact report_time. Qed.
Print Assumptions C30_report_time.

Example C30_leap_day : stamp_code 29 23 59 = py "292359Z" /\ real_date 2024 2 29 /\ ~ real_date 2023 2 29.
Proof.
  split; [reflexivity|]. rewrite <- !valid_date_spec. vm_compute. split; [reflexivity|discriminate].
Qed.

(** C32: a period group of a trend whose time lies in the two hours from the
    report time sets the period to that time.  Missing: 2400 in the trend of
    a report of 23 hours, see the refutation. *)
Theorem C32_trend_period_partial : forall i c e u k p h mi,
  let t := t_dt (ti_init i) in
  ti_code i = Some c -> t_dt (ti_end i) = e -> real_time t -> minutes_later 120 t e -> dt_year e <= 9999 ->
  (k <= 120)%nat -> minutes_later k t u ->
  (Z.of_N h = dt_hour u \/ (h = 24%N /\ dt_hour u = 0 /\ dt_minute u = 0 /\ dt_hour t = 22)) ->
  Z.of_N mi = dt_minute u ->
  exists m i', re_match r_TREND_TIME_PERIOD (period_code p h mi) = Some m
    /\ add_period m i = Ok i' /\ ti_code i' = Some (c ++ py " " ++ period_code p h mi)
    /\ ti_init i' = ti_init i /\ ti_end i' = ti_end i /\ ti_trans i' = ti_trans i /\ period_set p u i i'.
Proof. exact add_period_ok. Qed.
Print Assumptions C32_trend_period_partial.

(** The indicator such groups are added to. *)
Theorem C32_trend_window : forall w t e, In w ["TEMPO"; "BECMG"] -> real_time t -> minutes_later 120 t e ->
  dt_year e <= 9999 ->
  exists i, trend_ind_new (re_match r_CHANGE_INDICATOR (py w)) t = Ok i /\ ti_code i = Some (py w)
    /\ t_dt (ti_init i) = t /\ t_dt (ti_end i) = e /\ t_dt (ti_from i) = t /\ t_dt (ti_until i) = e
    /\ ti_at i = None.
Proof. exact trend_ind_ok. Qed.
Print Assumptions C32_trend_window.

Example C32_over_new_year :
  let t := mk_dt 2023 12 31 22 30 in
  real_time t /\ minutes_later 120 t (mk_dt 2024 1 1 0 30) /\ minutes_later 90 t (mk_dt 2024 1 1 0 0)
  /\ period_code PUntil 24 0 = py "TL2400".
Proof.
  split; [apply valid_dt_spec; reflexivity|]. split; [apply later_valid; vm_compute; reflexivity|].
  split; [apply later_valid; vm_compute; reflexivity|reflexivity].
Qed.

(** At 23:30 the group TL2400 is midnight, half an hour later; the period
    ends at 01:00. *)
Theorem C32_trend_period_refuted : exists t e u i m i',
  real_time t /\ minutes_later 120 t e /\ minutes_later 30 t u /\ u = mk_dt 2024 1 1 0 0
  /\ trend_ind_new (re_match r_CHANGE_INDICATOR (py "TEMPO")) t = Ok i
  /\ re_match r_TREND_TIME_PERIOD (py "TL2400") = Some m /\ add_period m i = Ok i'
  /\ t_dt (ti_until i') = mk_dt 2024 1 1 1 0.
Proof. exact trend_period_midnight. Qed.
Print Assumptions C32_trend_period_refuted.

(** C33: the validity starts and ends on the coded days and hours, hour 24
    being midnight at the end of the day.  Missing: days later than the one
    after the issue day, see the refutation. *)
Theorem C33_validity_partial : forall t fd fh td th bf bt be, real_time t ->
  (1 <= fd <= 31)%N -> (fh <= 23)%N -> (1 <= td <= 31)%N -> (th <= 24)%N ->
  first_with_day (date_of t) (Z.of_N fd) bf -> first_with_day (date_of t) (Z.of_N td) bt ->
  (exists k, (k <= 1)%nat /\ days_later k (date_of t) bf) -> (exists k, (k <= 1)%nat /\ days_later k (date_of t) bt) ->
  real bf -> day_after bt be -> real be ->
  exists v, valid_from_taf (re_match r_T_VALID (valid_code fd fh td th)) t = Ok v
    /\ va_code v = Some (valid_code fd fh td th)
    /\ t_dt (va_from v) = moment bf fh 0
    /\ ((th < 24)%N -> t_dt (va_until v) = moment bt th 0)
    /\ (th = 24%N -> t_dt (va_until v) = moment be 0 0).
Proof. exact valid_period. Qed.
Print Assumptions C33_validity_partial.

Example C33_new_year :
  let t := mk_dt 2023 12 30 17 30 in
  real_time t /\ valid_code 30 18 31 24 = py "3018/3124"
  /\ first_with_day (date_of t) 30 (2023, 12, 30) /\ first_with_day (date_of t) 31 (2023, 12, 31)
  /\ days_later 0 (date_of t) (2023, 12, 30) /\ days_later 1 (date_of t) (2023, 12, 31)
  /\ day_after (2023, 12, 31) (2024, 1, 1) /\ real (2024, 1, 1).
Proof.
  split; [apply valid_dt_spec; reflexivity|]. split; [reflexivity|].
  split; [apply (first_valid 0); vm_compute; reflexivity|].
  split; [apply (first_valid 1); vm_compute; reflexivity|].
  split; [apply days_valid; vm_compute; reflexivity|].
  split; [apply days_valid; vm_compute; reflexivity|].
  split; [apply (NextYear 2023)|apply valid_date_spec; reflexivity].
Qed.

(** A forecast issued on 30 June at 23:00 and valid to 06 hours on 2 July
    ends on 1 July in the program. *)
Theorem C33_validity_refuted : exists t v,
  real_time t /\ first_with_day (date_of t) 2 (2023, 7, 2)
  /\ valid_from_taf (re_match r_T_VALID (valid_code 1 0 2 6)) t = Ok v
  /\ t_dt (va_until v) = mk_dt 2023 7 1 6 0.
Proof. exact valid_two_days. Qed.
Print Assumptions C33_validity_refuted.

(** C34: an FM change starts on the first date from the first day of the
    validity on with the coded day of the month; there is always one, and it
    is found unless it lies after the year 9999.  Whatever follows the minutes
    is ignored. *)
Theorem C34_fm_start : forall v d h mi rest,
  real_time (t_dt (va_from v)) -> (1 <= d <= 31)%N -> (h <= 23)%N -> (mi <= 59)%N ->
  exists b, first_with_day (date_of (t_dt (va_from v))) (Z.of_N d) b
    /\ (real b -> exists i, taf_ind_new (re_match r_T_CHANGE_INDICATOR (fm_code d h mi ++ rest)) v = Ok i
          /\ tc_code i = Some (fm_code d h mi ++ rest)
          /\ t_dt (va_from (tc_valid i)) = moment b h mi /\ va_until (tc_valid i) = va_until v)
    /\ (~ real b -> taf_ind_new (re_match r_T_CHANGE_INDICATOR (fm_code d h mi ++ rest)) v = Raise OverflowError).
Proof. exact fm_start. Qed.
Print Assumptions C34_fm_start.

(** The loop needs at most 61 steps: more fuel changes nothing. *)
Theorem C34_terminates : forall day t fuel, real_time t -> 1 <= day <= 31 -> (61 <= fuel)%nat ->
  roll_to_day fuel day t = roll_to_day 61 day t.
Proof. exact roll_enough. Qed.
Print Assumptions C34_terminates.

Example C34_february : fm_code 30 6 0 = py "FM300600"
  /\ real_time (mk_dt 2023 1 31 0 0) /\ first_with_day (2023, 1, 31) 30 (2023, 3, 30) /\ real (2023, 3, 30).
Proof.
  split; [reflexivity|]. split; [apply valid_dt_spec; reflexivity|].
  split; [apply (first_valid 58); vm_compute; reflexivity|apply valid_date_spec; reflexivity].
Qed.

(** C35: adding a change.  Missing: earlier changes whose indicator was not
    recognised, see the refutation. *)
Theorem C35_changes_partial : forall new g u,
  (length (gl_list g) < gl_max g)%nat -> Forall (fun c => ind_code c <> None) (gl_list g) ->
  real_time u -> real_time (t_dt (va_from (tc_valid (cf_ind new)))) ->
  minutes_later 60 u (t_dt (va_from (tc_valid (cf_ind new)))) ->
  exists g' l', changes_add new g = Ok g' /\ gl_max g' = gl_max g /\ gl_n g' = gl_n g
    /\ chained new (gl_list g) l' /\ gl_list g' = l' ++ [new].
Proof. exact changes_add_ok. Qed.
Print Assumptions C35_changes_partial.

Example C35_two_changes : exists a b, 
  let v := mk_valid None (time_at (mk_dt 2023 6 1 0 0)) (time_at (mk_dt 2023 6 2 0 0)) in
  change_fc_new (py "FM010600 27010KT") v = Ok a /\ change_fc_new (py "FM011200 9999") v = Ok b
  /\ ind_code a <> None /\ is_from a /\ begins "FM" (cf_code b)
  /\ t_dt (va_from (tc_valid (cf_ind b))) = mk_dt 2023 6 1 12 0
  /\ minutes_later 60 (mk_dt 2023 6 1 11 0) (mk_dt 2023 6 1 12 0).
Proof.
  eexists _, _. split; [vm_compute; reflexivity|]. split; [vm_compute; reflexivity|].
  split; [vm_compute; discriminate|]. split; [exists (py "010600"); reflexivity|].
  split; [exists (py "011200 9999"); reflexivity|]. split; [reflexivity|].
  apply later_valid; vm_compute; reflexivity.
Qed.

(** After a change with a malformed FM group every further FM change fails. *)
Theorem C35_changes_refuted : exists a b v,
  change_fc_new (py "FM0106 27010KT") v = Ok a /\ change_fc_new (py "FM011200 9999") v = Ok b
  /\ changes_add b (mk_gl 0 8 [a]) = Raise AttributeError.
Proof. exact malformed_from. Qed.
Print Assumptions C35_changes_refuted.

(** C55: a forecast temperature has the coded value, on the first date from
    the issue day on with the coded day of the month, at the coded hour.
    Missing: days later than the one after the issue day. *)
Theorem C55_taf_temperature_partial : forall t (mx neg : bool) n d h b rest, real_time t -> ~ In 95%N rest ->
  (n < 100)%N -> (1 <= d <= 31)%N -> (h <= 23)%N ->
  first_with_day (date_of t) (Z.of_N d) b -> (exists k, (k <= 1)%nat /\ days_later k (date_of t) b) -> real b ->
  exists m v, re_match r_T_TEMPERATURE (taf_temp_code mx neg n d h ++ rest) = Some m
    /\ group m "type" = Some (py (if mx then "X" else "N"))
    /\ taf_temp_new m t = Ok v
    /\ tt_code v = Some (taf_temp_code mx neg n d h ++ rest)
    /\ temp_is (tt_value v) (celsius (TValue (if neg then Some true else None) n))
    /\ t_dt (tt_time v) = moment b h 0.
Proof. exact taf_temperature. Qed.
Print Assumptions C55_taf_temperature_partial.

Example C55_case : taf_temp_code false true 2 29 6 = py "TNM02/2906Z"
  /\ real_time (mk_dt 2024 2 28 17 0) /\ first_with_day (2024, 2, 28) 29 (2024, 2, 29)
  /\ days_later 1 (2024, 2, 28) (2024, 2, 29) /\ real (2024, 2, 29).
Proof.
  split; [reflexivity|]. split; [apply valid_dt_spec; reflexivity|].
  split; [apply (first_valid 1); vm_compute; reflexivity|].
  split; [apply days_valid; vm_compute; reflexivity|apply valid_date_spec; reflexivity].
Qed.

Theorem C55_taf_temperature_refuted : exists t m v, real_time t /\ first_with_day (date_of t) 2 (2023, 7, 2)
  /\ re_match r_T_TEMPERATURE (taf_temp_code true false 25 2 12) = Some m
  /\ taf_temp_new m t = Ok v /\ t_dt (tt_time v) = mk_dt 2023 7 1 12 0.
Proof. exact taf_temperature_late. Qed.
Print Assumptions C55_taf_temperature_refuted.
