(** * What the code does exactly where C24, C32, C33 and C55 fail: statements only *)
From Coq Require Import String Ascii.
From Coq Require Import List NArith ZArith Bool Lia.
From Verif Require Import PyBase PyRegex AeroRegex PyFloat PyTime Utils Base MetarGroups Trend Taf SpecNum SpecGroups
  SpecTime SpecTaf SpecExact TimeFacts ProofTime ProofTaf ProofWhen.
Import ListNotations.
Local Open Scope string_scope.
Local Open Scope Z_scope.
Local Open Scope list_scope.

(** ** C24 *)

(** A cloud group has no cover description exactly when it begins with 0VC. *)
Theorem C24_exact : forall g m c, re_match r_CLOUD g = Some m -> cloud_from_metar (Some m) = Ok c ->
  (cl_cover c = None <-> exists t, g = py "0VC" ++ t).
Proof. exact cover_known. Qed.
Print Assumptions C24_exact.

Example C24_both : exists m c m' c',
  re_match r_CLOUD (py "OVC010CB") = Some m /\ cloud_from_metar (Some m) = Ok c /\ cl_cover c = Some (py "overcast")
  /\ re_match r_CLOUD (py "0VC010CB") = Some m' /\ cloud_from_metar (Some m') = Ok c' /\ cl_cover c' = None.
Proof. do 4 eexists. repeat (split; [vm_compute; reflexivity|]). vm_compute. reflexivity. Qed.

(** ** C32 *)

(** A period of a trend is put in the hour of the report, in the next one, or
    else in the one after that, whatever the coded hour is. *)
Theorem C32_exact : forall i c e p h mi,
  let t := t_dt (ti_init i) in
  ti_code i = Some c -> t_dt (ti_end i) = e -> real_time t -> minutes_later 120 t e -> dt_year e <= 9999 ->
  (h <= 24)%N -> (mi <= 59)%N ->
  exists u m i', trend_moment t h mi u
    /\ re_match r_TREND_TIME_PERIOD (period_code p h mi) = Some m
    /\ add_period m i = Ok i' /\ ti_code i' = Some (c ++ py " " ++ period_code p h mi)
    /\ ti_init i' = ti_init i /\ ti_end i' = ti_end i /\ ti_trans i' = ti_trans i /\ period_set p u i i'.
Proof. exact period_any. Qed.
Print Assumptions C32_exact.

(** 1500 and 2400 in the trend of a report of 23:30 are both read as hour 1. *)
Example C32_any_hour :
  let t := mk_dt 2023 12 31 23 30 in
  real_time t /\ trend_moment t 15 0 (mk_dt 2024 1 1 1 0) /\ trend_moment t 24 0 (mk_dt 2024 1 1 1 0)
  /\ trend_moment t 0 15 (mk_dt 2024 1 1 0 15).
Proof.
  assert (A : minutes_later 60 (mk_dt 2023 12 31 23 30) (mk_dt 2024 1 1 0 30)) by (apply later_valid; vm_compute; reflexivity).
  assert (B : minutes_later 120 (mk_dt 2023 12 31 23 30) (mk_dt 2024 1 1 1 30)) by (apply later_valid; vm_compute; reflexivity).
  split; [apply valid_dt_spec; reflexivity|].
  split; [|split]; (eexists _, _; split; [exact A|]; split; [exact B|]).
  - exists (mk_dt 2024 1 1 1 30). split; [right; right; cbn [dt_hour]; repeat split; lia || reflexivity|reflexivity].
  - exists (mk_dt 2024 1 1 1 30). split; [right; right; cbn [dt_hour]; repeat split; lia || reflexivity|reflexivity].
  - exists (mk_dt 2024 1 1 0 30). split; [right; left; cbn [dt_hour]; repeat split; lia || reflexivity|reflexivity].
Qed.

(** ** C33 *)

(** The days of the validity are the issue day or the day after, whatever the
    coded days are. *)
Theorem C33_exact : forall t fd fh td th bf bt be, real_time t ->
  (1 <= fd <= 31)%N -> (fh <= 23)%N -> (1 <= td <= 31)%N -> (th <= 24)%N ->
  today_or_after t (Z.of_N fd) bf -> today_or_after t (Z.of_N td) bt ->
  real bf -> real bt -> day_after bt be -> (th = 24%N -> real be) ->
  exists v, valid_from_taf (re_match r_T_VALID (valid_code fd fh td th)) t = Ok v
    /\ va_code v = Some (valid_code fd fh td th)
    /\ t_dt (va_from v) = moment bf fh 0
    /\ ((th < 24)%N -> t_dt (va_until v) = moment bt th 0)
    /\ (th = 24%N -> t_dt (va_until v) = moment be 0 0).
Proof. exact valid_any. Qed.
Print Assumptions C33_exact.

(** So they are the right ones exactly when those come by tomorrow. *)
Theorem C33_when_right : forall t fd fh td th nx nn af at_ ae v, real_time t ->
  (1 <= fd <= 31)%N -> (fh <= 23)%N -> (1 <= td <= 31)%N -> (th <= 24)%N ->
  day_after (date_of t) nx -> day_after nx nn -> real nx -> real nn ->
  first_with_day (date_of t) (Z.of_N fd) af -> first_with_day (date_of t) (Z.of_N td) at_ -> day_after at_ ae ->
  valid_from_taf (re_match r_T_VALID (valid_code fd fh td th)) t = Ok v ->
  (t_dt (va_from v) = moment af fh 0 <-> by_tomorrow t af)
  /\ ((th < 24)%N -> (t_dt (va_until v) = moment at_ th 0 <-> by_tomorrow t at_))
  /\ (th = 24%N -> (t_dt (va_until v) = moment ae 0 0 <-> by_tomorrow t at_)).
Proof. exact valid_right. Qed.
Print Assumptions C33_when_right.

(** 3023/0206 issued on 30 June at 22:40: the end should be on 2 July. *)
Example C33_exact_case :
  let t := mk_dt 2023 6 30 22 40 in
  real_time t /\ today_or_after t 30 (2023, 6, 30) /\ today_or_after t 2 (2023, 7, 1)
  /\ first_with_day (date_of t) 30 (2023, 6, 30) /\ first_with_day (date_of t) 2 (2023, 7, 2)
  /\ by_tomorrow t (2023, 6, 30) /\ ~ by_tomorrow t (2023, 7, 2)
  /\ day_after (2023, 6, 30) (2023, 7, 1) /\ day_after (2023, 7, 1) (2023, 7, 2) /\ real (2023, 7, 2)
  /\ exists v, valid_from_taf (re_match r_T_VALID (valid_code 30 23 2 6)) t = Ok v.
Proof.
  assert (D : forall k b, days_on k (2023, 6, 30) = b -> days_later k (2023, 6, 30) b)
    by (intros k b E; apply days_valid; [vm_compute; reflexivity|exact E]).
  assert (A : day_after (2023, 6, 30) (2023, 7, 1)) by (apply NextMonth; [apply Len30; cbn; tauto|lia]).
  split; [apply valid_dt_spec; reflexivity|]. split; [left; split; reflexivity|].
  split; [right; split; [cbn; lia|exact A]|].
  split; [apply (first_valid 0); vm_compute; reflexivity|].
  split; [apply (first_valid 2); vm_compute; reflexivity|].
  split; [exists 0%nat; split; [lia|constructor]|].
  split; [intros (k & L & H); destruct k as [|[|k]]; [| |lia]|].
  - inversion H.
  - apply days_later_on in H; [|split; vm_compute; intuition discriminate]. vm_compute in H. discriminate H.
  - split; [exact A|]. split; [apply (InMonth 2023 7 1 31); [apply Len31; cbn; tauto|lia]|].
    split; [apply valid_date_spec; reflexivity|]. eexists. vm_compute. reflexivity.
Qed.

(** ** C55 *)

Theorem C55_exact : forall t (mx neg : bool) n d h b rest, real_time t -> ~ In 95%N rest ->
  (n < 100)%N -> (1 <= d <= 31)%N -> (h <= 23)%N -> today_or_after t (Z.of_N d) b -> real b ->
  exists m v, re_match r_T_TEMPERATURE (taf_temp_code mx neg n d h ++ rest) = Some m
    /\ group m "type" = Some (py (if mx then "X" else "N"))
    /\ taf_temp_new m t = Ok v
    /\ tt_code v = Some (taf_temp_code mx neg n d h ++ rest)
    /\ temp_is (tt_value v) (celsius (TValue (if neg then Some true else None) n))
    /\ t_dt (tt_time v) = moment b h 0.
Proof. exact taf_temp_any. Qed.
Print Assumptions C55_exact.

Theorem C55_when_right : forall t (mx neg : bool) n d h b nx m v, real_time t ->
  (n < 100)%N -> (1 <= d <= 31)%N -> (h <= 23)%N ->
  day_after (date_of t) nx -> real nx -> first_with_day (date_of t) (Z.of_N d) b ->
  re_match r_T_TEMPERATURE (taf_temp_code mx neg n d h) = Some m -> taf_temp_new m t = Ok v ->
  (t_dt (tt_time v) = moment b h 0 <-> by_tomorrow t b).
Proof. exact temp_right. Qed.
Print Assumptions C55_when_right.

(** TX25/0212Z issued on 30 June at 22:40. *)
Example C55_exact_case :
  let t := mk_dt 2023 6 30 22 40 in
  real_time t /\ today_or_after t 2 (2023, 7, 1) /\ first_with_day (date_of t) 2 (2023, 7, 2)
  /\ day_after (date_of t) (2023, 7, 1) /\ real (2023, 7, 1)
  /\ exists m v, re_match r_T_TEMPERATURE (taf_temp_code true false 25 2 12) = Some m /\ taf_temp_new m t = Ok v.
Proof.
  assert (A : day_after (2023, 6, 30) (2023, 7, 1)) by (apply NextMonth; [apply Len30; cbn; tauto|lia]).
  split; [apply valid_dt_spec; reflexivity|]. split; [right; split; [cbn; lia|exact A]|].
  split; [apply (first_valid 2); vm_compute; reflexivity|]. split; [exact A|].
  split; [apply valid_date_spec; reflexivity|]. eexists _, _. split; [vm_compute; reflexivity|]. vm_compute. reflexivity.
Qed.
