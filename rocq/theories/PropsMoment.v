(** * Property C63: statements only *)
From Coq Require Import String Ascii.
From Coq Require Import List NArith ZArith Bool Lia.
From Verif Require Import PyBase PyRegex AeroRegex PyFloat PyTime Utils Base MetarGroups Trend Metar Taf
  SpecTime TimeFacts ProofValues SpecMoment ProofMoment ProofMomentReport PropsFailures PropsAbsent.
Import ListNotations.
Local Open Scope string_scope.
Local Open Scope nat_scope.
Local Open Scope list_scope.

(** ** C63: every moment of a report is a real one, near the report *)

Theorem C63_metar : forall e code y mo tr x, metar_parse e code y mo tr = Ok x -> metar_moments x.
Proof. exact metar_moments_ok. Qed.
Print Assumptions C63_metar.

Theorem C63_taf : forall e code y mo tr x, taf_parse e code y mo tr = Ok x -> taf_moments x.
Proof. exact taf_moments_ok. Qed.
Print Assumptions C63_taf.

(** The month is the one asked for, or that of the clock. *)
Theorem C63_metar_month : forall e code y mo tr x, months_ok (asked (now_year e) y) (asked (now_month e) mo) ->
  metar_parse e code y mo tr = Ok x -> of_month (asked (now_year e) y) (asked (now_month e) mo) (t_dt (me_time x)).
Proof. exact metar_month. Qed.
Print Assumptions C63_metar_month.

(** In a TAF, only when its time is read; otherwise time and validity begin
    with the month of the clock. *)
Theorem C63_taf_month : forall e code y mo tr x, months_ok (now_year e) (now_month e) ->
  months_ok (asked (now_year e) y) (asked (now_month e) mo) ->
  taf_parse e code y mo tr = Ok x ->
  (t_code (ta_time x) = None -> t_dt (ta_time x) = month_start e)
  /\ (t_code (ta_time x) <> None -> of_month (asked (now_year e) y) (asked (now_month e) mo) (t_dt (ta_time x)))
  /\ (va_code (ta_valid x) = None -> t_dt (va_from (ta_valid x)) = clock_ahead e 1 1 /\ t_dt (va_until (ta_valid x)) = clock_ahead e 1 2).
Proof. exact taf_month. Qed.
Print Assumptions C63_taf_month.

Definition dt_is (t : datetime) (y mo d h mi : Z) : bool :=
  ((dt_year t =? y) && (dt_month t =? mo) && (dt_day t =? d) && (dt_hour t =? h) && (dt_minute t =? mi))%Z.

Example C63_case :
  (** a leap day, a trend over midnight, the last minute a trend can name *)
  gives (metar_parse some_env (py "METAR SEQM 282230Z 05005KT 9999 BKN030 14/07 Q1015 TEMPO FM2210 TL0059 3000") (Some 2024%Z) (Some 2%Z) false)
    (fun x => dt_is (t_dt (me_time x)) 2024 2 28 22 30
      && existsb (fun p => dt_is (t_dt (ti_init (cp_ind p))) 2024 2 28 22 30 && dt_is (t_dt (ti_end (cp_ind p))) 2024 2 29 0 30
           && dt_is (t_dt (ti_from (cp_ind p))) 2024 2 28 22 10 && dt_is (t_dt (ti_until (cp_ind p))) 2024 2 29 0 59)
         (gl_list (me_trends x))) = true
  (** the end of a year, a temperature the day after, a change found 60 days later *)
  /\ gives (taf_parse some_env (py "TAF SEQM 312330Z 0100/0124 05005KT 9999 BKN030 TX20/0118Z TN10/3123Z FM011830 06010KT BECMG 0120/0122 9999") (Some 2023%Z) (Some 12%Z) false)
       (fun x => dt_is (t_dt (ta_time x)) 2023 12 31 23 30 && dt_is (t_dt (va_from (ta_valid x))) 2024 1 1 0 0
         && dt_is (t_dt (va_until (ta_valid x))) 2024 1 2 0 0
         && existsb (fun t => dt_is (t_dt (tt_time t)) 2024 1 1 18 0) (gl_list (ta_max x))
         && existsb (fun t => dt_is (t_dt (tt_time t)) 2023 12 31 23 0) (gl_list (ta_min x))
         && existsb (fun p => dt_is (t_dt (va_from (tc_valid (cf_ind p)))) 2024 1 1 18 30 && dt_is (t_dt (va_until (tc_valid (cf_ind p)))) 2024 1 1 19 0) (gl_list (ta_changes x))
         && existsb (fun p => dt_is (t_dt (va_from (tc_valid (cf_ind p)))) 2024 1 1 20 0 && dt_is (t_dt (va_until (tc_valid (cf_ind p)))) 2024 1 1 22 0) (gl_list (ta_changes x))) = true
  /\ gives (taf_parse some_env (py "TAF SEQM 312330Z 0100/0124 05005KT FM312000 06010KT") (Some 2024%Z) (Some 3%Z) false)
       (fun x => existsb (fun p => dt_is (t_dt (va_from (tc_valid (cf_ind p)))) 2024 5 31 20 0) (gl_list (ta_changes x))) = true.
Proof. vm_compute. repeat split. Qed.

(** The hypotheses on the months, and reports without a time. *)
Example C63_month_case :
  months_ok (now_year some_env) (now_month some_env)
  /\ months_ok (asked (now_year some_env) (Some 2024%Z)) (asked (now_month some_env) None)
  /\ gives (metar_parse some_env (py "METAR SEQM 05005KT 9999") (Some 2024%Z) None false)
       (fun x => is_none (t_code (me_time x)) && dt_is (t_dt (me_time x)) 2024 11 1 0 0) = true
  /\ gives (taf_parse some_env (py "TAF SEQM 05005KT 9999") (Some 2024%Z) None false)
       (fun x => is_none (t_code (ta_time x)) && dt_is (t_dt (ta_time x)) 2026 11 1 0 0) = true.
Proof. conjs; [| |vm_compute; reflexivity|vm_compute; reflexivity]; unfold months_ok; cbn; lia. Qed.

(** The validity of a TAF without a validity group has nothing to do with its
    time: a NIL TAF of February 2024 is valid in November 2026. *)
Theorem C63_refuted : ~ (forall e code y mo tr x, taf_parse e code y mo tr = Ok x -> days_from 2 (t_dt (ta_time x)) (t_dt (va_from (ta_valid x)))).
Proof. exact validity_far. Qed.
Print Assumptions C63_refuted.
