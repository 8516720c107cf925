(** * What a forecast without time or validity shows (C31) *)
From Coq Require Import String Ascii.
From Coq Require Import List NArith ZArith Bool Lia.
From Verif Require Import PyBase PyTime Base Metar Taf SpecTime SpecMetar ProofDefault PropsFailures PropsAbsent.
Import ListNotations.
Local Open Scope string_scope.
Local Open Scope nat_scope.
Local Open Scope list_scope.

(** Without a time the report is of the first of the clock's month; without a
    validity it holds for the day from one o'clock of that first. *)
Theorem C31_taf_default : forall e code y mo tr x, clock_wf e -> taf_parse e code y mo tr = Ok x ->
  (t_code (ta_time x) = None -> t_dt (ta_time x) = mk_dt (now_year e) (now_month e) 1 0 0)
  /\ (va_code (ta_valid x) = None -> t_dt (va_from (ta_valid x)) = mk_dt (now_year e) (now_month e) 1 1 0
                                     /\ t_dt (va_until (ta_valid x)) = mk_dt (now_year e) (now_month e) 2 1 0).
Proof. exact taf_default. Qed.
Print Assumptions C31_taf_default.

(** Read in two different months of the clock, an accepted forecast is the
    same exactly when it has a time and a validity. *)
Theorem C31_taf_exact : forall y1 m1 y2 m2 st co code y mo tr x,
  clock_wf (mk_env y1 m1 st co) -> clock_wf (mk_env y2 m2 st co) -> (y1, m1) <> (y2, m2) ->
  taf_parse (mk_env y1 m1 st co) code (Some y) (Some mo) tr = Ok x ->
  (taf_parse (mk_env y2 m2 st co) code (Some y) (Some mo) tr = Ok x
   <-> t_code (ta_time x) <> None /\ va_code (ta_valid x) <> None).
Proof. exact taf_clock_exact. Qed.
Print Assumptions C31_taf_exact.

(** A forecast with a time and no validity. *)
Example C31_exact_case : clock_wf some_env
  /\ exists x, taf_parse some_env (py "TAF SEQM 142300Z 05005KT") (Some 2024%Z) (Some 2%Z) false = Ok x
       /\ t_dt (ta_time x) = mk_dt 2024 2 14 23 0 /\ va_code (ta_valid x) = None
       /\ t_dt (va_from (ta_valid x)) = mk_dt 2026 11 1 1 0.
Proof.
  split; [unfold clock_wf; cbn; lia|].
  eexists. split; [vm_compute; reflexivity|]. split; [vm_compute; reflexivity|]. split; vm_compute; reflexivity.
Qed.
