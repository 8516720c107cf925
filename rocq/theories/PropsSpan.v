(** * How long a validity lasts (C63): statements only *)
From Coq Require Import String Ascii.
From Coq Require Import List NArith ZArith Bool.
From Verif Require Import PyBase PyRegex AeroRegex PyFloat PyTime Utils Base Trend Metar Taf SpecTime SpecSpan ProofSpan ProofValues PropsFailures PropsAbsent.
Import ListNotations.
Local Open Scope string_scope.
Local Open Scope list_scope.

(** The duration of every validity of an accepted forecast is the number of
    minutes from its beginning to its end. *)
Theorem C63_duration : forall e code y mo tr x v, taf_parse e code y mo tr = Ok x -> validity_of x v ->
  forall z, va_duration v = z <-> lasts v z.
Proof. exact validity_lasts. Qed.
Print Assumptions C63_duration.

(** A forecast for thirty hours with a change of two; one for a validity two
    days after the issue, whose end is put before its beginning, and its
    duration is negative. *)
Example C63_duration_case :
  gives (read_taf 2026 2 "TAF SEQM 281100Z 2812/0118 01018KT CAVOK BECMG 2818/2820 4000")
    (fun x => (va_duration (ta_valid x) =? 1800)%Z
       && match gl_list (ta_changes x) with [p] => (va_duration (tc_valid (cf_ind p)) =? 120)%Z | _ => false end) = true
  /\ gives (read_taf 2026 2 "TAF SEQM 101100Z 1212/1206 01018KT CAVOK") (fun x => (va_duration (ta_valid x) =? -360)%Z) = true.
Proof. conjs; vm_compute; reflexivity. Qed.
