(** * The year and month given only date a report (C67): statements only *)
From Coq Require Import String Ascii.
From Coq Require Import List NArith ZArith Bool Lia.
From Verif Require Import PyBase PyRegex AeroRegex PyFloat PyTime Utils Base MetarGroups Trend Metar Taf SpecFailures SpecDated
  SpecTime ProofValues ProofDated ProofDatedTaf ProofAccept ProofAcceptTaf PropsFailures PropsAbsent.
Import ListNotations.
Local Open Scope string_scope.
Local Open Scope nat_scope.
Local Open Scope list_scope.

(** A METAR accepted for two months of any years has the same groups, trends,
    unparsed groups and day, hour and minute. *)
Theorem C67_metar : forall e code y mo tr x y' mo' tr' x', real_month e y mo -> real_month e y' mo' ->
  metar_parse e code y mo tr = Ok x -> metar_parse e code y' mo' tr' = Ok x' -> undated x = undated x'.
Proof. exact metar_undated. Qed.
Print Assumptions C67_metar.

(** So has a TAF; its validity, its temperatures and its changes begin and
    end at the same hours and minutes. *)
Theorem C67_taf : forall e code y mo tr x y' mo' tr' x', real_month e y mo -> real_month e y' mo' ->
  taf_parse e code y mo tr = Ok x -> taf_parse e code y' mo' tr' = Ok x' -> undated_taf x = undated_taf x'.
Proof. exact taf_undated. Qed.
Print Assumptions C67_taf.

Example C67_metar_case :
  (real_month some_env (Some 2024%Z) (Some 2%Z) /\ real_month some_env (Some 1999%Z) (Some 12%Z))
  /\ gives (read_in 2024 2 "METAR SEQM 282330Z 01018KT CAVOK TEMPO FM0030 4000")
       (fun x => (dt_month (t_dt (me_time x)) =? 2)%Z && (dt_day (t_dt (me_time x)) =? 28)%Z
         && match gl_list (me_trends x) with
            | [p] => (dt_hour (t_dt (ti_from (cp_ind p))) =? 0)%Z && (dt_minute (t_dt (ti_from (cp_ind p))) =? 30)%Z
                     && (dt_day (t_dt (ti_from (cp_ind p))) =? 29)%Z
            | _ => false end) = true
  /\ gives (read_in 1999 12 "METAR SEQM 282330Z 01018KT CAVOK TEMPO FM0030 4000")
       (fun x => (dt_month (t_dt (me_time x)) =? 12)%Z && (dt_day (t_dt (me_time x)) =? 28)%Z
         && match gl_list (me_trends x) with
            | [p] => (dt_hour (t_dt (ti_from (cp_ind p))) =? 0)%Z && (dt_minute (t_dt (ti_from (cp_ind p))) =? 30)%Z
            | _ => false end) = true.
Proof. split; [unfold real_month; cbn; lia|]. conjs; vm_compute; reflexivity. Qed.

Example C67_taf_case :
  gives (read_taf 2023 2 "TAF SEQM 281200Z 2812/0112 01018KT CAVOK TX20/2818Z BECMG 2818/2820 4000")
       (fun x => (dt_month (t_dt (va_until (ta_valid x))) =? 3)%Z && (dt_hour (t_dt (va_until (ta_valid x))) =? 12)%Z
          && Nat.eqb (length (gl_list (ta_changes x))) 1) = true
  /\ gives (read_taf 2022 6 "TAF SEQM 281200Z 2812/0112 01018KT CAVOK TX20/2818Z BECMG 2818/2820 4000")
       (fun x => (dt_month (t_dt (va_until (ta_valid x))) =? 6)%Z && (dt_hour (t_dt (va_until (ta_valid x))) =? 12)%Z
          && Nat.eqb (length (gl_list (ta_changes x))) 1) = true.
Proof. conjs; vm_compute; reflexivity. Qed.

(** Whether a report is accepted does depend on the month: "301200Z" is a time
    in June and none in February. *)
Theorem C67_accepted_refuted : ~ (forall e code y mo y' mo' x, real_month e y mo -> real_month e y' mo' ->
  metar_parse e code y mo true = Ok x -> exists x', metar_parse e code y' mo' true = Ok x').
Proof. exact accept_month. Qed.
Print Assumptions C67_accepted_refuted.

(** It depends on the day of its time alone: a METAR accepted for one month is
    accepted for another exactly when that month has the day. *)
Theorem C67_accepted_metar : forall e code y mo tr x y' mo', real_month e y mo -> real_month e y' mo' ->
  metar_parse e code y mo tr = Ok x -> (opt_default (now_year e) y' < 9999)%Z ->
  ((exists x', metar_parse e code y' mo' tr = Ok x')
   <-> real_date (opt_default (now_year e) y') (opt_default (now_month e) mo') (dt_day (t_dt (me_time x)))).
Proof. exact metar_accept_iff. Qed.
Print Assumptions C67_accepted_metar.

(** The year 9999 ends before the trend of a METAR of its last two hours does. *)
Example C67_accepted_metar_case :
  gives (read_in 2024 2 "METAR SEQM 292330Z 01018KT CAVOK NOSIG") (fun x => (dt_day (t_dt (me_time x)) =? 29)%Z) = true
  /\ gives (read_in 2023 2 "METAR SEQM 292330Z 01018KT CAVOK NOSIG") (fun _ => true) = false
  /\ gives (read_in 9998 12 "METAR SEQM 312330Z 01018KT CAVOK NOSIG") (fun _ => true) = true
  /\ fails_with (read_in 9999 12 "METAR SEQM 312330Z 01018KT CAVOK NOSIG") OverflowError = true.
Proof. conjs; vm_compute; reflexivity. Qed.

(** The same for forecasts; one without a time is accepted for every month.
    Before its time is read a forecast is dated by the clock, hence the clock. *)
Theorem C67_accepted_taf : forall e code y mo tr x y' mo', real_month e None None -> real_month e y mo -> real_month e y' mo' ->
  (now_year e < 9999)%Z -> (opt_default (now_year e) y' < 9999)%Z -> taf_parse e code y mo tr = Ok x ->
  ((exists x', taf_parse e code y' mo' tr = Ok x')
   <-> t_code (ta_time x) = None
       \/ real_date (opt_default (now_year e) y') (opt_default (now_month e) mo') (dt_day (t_dt (ta_time x)))).
Proof. exact taf_accept_iff. Qed.
Print Assumptions C67_accepted_taf.

(** The days of the validity and of the changes need not exist in the month. *)
Definition june_taf : string := "TAF SEQM 282300Z 2900/3024 05005KT 9999 FEW025 TX21/3019Z TN10/2911Z FM302200 08005KT".
Example C67_accepted_taf_case :
  gives (read_taf 2024 6 june_taf) (fun x => (dt_day (t_dt (ta_time x)) =? 28)%Z) = true
  /\ gives (read_taf 2023 2 june_taf) (fun x => Nat.eqb (length (gl_list (ta_changes x))) 1) = true
  /\ gives (read_taf 2024 6 "TAF SEQM 302300Z 0100/0124 05005KT 9999 FEW025") (fun _ => true) = true
  /\ gives (read_taf 2023 2 "TAF SEQM 302300Z 0100/0124 05005KT 9999 FEW025") (fun _ => true) = false
  /\ gives (read_taf 2024 6 "TAF SEQM 05005KT 9999 FEW025") (fun x => match t_code (ta_time x) with None => true | Some _ => false end) = true
  /\ gives (read_taf 2023 2 "TAF SEQM 05005KT 9999 FEW025") (fun _ => true) = true.
Proof. conjs; vm_compute; reflexivity. Qed.
