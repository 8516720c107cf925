(** * Property C64: statements only *)
From Coq Require Import String Ascii.
From Coq Require Import List NArith ZArith Bool Permutation.
From Verif Require Import PyBase PyRegex AeroRegex PyFloat PyTime Utils Base MetarGroups Trend Metar Taf AsDict SpecNum SpecDict
  ProofValues ProofDictReport ProofDictSame PropsFailures PropsAbsent.
Import ListNotations.
Local Open Scope string_scope.
Local Open Scope nat_scope.
Local Open Scope list_scope.

(** ** C64: the dictionary of a report has a row for every attribute, and no
    other row *)

Theorem C64_metar : forall e code y mo tr x, metar_parse e code y mo tr = Ok x ->
  exists d, metar_dict e x = Ok d /\ Permutation (leaves (VDict d)) (metar_rows e x).
Proof. exact metar_dict_rows. Qed.
Print Assumptions C64_metar.

Theorem C64_taf : forall e code y mo tr x, taf_parse e code y mo tr = Ok x ->
  exists d, taf_dict e x = Ok d /\ Permutation (leaves (VDict d)) (taf_rows e x).
Proof. exact taf_dict_rows. Qed.
Print Assumptions C64_taf.

(** The indicators of trends and changes. *)
Theorem C64_metar_indicators : forall e code y mo tr x, metar_parse e code y mo tr = Ok x ->
  Forall (fun p => Permutation (leaves (VDict (trend_ind_dict (cp_ind p)))) (trend_ind_rows (cp_ind p))) (gl_list (me_trends x)).
Proof. exact metar_indicators. Qed.
Print Assumptions C64_metar_indicators.

Theorem C64_taf_indicators : forall e code y mo tr x, taf_parse e code y mo tr = Ok x ->
  Forall (fun p => Permutation (leaves (VDict (taf_ind_dict (cf_ind p)))) (taf_ind_rows (cf_ind p))) (gl_list (ta_changes x)).
Proof. exact taf_indicators. Qed.
Print Assumptions C64_taf_indicators.

(** Two reports with the same dictionary are the same but for the times of
    their trends or changes. *)
Theorem C64_metar_settled : forall e code y mo tr x code' y' mo' tr' x' d,
  metar_parse e code y mo tr = Ok x -> metar_parse e code' y' mo' tr' = Ok x' ->
  metar_dict e x = Ok d -> metar_dict e x' = Ok d -> same_metar x x'.
Proof. exact metar_settled. Qed.
Print Assumptions C64_metar_settled.

Theorem C64_taf_settled : forall e code y mo tr x code' y' mo' tr' x' d,
  taf_parse e code y mo tr = Ok x -> taf_parse e code' y' mo' tr' = Ok x' ->
  taf_dict e x = Ok d -> taf_dict e x' = Ok d -> same_taf x x'.
Proof. exact taf_settled. Qed.
Print Assumptions C64_taf_settled.

(** Reading the leaves of a tree at a path of keys; [pos] stands for the
    position of the entry in a list. *)
Definition step_is (s : step) (k : string) : bool :=
  match s with Key a => str_eqb a (py k) | Item i => String.eqb k (nth i ["0"; "1"; "2"]%string "") end.
Definition path_is (p : list step) (q : list string) : bool :=
  Nat.eqb (length p) (length q) && forallb (fun x => step_is (fst x) (snd x)) (combine p q).
Definition pick (q : list string) (l : list row) : list leaf := map snd (filter (fun r => path_is (fst r) q) l).

Definition one_metar : str :=
  py "METAR SEQM 071200Z 01018G25KT 350V040 9999 4000SW R36/0900D -RA BKN030 OVC100 10/08 Q1013 RERA WS R36 NOSIG RMK A2992".
Definition one_taf : str := py "TAF SEQM 142300Z 1500/1524 05005KT 9999 BKN030 TX25/1516Z TN08/1510Z TEMPO 1506/1512 4000 SHRA SCT020".

Definition of_metar (q : list string) : list leaf :=
  match (x <- metar_parse some_env one_metar (Some 2024%Z) (Some 2%Z) false ;; metar_dict some_env x) with
  | Ok d => pick q (leaves (VDict d)) | Raise _ => [] end.
Definition of_taf (q : list string) : list leaf :=
  match (x <- taf_parse some_env one_taf (Some 2024%Z) (Some 2%Z) false ;; taf_dict some_env x) with
  | Ok d => pick q (leaves (VDict d)) | Raise _ => [] end.

Example C64_metar_case :
  gives (metar_parse some_env one_metar (Some 2024%Z) (Some 2%Z) false) (fun x => Nat.eqb (length (gl_list (me_trends x))) 1) = true
  /\ of_metar ["wind"; "speed"; "speed"] = [Number (float_of_Z 18)]
  /\ of_metar ["wind"; "gust"; "speed"] = [Number (float_of_Z 25)]
  /\ of_metar ["wind"; "gust"; "units"] = [Word (py "knot")]
  /\ of_metar ["wind"; "code"] = [Word (py "01018G25KT")]
  /\ of_metar ["clouds"; "second"; "cover"] = [Word (py "overcast")]
  /\ of_metar ["time"; "datetime"] = [Word (py "2024-02-07 12:00:00")]
  /\ of_metar ["remark"] = [Word (py "RMK A2992")]
  /\ of_metar ["weather_trends"; "first"; "clouds"] = [Hollow].
Proof. vm_compute. conjs; reflexivity. Qed.

Example C64_taf_case :
  gives (taf_parse some_env one_taf (Some 2024%Z) (Some 2%Z) false) (fun x => Nat.eqb (length (gl_list (ta_changes x))) 1) = true
  /\ of_taf ["max_temperatures"; "first"; "temperature"] = [Number (float_of_Z 25)]
  /\ of_taf ["max_temperatures"; "first"; "datetime"] = [Word (py "2024-02-15 16:00:00")]
  /\ of_taf ["valid"; "until"; "datetime"] = [Word (py "2024-02-16 00:00:00")]
  /\ of_taf ["changes_forecasted"; "first"; "weathers"; "0"; "precipitation"] = [Word (py "rain")]
  /\ of_taf ["changes_forecasted"; "first"; "code"] = [Word (py "TEMPO 1506/1512 4000 SHRA SCT020")].
Proof. vm_compute. conjs; reflexivity. Qed.

(** Not every code is there, and the times of a change are not: the pressure
    and the temperatures of a TAF lose their codes. *)
Theorem C64_refuted :
  gives (metar_parse some_env one_metar (Some 2024%Z) (Some 2%Z) false) (fun x => is_some (pr_code (me_press x)) "Q1013") = true
  /\ of_metar ["pressure"; "code"] = []
  /\ gives (taf_parse some_env one_taf (Some 2024%Z) (Some 2%Z) false)
       (fun x => forallb (fun t => is_some (tt_code t) "TX25/1516Z") (gl_list (ta_max x))
                 && forallb (fun p => is_some (va_code (tc_valid (cf_ind p))) "1506/1512") (gl_list (ta_changes x))) = true
  /\ of_taf ["max_temperatures"; "first"; "code"] = [Nothing]
  /\ of_taf ["changes_forecasted"; "first"; "valid"; "from_"; "datetime"] = []
  /\ of_taf ["changes_forecasted"; "first"; "change_indicator"; "valid"; "from_"; "datetime"] = []
  /\ of_taf ["valid"; "from_"; "datetime"] = [Word (py "2024-02-15 00:00:00")].
Proof. vm_compute. conjs; reflexivity. Qed.
Print Assumptions C64_refuted.
