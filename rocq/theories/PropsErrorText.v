(** * The texts of RangeError, ValueError and TypeError (C87): statements only *)
From Coq Require Import String Ascii.
From Coq Require Import List NArith ZArith Bool Lia.
From Verif Require Import PyBase PyTime Base MetarGroups Trend Metar Taf AsDict Setter ErrorText
  SpecMetar SpecSay SpecRefused SpecRefusedTaf SpecErrorText OutTime ProofValues ProofErrorText PropsFailures.
Import ListNotations.
Local Open Scope string_scope.
Local Open Scope nat_scope.
Local Open Scope list_scope.

(** A METAR raises RangeError exactly when there is a text for it, *)
Theorem C87_metar : forall e code y mo tr, clock_wf e -> month_wf e y mo ->
  (metar_parse e code y mo tr = Raise RangeError <-> exists t, metar_range_error e code y mo = Some t).
Proof. exact (fun e code y mo tr C W => proj1 (metar_range_both e code y mo tr C W)). Qed.
Print Assumptions C87_metar.
(** and the text always speaks of the trends, of which there are more than two. *)
Theorem C87_metar_text : forall e code y mo t, clock_wf e -> month_wf e y mo -> metar_range_error e code y mo = Some t ->
  t = many_trends /\ 3 <= length (trends_of code).
Proof. exact (fun e code y mo t C W => proj2 (metar_range_both e code y mo true C W) t). Qed.
Print Assumptions C87_metar_text.

(** The same for a TAF: the text speaks of the temperatures when three of one
    kind are given, and of the changes when there are nine. *)
Theorem C87_taf : forall e code y mo tr, clock_wf e -> month_wf e y mo ->
  (taf_parse e code y mo tr = Raise RangeError <-> exists t, taf_range_error e code y mo = Some t).
Proof. exact (fun e code y mo tr C W => proj1 (taf_range_both e code y mo tr C W)). Qed.
Print Assumptions C87_taf.
Theorem C87_taf_text : forall e code y mo t, clock_wf e -> month_wf e y mo -> taf_range_error e code y mo = Some t ->
  (t = many_temps /\ exists p, In p [py "TX"; py "TN"] /\ 3 <= length (filter (starts_with p) (words_of_taf code)))
  \/ (t = many_changes /\ 9 <= length (changes_of code)).
Proof. exact (fun e code y mo t C W => proj2 (taf_range_both e code y mo true C W) t). Qed.
Print Assumptions C87_taf_text.

Example C87_case :
  metar_range_error some_env (py "METAR SEQM 162000Z TEMPO 8000 TEMPO 9000 BECMG 9999") (Some 2026%Z) (Some 1%Z) = Some many_trends
  /\ taf_range_error some_env (py "TAF SEQM 162000Z 1620/1720 TX25/1618Z TX26/1718Z TX27/1718Z") (Some 2026%Z) (Some 1%Z) = Some many_temps
  /\ taf_range_error some_env (py "TAF SEQM 162000Z 1620/1720 9999 FM162100 8000 FM162200 8000 FM162300 8000 FM170000 8000 FM170100 8000 FM170200 8000 FM170300 8000 FM170400 8000 FM170500 8000") (Some 2026%Z) (Some 1%Z) = Some many_changes
  /\ metar_range_error some_env (py "METAR SEQM 162000Z TEMPO 8000 BECMG 9999") (Some 2026%Z) (Some 1%Z) = None
  /\ taf_range_error some_env (py "TAF SEQM 162000Z 1620/1720 TX25/1618Z TX26/1718Z TN07/1718Z") (Some 2026%Z) (Some 1%Z) = None.
Proof. conjs; vm_compute; reflexivity. Qed.

(** Reading a list beyond its size tells the size and the class. *)
Theorem C87_index : forall A (cls : str) (g : grouplist A) i, gl_get g i = Raise RangeError <-> exists t, get_text cls g i = Some t.
Proof. exact get_range. Qed.
Print Assumptions C87_index.
Theorem C87_index_text : forall A (cls : str) (g : grouplist A) i t, get_text cls g i = Some t ->
  exists n, numeral n (N.of_nat (gl_max g)) /\ t = py "can't get more than " ++ n ++ py " items in <class '" ++ cls ++ py "'>".
Proof. exact get_says. Qed.
Print Assumptions C87_index_text.
Example C87_index_case :
  get_text (py "aeromet_py.reports.models.base.cloud.CloudList") (@gl_new nat 4) 4
    = Some (py "can't get more than 4 items in <class 'aeromet_py.reports.models.base.cloud.CloudList'>")
  /\ get_text (py "aeromet_py.reports.models.base.cloud.CloudList") (@gl_new nat 4) 3 = None.
Proof. conjs; vm_compute; reflexivity. Qed.

(** from_cardinal fails with ValueError only, and the codes its text lists are
    exactly those it takes. *)
Theorem C87_cardinal : forall w, lettered w -> ((exists d, from_cardinal w = Ok d) <-> quoted cardinal_text w).
Proof. exact cardinal_listed. Qed.
Print Assumptions C87_cardinal.
Theorem C87_cardinal_error : forall w ex, from_cardinal w = Raise ex -> ex = ValueError.
Proof. exact cardinal_fails. Qed.
Print Assumptions C87_cardinal_error.
Example C87_cardinal_case :
  cardinal_text = py "invalid cardinal direction code, use one of the following: dict_keys(['NNE', 'NE', 'ENE', 'E', 'ESE', 'SE', 'SSE', 'S', 'SSW', 'SW', 'WSW', 'W', 'WNW', 'NW', 'NNW', 'N'])"
  /\ lettered (py "WSW") /\ quoted cardinal_text (py "WSW") /\ lettered (py "EW") /\ fails_with (from_cardinal (py "EW")) ValueError = true.
Proof.
  conjs; try (vm_compute; reflexivity).
  - unfold lettered. repeat apply Forall_cons; try apply Forall_nil; vm_compute; split; discriminate.
  - exists (py "invalid cardinal direction code, use one of the following: dict_keys(['NNE', 'NE', 'ENE', 'E', 'ESE', 'SE', 'SSE', 'S', 'SSW', 'SW', "),
      (py ", 'W', 'WNW', 'NW', 'NNW', 'N'])"). vm_compute. reflexivity.
  - unfold lettered. repeat apply Forall_cons; try apply Forall_nil; vm_compute; split; discriminate.
Qed.

(** The setter of CAVOK: the text is there exactly when the value is refused,
    and tells the type of the value. *)
Theorem C87_cavok : forall v x, set_cavok v x = Raise TypeError <-> exists t, cavok_text v = Some t.
Proof. exact cavok_iff. Qed.
Print Assumptions C87_cavok.
Theorem C87_cavok_type : forall v w t, cavok_text v = Some t -> (cavok_text w = Some t <-> same_type v w).
Proof. exact cavok_type. Qed.
Print Assumptions C87_cavok_type.
Example C87_cavok_case :
  cavok_text (VStr (py "yes")) = Some (py "can't set cavok to <class 'str'> type")
  /\ cavok_text VNone = Some (py "can't set cavok to <class 'NoneType'> type") /\ cavok_text (VBool true) = None.
Proof. conjs; vm_compute; reflexivity. Qed.
