(** * Property C46 (failures of a TAF): statements only *)
From Coq Require Import String Ascii.
From Coq Require Import List NArith ZArith Bool Lia.
From Verif Require Import PyBase PyRegex PyTime Utils Base Taf SpecNum SpecTime SpecText SpecTaf SpecMetar SpecFailures SpecTafFailures
  OutTime OutTaf ProofTafFailures.
Import ListNotations.
Local Open Scope string_scope.
Local Open Scope nat_scope.
Local Open Scope list_scope.

Definition an_env : env := mk_env 2026 11 [] [].
Definition taf_in (y mo : Z) (s : string) : result taf := taf_parse an_env (py s) (Some y) (Some mo) false.
Definition stops {A} (r : result A) (ex : exn) : bool := match r with Raise e => exn_eqb e ex | Ok _ => false end.

(** Nine changes, three maximum temperatures and a probability of 20 stop the
    parser. *)
Theorem C46_refuted :
  stops (taf_in 2026 2 "TAF SEQM 162000Z 1620/1720 9999 FM162100 8000 FM162200 8000 FM162300 8000 FM170000 8000 FM170100 8000 FM170200 8000 FM170300 8000 FM170400 8000 FM170500 8000") RangeError = true
  /\ stops (taf_in 2026 2 "TAF SEQM 162000Z 1620/1720 9999 TX20/1618Z TX21/1619Z TX22/1620Z") RangeError = true
  /\ stops (taf_in 2026 2 "TAF SEQM 162000Z 1620/1720 9999 PROB20 1700/1704 3000") AttributeError = true.
Proof. vm_compute. repeat split. Qed.
Print Assumptions C46_refuted.

(** Every exception has its cause in the text, the month or the clock. *)
Theorem C46_failures : forall e code year month truncate ex, clock_wf e -> month_wf e year month ->
  taf_parse e code year month truncate = Raise ex ->
  taf_fails (now_year e) (now_month e) (opt_default (now_year e) year) (opt_default (now_month e) month) truncate code ex.
Proof. exact taf_outcome. Qed.
Print Assumptions C46_failures.

(** Each of them happens. *)
Example C46_cases :
  clock_wf an_env /\ month_wf an_env (Some 2026%Z) (Some 2%Z)
  /\ stops (taf_in 2026 2 "") AssertionError = true
  /\ stops (taf_parse an_env (py "TAF SEQM 162000Z xxx") (Some 2026%Z) (Some 2%Z) true) ParserError = true
  /\ stops (taf_in 2026 2 "TAF SEQM 302000Z 1620/1720") ValueError = true
  /\ stops (taf_in 2026 2 "TAF SEQM 162000Z 1620/1720 4000EW") ValueError = true
  /\ stops (taf_in 2026 2 "TAF SEQM 162000Z 1620/1720 9999 TEMPO 1620/1622 1/0SM") ZeroDivisionError = true
  /\ stops (taf_in 2026 2 "TAF SEQM 162000Z 1620/1720 1/2KM") TypeError = true
  /\ stops (taf_in 2026 2 "TAF SEQM 162000Z 1620/1720 9999 TN20/1618Z TN21/1619Z TN22/1620Z") RangeError = true
  /\ stops (taf_in 2026 2 "TAF SEQM 162000Z 1620/1720 9999|1|1|1|1|1|1|1|1|1") RangeError = true
  /\ stops (taf_in 2026 2 "TAF SEQM 162000Z 1620/1720 9999 FMXX 1700/1704 3000") AttributeError = true
  /\ stops (taf_in 2026 2 "TAF SEQM 162000Z 1620/1720 9999 PROB30 TEMPOX 1700/1704 3000") AttributeError = true
  /\ stops (taf_in 2026 2 "TAF SEQM 162000Z 1620/1720 9999|1700/1704") AttributeError = true
  /\ stops (taf_in 9999 12 "TAF SEQM 312000Z 3120/0120") OverflowError = true.
Proof. unfold clock_wf, month_wf. cbn [now_year now_month an_env opt_default]. repeat (split; [first [lia|vm_compute; reflexivity]|]). vm_compute. reflexivity. Qed.

(** Missing from the full statement: the reports one of the causes is in. *)
Theorem C46_partial : forall e code year month truncate, clock_wf e -> month_wf e year month ->
  (forall ex, ~ taf_fails (now_year e) (now_month e) (opt_default (now_year e) year) (opt_default (now_month e) month) truncate code ex) ->
  exists x, taf_parse e code year month truncate = Ok x.
Proof. exact taf_fine. Qed.
Print Assumptions C46_partial.
Example C46_case : forall ex, ~ taf_fails (now_year an_env) (now_month an_env) 2026 2 false (py "TAF SEQM 9999 FM161200 8000 TEMPO 4000") ex.
Proof. exact calm_fine. Qed.

(** Missing: more than eight changes or more than two temperatures of a kind. *)
Theorem C46_counts_partial : forall e code year month truncate, clock_wf e -> month_wf e year month ->
  ~ In 124%N (unsigned code) -> change_count (unsigned code) <= 8 ->
  places [py "TX"] (unsigned code) <= 2 -> places [py "TN"] (unsigned code) <= 2 ->
  taf_parse e code year month truncate <> Raise RangeError.
Proof. exact few_changes. Qed.
Print Assumptions C46_counts_partial.
Example C46_counts_case :
  let s := unsigned (py "TAF SEQM 162000Z 1620/1720 9999 TX20/1618Z TN11/1710Z FM162100 8000 PROB30 TEMPO 1700/1704 3000 BECMG 1704/1706 CAVOK=") in
  change_count s = 4 /\ places [py "TX"] s = 1 /\ places [py "TN"] s = 1.
Proof. vm_compute. repeat split. Qed.
