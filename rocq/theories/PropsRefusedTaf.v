(** * Exactly when a TAF is refused (C84) *)
From Coq Require Import String Ascii.
From Coq Require Import List NArith ZArith Bool Lia.
From Verif Require Import PyBase PyRegex AeroRegex PyTime Utils Base MetarGroups Trend Taf SpecNum SpecTime SpecMetar SpecFailures SpecTafFailures SpecVision SpecGrammar
  OutTime TimeFacts SpecRefused ProofRefused SpecRefusedTaf ProofSight ProofRefusedTaf PropsFailures.
Import ListNotations.
Local Open Scope string_scope.
Local Open Scope nat_scope.
Local Open Scope list_scope.

(** Away from the last month of the calendar, a TAF raises an exception exactly
    when one of its words is the first that cannot be read, a change cannot be
    added to the others, or words are left that must not be. *)
Theorem C84_taf : forall e code year month tr ex, clock_wf e -> month_wf e year month ->
  ~ last_month (opt_default (now_year e) year) (opt_default (now_month e) month) -> ~ last_month (now_year e) (now_month e) ->
  (taf_parse e code year month tr = Raise ex
   <-> taf_refused (opt_default (now_year e) year) (opt_default (now_month e) month) tr code ex).
Proof. exact taf_refused_exactly. Qed.
Print Assumptions C84_taf.

(** It is read otherwise. *)
Theorem C84_accepted : forall e code year month tr, clock_wf e -> month_wf e year month ->
  ~ last_month (opt_default (now_year e) year) (opt_default (now_month e) month) -> ~ last_month (now_year e) (now_month e) ->
  ((exists x, taf_parse e code year month tr = Ok x)
   <-> forall ex, ~ taf_refused (opt_default (now_year e) year) (opt_default (now_month e) month) tr code ex).
Proof. exact taf_accepted_exactly. Qed.
Print Assumptions C84_accepted.

(** The visibility of the body alone: what follows it does not matter. *)
Theorem C84_sight : forall g m ex, re_match r_T_VISIBILITY g = Some m -> (prevailing_new (Some m) = Raise ex <-> sight_fails g ex).
Proof. exact sight_exact. Qed.
Print Assumptions C84_sight.


Ltac by_pattern k := apply (taken _ _ k); [vm_compute; reflexivity|].

(** The third maximum is one too many. *)
Example C84_case :
  clock_wf some_env /\ month_wf some_env (Some 2026%Z) (Some 2%Z) /\ ~ last_month 2026 2 /\ ~ last_month (now_year some_env) (now_month some_env)
  /\ taf_refused 2026 2 true (py "TAF SEQM TX25/1018Z TX26/1118Z TX27/1218Z") RangeError.
Proof.
  split; [unfold clock_wf; cbn; lia|]. split; [unfold month_wf; cbn; lia|]. split; [unfold last_month; lia|]. split; [unfold last_month; cbn; lia|].
  right. split; [discriminate|].
  exists [(0, py "TAF"); (2, py "SEQM"); (16, py "TX25/1018Z"); (17, py "TX26/1118Z"); (18, py "TX27/1218Z")], []. split.
  - replace (words_of_taf (py "TAF SEQM TX25/1018Z TX26/1118Z TX27/1218Z")) with [py "TAF"; py "SEQM"; py "TX25/1018Z"; py "TX26/1118Z"; py "TX27/1218Z"] by (vm_compute; reflexivity).
    by_pattern 0. by_pattern 2. by_pattern 16. by_pattern 17. by_pattern 18. apply takes_end.
  - left. exists [(0, py "TAF"); (2, py "SEQM"); (16, py "TX25/1018Z"); (17, py "TX26/1118Z")], (18, py "TX27/1218Z"), []. split; [reflexivity|]. split.
    + intros a z b ex E. destruct a as [|a0 [|a1 [|a2 [|a3 a]]]]; cbn [app] in E; injection E; intros; subst; [exact (fun K => K)|exact (fun K => K)| | |destruct a; discriminate];
        intros (_ & p & Ip & _ & L); destruct Ip as [<-|[<-|[]]]; vm_compute in L; lia.
    + split; [reflexivity|]. exists (py "TX"). split; [left; reflexivity|]. split; [reflexivity|]. vm_compute. lia.
Qed.

Definition is_read {A} (r : result A) : bool := match r with Ok _ => true | Raise _ => false end.
Definition raises {A} (r : result A) (e : exn) : bool :=
  match r, e with
  | Raise RangeError, RangeError | Raise AttributeError, AttributeError | Raise ZeroDivisionError, ZeroDivisionError
  | Raise ValueError, ValueError | Raise ParserError, ParserError => true
  | _, _ => false
  end.
Lemma raises_it : forall A (r : result A) e, raises r e = true -> r = Raise e.
Proof. intros A [x|[]] [] H; first [discriminate H|reflexivity]. Qed.
Lemma reads_it : forall A (r : result A) e, is_read r = true -> r <> Raise e.
Proof. intros A [x|e'] e H; [discriminate|discriminate H]. Qed.

(** A visibility over zero, with letters behind it. *)
Example C84_case_sight : exists m, re_match r_T_VISIBILITY (py "1/0SMX") = Some m /\ prevailing_new (Some m) = Raise ZeroDivisionError.
Proof.
  assert (K : match re_match r_T_VISIBILITY (py "1/0SMX") with Some m => raises (prevailing_new (Some m)) ZeroDivisionError | None => false end = true) by (vm_compute; reflexivity).
  destruct (re_match r_T_VISIBILITY (py "1/0SMX")) as [m|]; [|discriminate K]. exists m. split; [reflexivity|]. apply raises_it. exact K.
Qed.

(** TAFs that are read and TAFs refused: eight changes and nine; a validity
    without an indicator; FM behind a change without an indicator, with
    TEMPO between, and PROB30 behind it; the fraction of a change that is not
    the first; a day the month does not have; a word that is left. *)
Example C84_case_changes :
  is_read (taf_parse some_env (py "TAF SEQM 101140Z 1012/1112 9999 TEMPO 1012/1013 1000 TEMPO 1012/1013 1000 TEMPO 1012/1013 1000 TEMPO 1012/1013 1000 TEMPO 1012/1013 1000 TEMPO 1012/1013 1000 TEMPO 1012/1013 1000 TEMPO 1012/1013 1000") (Some 2026%Z) (Some 2%Z) true) = true
  /\ taf_refused 2026 2 true (py "TAF SEQM 101140Z 1012/1112 9999 TEMPO 1000 TEMPO 1000 TEMPO 1000 TEMPO 1000 TEMPO 1000 TEMPO 1000 TEMPO 1000 TEMPO 1000 TEMPO 1000") RangeError
  /\ taf_refused 2026 2 true (py "TAF SEQM 101140Z 1012/1112 9999 FMX 1012/1014") AttributeError
  /\ taf_refused 2026 2 false (py "TAF SEQM 101140Z 1012/1112 9999 FMX 4000 TEMPO 3000 FM101200 9999") AttributeError
  /\ ~ taf_refused 2026 2 false (py "TAF SEQM 101140Z 1012/1112 9999 FMX 4000 TEMPO 3000 PROB30 2000") AttributeError
  /\ taf_refused 2026 2 true (py "TAF SEQM 101140Z 1012/1112 9999 TEMPO 4000 BECMG 1/0SM") ZeroDivisionError
  /\ taf_refused 2026 2 true (py "TAF SEQM 301140Z 3012/3112 9999") ValueError
  /\ taf_refused 2026 2 true (py "TAF SEQM 101140Z QQQ") ParserError.
Proof.
  assert (C : clock_wf some_env) by (unfold clock_wf; cbn; lia).
  assert (W : month_wf some_env (Some 2026%Z) (Some 2%Z)) by (unfold month_wf; cbn; lia).
  assert (K : forall code tr ex, taf_parse some_env code (Some 2026%Z) (Some 2%Z) tr = Raise ex <-> taf_refused 2026 2 tr code ex).
  { intros code tr ex. refine (C84_taf some_env code (Some 2026%Z) (Some 2%Z) tr ex C W _ _); unfold last_month; cbn; lia. }
  split; [vm_compute; reflexivity|]. do 3 (split; [apply K, raises_it; vm_compute; reflexivity|]).
  split; [rewrite <- K; apply reads_it; vm_compute; reflexivity|]. split; [|split]; apply K, raises_it; vm_compute; reflexivity.
Qed.
