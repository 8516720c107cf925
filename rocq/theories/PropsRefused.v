(** * Exactly when a METAR is refused (C83) *)
From Coq Require Import String Ascii.
From Coq Require Import List NArith ZArith Bool Lia.
From Verif Require Import PyBase PyRegex AeroRegex PyTime Utils Base MetarGroups Trend Metar SpecNum SpecTime SpecMetar SpecFailures SpecVision SpecGrammar
  OutTime TimeFacts SpecRefused ProofRefused PropsFailures.
Import ListNotations.
Local Open Scope string_scope.
Local Open Scope nat_scope.
Local Open Scope list_scope.

(** A METAR raises an exception exactly when one of its words is the first
    that cannot be read, a trend is one too many, or words are left that must
    not be. *)
Theorem C83_metar : forall e code year month tr ex, clock_wf e -> month_wf e year month ->
  (metar_parse e code year month tr = Raise ex
   <-> metar_refused (opt_default (now_year e) year) (opt_default (now_month e) month) tr code ex).
Proof. exact metar_refused_exactly. Qed.
Print Assumptions C83_metar.

(** It is read otherwise. *)
Theorem C83_accepted : forall e code year month tr, clock_wf e -> month_wf e year month ->
  ((exists x, metar_parse e code year month tr = Ok x)
   <-> forall ex, ~ metar_refused (opt_default (now_year e) year) (opt_default (now_month e) month) tr code ex).
Proof. exact metar_accepted_exactly. Qed.
Print Assumptions C83_accepted.

Ltac by_pattern k := apply (taken _ _ k); [vm_compute; reflexivity|].

(** The first word that cannot be read decides: a time of February 30, then a
    fraction over zero; after a visibility a time is not taken any more, and the
    fraction decides. *)
Example C83_case :
  clock_wf some_env /\ month_wf some_env (Some 2026%Z) (Some 2%Z)
  /\ metar_refused 2026 2 true (py "METAR SEQM 302000Z 1/0SM") ValueError
  /\ fails_with (read_in 2026 2 "METAR SEQM 302000Z 1/0SM") ValueError = true
  /\ metar_refused 2026 2 true (py "METAR SEQM 1/0SM 302000Z") ZeroDivisionError
  /\ fails_with (read_in 2026 2 "METAR SEQM 1/0SM 302000Z") ZeroDivisionError = true.
Proof.
  split; [unfold clock_wf; cbn; lia|]. split; [unfold month_wf; cbn; lia|]. split; [|split; [vm_compute; reflexivity|split; [|vm_compute; reflexivity]]].
  - right. split; [discriminate|]. exists [(0, py "METAR"); (1, py "SEQM"); (2, py "302000Z"); (6, py "1/0SM")], []. split.
    + replace (words_of_body (py "METAR SEQM 302000Z 1/0SM")) with [py "METAR"; py "SEQM"; py "302000Z"; py "1/0SM"] by (vm_compute; reflexivity).
      by_pattern 0. by_pattern 1. by_pattern 2. by_pattern 6. apply takes_end.
    + left. exists [(0, py "METAR"); (1, py "SEQM")], (2, py "302000Z"), [(6, py "1/0SM")]. split; [reflexivity|]. split.
      * intros a z b ex E. destruct a as [|a0 [|a1 a]]; cbn [app] in E; injection E; intros; subst; [exact (fun K => K)|exact (fun K => K)|]. destruct a; discriminate.
      * split; [reflexivity|]. exists 30%N, 20%N, 0%N. split.
        -- exists (py "302000Z"), []. split; [reflexivity|]. exists (py "30"), (py "20"), (py "00").
           split; [reflexivity|]. do 3 (split; [split; [discriminate|vm_compute; reflexivity]|]). do 3 (split; [reflexivity|]). lia.
        -- left. intro R. apply TimeFacts.valid_date_spec in R. vm_compute in R. discriminate R.
  - right. split; [discriminate|]. exists [(0, py "METAR"); (1, py "SEQM"); (6, py "1/0SM")], [py "302000Z"]. split.
    + replace (words_of_body (py "METAR SEQM 1/0SM 302000Z")) with [py "METAR"; py "SEQM"; py "1/0SM"; py "302000Z"] by (vm_compute; reflexivity).
      by_pattern 0. by_pattern 1. by_pattern 6. apply not_taken; [vm_compute; reflexivity|]. apply takes_end.
    + left. exists [(0, py "METAR"); (1, py "SEQM")], (6, py "1/0SM"), []. split; [reflexivity|]. split.
      * intros a z b ex E. destruct a as [|a0 [|a1 a]]; cbn [app] in E; injection E; intros; subst; [exact (fun K => K)|exact (fun K => K)|]. destruct a; discriminate.
      * exists (py "1/0SM"). split; [exists [], []; reflexivity|]. exists (py "1"), (py "0"), 1%N. split; [reflexivity|].
        split; (split; [discriminate|vm_compute; reflexivity]).
Qed.

(** Reports that are read and reports refused for a trend: a period without an
    indicator, a fraction in the first of three trends, three trends. *)
Example C83_case_trends :
  (exists x, metar_parse some_env (py "METAR SEQM 102000Z 9999 TEMPO FM2030 4000") (Some 2026%Z) (Some 2%Z) true = Ok x)
  /\ metar_refused 2026 2 true (py "METAR SEQM 102000Z NOSIGX FM1200") TypeError
  /\ metar_refused 2026 2 true (py "METAR SEQM 102000Z TEMPO 1/0SM TEMPO 3000 BECMG 9999") ZeroDivisionError
  /\ metar_refused 2026 2 true (py "METAR SEQM 102000Z TEMPO 4000 TEMPO 3000 BECMG 9999") RangeError
  /\ metar_refused 2026 2 true (py "METAR SEQM 102000Z QQQ") ParserError
  /\ ~ metar_refused 2026 2 false (py "METAR SEQM 102000Z QQQ") ParserError.
Proof.
  assert (C : clock_wf some_env) by (unfold clock_wf; cbn; lia).
  assert (W : month_wf some_env (Some 2026%Z) (Some 2%Z)) by (unfold month_wf; cbn; lia).
  assert (K : forall code tr ex, metar_parse some_env code (Some 2026%Z) (Some 2%Z) tr = Raise ex <-> metar_refused 2026 2 tr code ex).
  { intros code tr ex. exact (C83_metar some_env code (Some 2026%Z) (Some 2%Z) tr ex C W). }
  split; [eexists; vm_compute; reflexivity|]. do 4 (split; [apply K; vm_compute; reflexivity|]). rewrite <- K. vm_compute. discriminate.
Qed.
