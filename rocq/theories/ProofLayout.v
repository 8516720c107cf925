(** * The layout of a report says nothing (C01): proof *)
From Coq Require Import String Ascii.
From Coq Require Import List NArith ZArith Bool Lia.
From Verif Require Import PyBase PyRegex AeroRegex PyTime Utils Base MetarGroups Trend Metar Taf SpecText ProofText.
Import ListNotations.
Local Open Scope list_scope.

Theorem metar_layout : forall ws t u a b c d e f env y mo tr,
  Forall word ws -> Forall (fun w => ~ In 61%N w) ws ->
  laid_out ws t -> blanks a -> blanks b -> e = [] \/ e = py "=" ->
  laid_out ws u -> blanks c -> blanks d -> f = [] \/ f = py "=" ->
  metar_parse env (a ++ t ++ e ++ b) y mo tr = metar_parse env (c ++ u ++ f ++ d) y mo tr.
Proof.
  intros ws t u a b c d e f env y mo tr W Q L A B E L' C D F. unfold metar_parse.
  rewrite (raw_layout ws t a e b L W Q A B E), (raw_layout ws u c f d L' W Q C D F). reflexivity.
Qed.

Theorem taf_layout : forall ws t u a b c d e f env y mo tr,
  Forall word ws -> Forall (fun w => ~ In 61%N w) ws ->
  laid_out ws t -> blanks a -> blanks b -> e = [] \/ e = py "=" ->
  laid_out ws u -> blanks c -> blanks d -> f = [] \/ f = py "=" ->
  taf_parse env (a ++ t ++ e ++ b) y mo tr = taf_parse env (c ++ u ++ f ++ d) y mo tr.
Proof.
  intros ws t u a b c d e f env y mo tr W Q L A B E L' C D F. unfold taf_parse.
  rewrite (raw_layout ws t a e b L W Q A B E), (raw_layout ws u c f d L' W Q C D F). reflexivity.
Qed.
