(** * The text of a ParserError (C68): statements only *)
From Coq Require Import String Ascii.
From Coq Require Import List NArith ZArith Bool Lia.
From Verif Require Import PyBase PyTime Base MetarGroups Trend Metar Taf Messages SpecMessages ProofValues ProofMessages PropsFailures.
Import ListNotations.
Local Open Scope string_scope.
Local Open Scope nat_scope.
Local Open Scope list_scope.

(** When a truncated METAR raises ParserError, the text of the exception names
    exactly the groups that the report read without truncation leaves
    unparsed, in order, and then the raw code. *)
Theorem C68_metar : forall e code y mo, metar_parse e code y mo true = Raise ParserError ->
  exists x text, metar_parse e code y mo false = Ok x /\ metar_error e code y mo = Some text /\ names text (me_unparsed x) (me_raw x).
Proof. exact metar_names. Qed.
Print Assumptions C68_metar.
Theorem C68_metar_only : forall e code y mo, metar_parse e code y mo true <> Raise ParserError -> metar_error e code y mo = None.
Proof. exact metar_error_only. Qed.
Print Assumptions C68_metar_only.

Theorem C68_taf : forall e code y mo, taf_parse e code y mo true = Raise ParserError ->
  exists x text, taf_parse e code y mo false = Ok x /\ taf_error e code y mo = Some text /\ names text (ta_unparsed x) (ta_raw x).
Proof. exact taf_names. Qed.
Print Assumptions C68_taf.
Theorem C68_taf_only : forall e code y mo, taf_parse e code y mo true <> Raise ParserError -> taf_error e code y mo = None.
Proof. exact taf_error_only. Qed.
Print Assumptions C68_taf_only.

Example C68_case :
  metar_error some_env (py "METAR SEQM 162000Z xxx NOSIG yy=") (Some 2026%Z) (Some 1%Z)
    = Some (py "failed while processing xxx, yy from: METAR SEQM 162000Z xxx NOSIG yy")
  /\ fails_with (metar_parse some_env (py "METAR SEQM 162000Z xxx NOSIG yy=") (Some 2026%Z) (Some 1%Z) true) ParserError = true
  /\ taf_error some_env (py "TAF SEQM 162000Z 1620/1720 xxx") (Some 2026%Z) (Some 1%Z)
    = Some (py "failed while processing xxx from: TAF SEQM 162000Z 1620/1720 xxx")
  /\ fails_with (taf_parse some_env (py "TAF SEQM 162000Z 1620/1720 xxx") (Some 2026%Z) (Some 1%Z) true) ParserError = true
  /\ metar_error some_env (py "METAR SEQM 162000Z NOSIG") (Some 2026%Z) (Some 1%Z) = None.
Proof. conjs; vm_compute; reflexivity. Qed.
