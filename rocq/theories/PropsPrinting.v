(** * What a METAR prints before it is refused (C53): statements only *)
From Coq Require Import String Ascii.
From Coq Require Import List NArith ZArith Bool Lia.
From Verif Require Import PyBase PyRegex AeroRegex PyFloat PyTime Utils Base MetarGroups Trend Metar Printing SpecText SpecFailures SpecPrinting
  ProofValues ProofPrinting PropsFailures.
Import ListNotations.
Local Open Scope string_scope.
Local Open Scope nat_scope.
Local Open Scope list_scope.

(** The lines followed up to an exception are those kept in an accepted
    report. *)
Theorem C53_accepted : forall e code y mo tr x, metar_parse e code y mo tr = Ok x -> metar_prints e code y mo = me_out x.
Proof. exact prints_accepted. Qed.
Print Assumptions C53_accepted.

(** Whatever text is given, accepted or refused: something is printed only if
    the text holds a time of a trend such as FM1200. *)
Theorem C53_any_text : forall e code y mo, metar_prints e code y mo <> [] -> exists p, contains (unsigned code) p /\ period p.
Proof. exact prints_silent. Qed.
Print Assumptions C53_any_text.

(** There are never more than six lines, and each is a time or None. *)
Theorem C53_lines : forall e code y mo, Forall line (metar_prints e code y mo) /\ length (metar_prints e code y mo) <= 6.
Proof. exact prints_lines. Qed.
Print Assumptions C53_lines.

(** Six lines, from a report refused at its third trend; and the line of a
    report refused because of the visibility behind its time. *)
Definition six : str := py "METAR SEQM 071200Z 01018KT NOSIG FM1210 AT1220 TEMPO FM1230 TL1330 BECMG AT1300 TL1340".
Definition one : str := py "METAR SEQM 071200Z 01018KT TEMPO FM1230 1/0SM".
Example C53_lines_case :
  fails_with (metar_parse some_env six (Some 2024%Z) (Some 2%Z) false) RangeError = true
  /\ metar_prints some_env six (Some 2024%Z) (Some 2%Z)
     = [py "None"; py "2024-02-07 12:20:00"; py "None"; py "None"; py "2024-02-07 13:00:00"; py "2024-02-07 13:00:00"]
  /\ fails_with (metar_parse some_env one (Some 2024%Z) (Some 2%Z) false) ZeroDivisionError = true
  /\ metar_prints some_env one (Some 2024%Z) (Some 2%Z) = [py "None"].
Proof. conjs; vm_compute; reflexivity. Qed.
