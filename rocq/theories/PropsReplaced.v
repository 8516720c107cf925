(** * Property C61, the replaced pressure: statements only *)
From Coq Require Import String Ascii.
From Coq Require Import List NArith ZArith Bool Lia.
From Verif Require Import PyBase PyRegex PyTime Base MetarGroups Trend Metar SpecNum SpecGroups SpecKept SpecGrammar SpecRefused SpecGiven SpecStr SpecStated
  SpecReplaced ProofRefused ProofReplaced PropsFailures PropsAbsent PropsGiven.
Import ListNotations.
Local Open Scope string_scope.
Local Open Scope nat_scope.
Local Open Scope list_scope.

(** The text of a METAR has exactly one line more for every pressure word that
    a later one replaces, with the value of that word. *)
Theorem C61_replaced : forall e code y mo tr x, metar_parse e code y mo tr = Ok x -> metar_says e code x.
Proof. exact metar_says_ok. Qed.
Print Assumptions C61_replaced.

(** Both pressures are shown, the first one with its own value. *)
Example C61_replaced_case :
  (exists u, takes metar_order 0 (words_of_body (py "METAR SEQM 162000Z Q0998 A3015"))
    [(0, py "METAR"); (1, py "SEQM"); (2, py "162000Z"); (19, py "Q0998"); (20, py "A3015")] u)
  /\ removelast (given 19 2 [(0, py "METAR"); (1, py "SEQM"); (2, py "162000Z"); (19, py "Q0998"); (20, py "A3015")]) = [py "Q0998"]
  /\ exists x, read_in 2024 2 "METAR SEQM 162000Z Q0998 A3015" = Ok x
     /\ skipn 3 (split_on 10 (metar_str x)) = [py "998.0 hPa"; py "1021.0 hPa"].
Proof.
  split.
  { replace (words_of_body _) with [py "METAR"; py "SEQM"; py "162000Z"; py "Q0998"; py "A3015"] by (vm_compute; reflexivity).
    eexists. by_pattern 0. by_pattern 1. by_pattern 2. by_pattern 19. by_pattern 20. apply takes_end. }
  split; [vm_compute; reflexivity|].
  eexists. split; [vm_compute; reflexivity|]. vm_compute. reflexivity.
Qed.
