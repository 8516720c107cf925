(** * Which field gets which word (C85) *)
From Coq Require Import String Ascii.
From Coq Require Import List NArith ZArith Bool Lia.
From Verif Require Import PyBase PyRegex AeroRegex PyTime Utils Base MetarGroups Trend Metar Taf SpecKept SpecRefused SpecRefusedTaf SpecGiven
  ProofRefused ProofGiven PropsFailures.
Import ListNotations.
Local Open Scope string_scope.
Local Open Scope nat_scope.
Local Open Scope list_scope.

(** The words of a METAR are offered to the patterns in their order; the words a
    pattern takes are the codes of its field, and the others are left. *)
Theorem C85_metar : forall e code y mo tr x, metar_parse e code y mo tr = Ok x -> metar_given code x.
Proof. exact metar_words_given. Qed.
Print Assumptions C85_metar.

(** The same for a TAF. *)
Theorem C85_taf : forall e code y mo tr x, taf_parse e code y mo tr = Ok x -> taf_given code x.
Proof. exact taf_words_given. Qed.
Print Assumptions C85_taf.

(** There is only one way of offering the words. *)
Theorem C85_one : forall ps gs t u t' u', takes ps 0 gs t u -> takes ps 0 gs t' u' -> t' = t /\ u' = u.
Proof. intros ps gs t u t' u' H. exact (takes_one ps 0 gs t u H t' u'). Qed.
Print Assumptions C85_one.

Ltac by_pattern k := apply (taken _ _ k); [vm_compute; reflexivity|].

(** Of two pressures the second is kept; a wind behind the clouds is left; a
    trend has a period. *)
Example C85_case_metar :
  takes metar_order 0 (words_of_body (py "METAR SEQM 162000Z 9999 FEW010 09005KT Q1018 A3006 TEMPO FM2030 4000"))
    [(0, py "METAR"); (1, py "SEQM"); (2, py "162000Z"); (6, py "9999"); (14, py "FEW010"); (19, py "Q1018"); (20, py "A3006")] [py "09005KT"]
  /\ trends_of (py "METAR SEQM 162000Z 9999 FEW010 09005KT Q1018 A3006 TEMPO FM2030 4000") = [py "TEMPO FM2030 4000"]
  /\ takes trend_order 0 (words_of_trend (py "TEMPO FM2030 4000")) [(0, py "TEMPO"); (1, py "FM2030"); (4, py "4000")] []
  /\ exists x, read_in 2026 1 "METAR SEQM 162000Z 9999 FEW010 09005KT Q1018 A3006 TEMPO FM2030 4000" = Ok x
     /\ code_of_field (pr_code (me_press x)) = [py "A3006"] /\ me_unparsed x = [py "09005KT"]
     /\ map (fun p => ti_code (cp_ind p)) (gl_list (me_trends x)) = [Some (py "TEMPO FM2030")].
Proof.
  split.
  { replace (words_of_body _) with [py "METAR"; py "SEQM"; py "162000Z"; py "9999"; py "FEW010"; py "09005KT"; py "Q1018"; py "A3006"] by (vm_compute; reflexivity).
    by_pattern 0. by_pattern 1. by_pattern 2. by_pattern 6. by_pattern 14. apply not_taken; [vm_compute; reflexivity|]. by_pattern 19. by_pattern 20. apply takes_end. }
  split; [vm_compute; reflexivity|]. split.
  { replace (words_of_trend _) with [py "TEMPO"; py "FM2030"; py "4000"] by (vm_compute; reflexivity).
    by_pattern 0. by_pattern 1. by_pattern 4. apply takes_end. }
  eexists. split; [vm_compute; reflexivity|]. split; [vm_compute; reflexivity|]. split; vm_compute; reflexivity.
Qed.

(** What is known of a result that need not be written out. *)
Definition holds_of {A} (r : result A) (f : A -> bool) : bool := match r with Ok x => f x | Raise _ => false end.
Lemma holds_it : forall A (r : result A) f, holds_of r f = true -> exists x, r = Ok x /\ f x = true.
Proof. intros A [x|ex] f H; [exists x; split; [reflexivity|exact H]|discriminate H]. Qed.
Fixpoint same_codes (l l' : list str) : bool :=
  match l, l' with
  | [], [] => true
  | a :: l, b :: l' => str_eqb a b && same_codes l l'
  | _, _ => false
  end.

(** TX is a maximum and TN a minimum in any order; FM keeps its own code only. *)
Example C85_case_taf :
  takes taf_order 0 (words_of_taf (py "TAF SEQM 161700Z 1618/1718 TN08/1711Z TX20/1618Z FM170600 1706/1712 CAVOK"))
    [(0, py "TAF"); (2, py "SEQM"); (3, py "161700Z"); (5, py "1618/1718"); (16, py "TN08/1711Z"); (17, py "TX20/1618Z")] []
  /\ changes_of (py "TAF SEQM 161700Z 1618/1718 TN08/1711Z TX20/1618Z FM170600 1706/1712 CAVOK") = [py "FM170600 1706/1712 CAVOK"]
  /\ takes change_order 0 (words_of_change (py "FM170600 1706/1712 CAVOK")) [(0, py "FM170600"); (1, py "1706/1712"); (3, py "CAVOK")] []
  /\ exists x, taf_parse some_env (py "TAF SEQM 161700Z 1618/1718 TN08/1711Z TX20/1618Z FM170600 1706/1712 CAVOK") (Some 2026%Z) (Some 1%Z) true = Ok x
     /\ (same_codes (code_of_list tt_code (ta_max x)) [py "TX20/1618Z"] && same_codes (code_of_list tt_code (ta_min x)) [py "TN08/1711Z"]
         && same_codes (flat_map (fun p => code_of_field (tc_code (cf_ind p))) (gl_list (ta_changes x))) [py "FM170600"]) = true.
Proof.
  split.
  { replace (words_of_taf _) with [py "TAF"; py "SEQM"; py "161700Z"; py "1618/1718"; py "TN08/1711Z"; py "TX20/1618Z"] by (vm_compute; reflexivity).
    by_pattern 0. by_pattern 2. by_pattern 3. by_pattern 5. by_pattern 16. by_pattern 17. apply takes_end. }
  split; [vm_compute; reflexivity|]. split.
  { replace (words_of_change _) with [py "FM170600"; py "1706/1712"; py "CAVOK"] by (vm_compute; reflexivity).
    by_pattern 0. by_pattern 1. by_pattern 3. apply takes_end. }
  apply holds_it. vm_compute. reflexivity.
Qed.

(** A word is offered once only. *)
Example C85_case_one : takes [r_TYPE; r_STATION] 0 [py "METAR"; py "METAR"; py "SEQM"] [(0, py "METAR"); (1, py "SEQM")] [py "METAR"].
Proof. by_pattern 0. apply not_taken; [vm_compute; reflexivity|]. by_pattern 1. apply takes_end. Qed.
