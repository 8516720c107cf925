(** * Property C75: statements only *)
From Coq Require Import String Ascii.
From Coq Require Import List NArith ZArith Bool Lia.
From Verif Require Import PyBase PyRegex AeroRegex Utils Base MetarGroups Trend Metar Taf SpecWork ProofValues OutWork PropsFailures.
Import ListNotations.
Local Open Scope string_scope.
Local Open Scope nat_scope.
Local Open Scope list_scope.

(** The engine whose steps are counted finds what [re.match] of the model
    finds. *)
Theorem C75_engine : forall r s, re_match r s = option_map (fun p => mk_match s 0 (fst p) (snd p)) (found r 0 s).
Proof. exact found_match. Qed.
Print Assumptions C75_engine.

(** The loop whose steps are counted uses up the patterns the way
    [parse_section] does. *)
Theorem C75_cursor : forall S (hs : list (handler S)) g,
  snd (group_work (map (@h_regexp S) hs) g) = match first_match hs 0 g with Some (c, _, _) => c | None => 0 end.
Proof. exact group_cursor. Qed.
Print Assumptions C75_cursor.

(** Matching one pattern against one group takes no more than a fixed number
    of steps, however long the group is. *)
Theorem C75_match_metar : forall e year month h pos s, In h (metar_handlers e year month) -> steps (h_regexp h) pos s <= 2251.
Proof. exact metar_match_bound. Qed.
Print Assumptions C75_match_metar.
Theorem C75_match_trend : forall h pos s, In h trend_handlers -> steps (h_regexp h) pos s <= 789.
Proof. exact trend_match_bound. Qed.
Print Assumptions C75_match_trend.
Theorem C75_match_taf : forall e year month h pos s, In h (taf_handlers e year month) -> steps (h_regexp h) pos s <= 744.
Proof. exact taf_match_bound. Qed.
Print Assumptions C75_match_taf.
Theorem C75_match_change : forall h pos s, In h change_handlers -> steps (h_regexp h) pos s <= 744.
Proof. exact change_match_bound. Qed.
Print Assumptions C75_match_change.

(** Reading a report takes a number of steps that grows with its length and
    no faster. *)
Theorem C75_metar : forall e code year month,
  (N.of_nat (metar_work e code year month) <= 30000 * (N.of_nat (length code) + 4))%N.
Proof. exact metar_work_bound. Qed.
Print Assumptions C75_metar.

Theorem C75_taf : forall e code year month,
  (N.of_nat (taf_work e code year month) <= 23000 * (N.of_nat (length code) + 4))%N.
Proof. exact taf_work_bound. Qed.
Print Assumptions C75_taf.

(** What the counter says of two reports, and of a pattern that does go wrong:
    a text of n blanks makes a search for one blank after another, ended by a
    mark that is not there, take steps in the square of n. *)
Example C75_counts :
  metar_work some_env (py "METAR UUWW 121200Z 24005MPS 9999 FEW020 12/08 Q1015 NOSIG") (Some 2024%Z) (Some 3%Z) = 2433
  /\ taf_work some_env (py "TAF UUWW 121100Z 1212/1312 24005MPS 9999 FEW020 TEMPO 1214/1218 3000 BR") (Some 2024%Z) (Some 3%Z) = 2472
  /\ search_steps (Seq (Star [CSpace]) (chr1 61%N)) 0 (repeat 32%N 10) = 143
  /\ search_steps (Seq (Star [CSpace]) (chr1 61%N)) 0 (repeat 32%N 50) = 2703
  /\ search_steps r_SAN_VIS 0 (32%N :: repeat 49%N 100) = 508.
Proof. conjs; vm_compute; reflexivity. Qed.
