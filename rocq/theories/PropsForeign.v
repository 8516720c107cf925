(** * A word that is no group changes nothing (C70): statements only *)
From Coq Require Import String Ascii.
From Coq Require Import List NArith ZArith Bool Lia.
From Verif Require Import PyBase PyRegex AeroRegex PyTime Base MetarGroups Trend Metar Taf SpecNum SpecGroups SpecText SpecWords SpecApart SpecJoined
  ProofText ProofMerge ProofWords PropsFailures PropsAbsent PropsApart SpecForeign ProofForeign ProofValues.
Import ListNotations.
Local Open Scope string_scope.
Local Open Scope nat_scope.
Local Open Scope list_scope.

(** A word that no pattern accepts, put anywhere between the groups of the body
    of a METAR: the report is refused or read as without it, and the word
    stands in its place among the unparsed groups.  With truncation the report
    is never accepted. *)
Theorem C70_metar : forall e w l1 q l2 ts t1 t2 y mo, kept_apart w (l1 ++ l2) -> kept_apart w (l1 ++ MWord q :: l2) ->
  foreign metar_patterns q -> appendix ts ->
  written (body_words w (l1 ++ l2) ++ ts) t1 -> written (body_words w (l1 ++ MWord q :: l2) ++ ts) t2 ->
  same_but q (metar_parse e t1 y mo false) (metar_parse e t2 y mo false)
  /\ forall x, metar_parse e t2 y mo true <> Ok x.
Proof. exact metar_foreign. Qed.
Print Assumptions C70_metar.

(** The same in the body of a TAF. *)
Theorem C70_taf : forall e w ws1 q ws2 ms t1 t2 y mo, forecast_apart w (ws1 ++ ws2) ms -> forecast_apart w (ws1 ++ q :: ws2) ms ->
  off_miles (w :: ws1) q ws2 -> foreign taf_patterns q ->
  written (forecast_words w (ws1 ++ ws2) ms) t1 -> written (forecast_words w (ws1 ++ q :: ws2) ms) t2 ->
  same_forecast_but q (taf_parse e t1 y mo false) (taf_parse e t2 y mo false)
  /\ forall x, taf_parse e t2 y mo true <> Ok x.
Proof. exact taf_foreign. Qed.
Print Assumptions C70_taf.

(** In every section, trends and changes among them, whatever groups its
    handlers read and wherever the word stands. *)
Theorem C70_section : forall S (hs : list (handler S)) q, (forall h, In h hs -> re_match (h_regexp h) q = None) ->
  forall A B i u st, related q (parse_groups hs (A ++ B) i u st) (parse_groups hs (A ++ q :: B) i u st).
Proof. exact foreign_groups. Qed.
Print Assumptions C70_section.

(** Such words are all those that begin with a small letter or one of the signs
    $ # * % & ! ? . , : ; @ ~ and brackets. *)
Theorem C70_odd : forall c s, In c odd_characters -> foreign metar_patterns (c :: s) /\ foreign taf_patterns (c :: s).
Proof. intros c s I. exact (conj (odd_foreign c s I) (odd_foreign_taf c s I)). Qed.
Print Assumptions C70_odd.

(** Without the conditions on numbers of miles it is false: put after such a
    number at the end of the body, a word takes away a weather (C41). *)
Theorem C70_at_end_refuted : foreign metar_patterns (py "$")
  /\ gives (metar_parse some_env (py "METAR KJFK 2 1/2SM") (Some 2024%Z) (Some 2%Z) false)
       (fun x => Nat.eqb (length (gl_list (c_weathers (me_common x)))) 1) = true
  /\ gives (metar_parse some_env (py "METAR KJFK 2 1/2SM $") (Some 2024%Z) (Some 2%Z) false)
       (fun x => Nat.eqb (length (gl_list (c_weathers (me_common x)))) 0) = true.
Proof. split; [apply odd_foreign; vm_compute; tauto|]. conjs; vm_compute; reflexivity. Qed.
Print Assumptions C70_at_end_refuted.

Definition before_it : list mtok := [MWord (py "KJWS"); MWord (py "071200Z"); MMixed false 2 1 2].
Definition after_it : list mtok := [MWord (py "RA"); MWord (py "10/08"); MWs true (WsRunway (mk_runway 24 None))].
Ltac apart_by := split; [repeat (constructor; [first [apply word_b_ok; reflexivity|exact I|split; [reflexivity|exact I]]|]); constructor|];
  split; [repeat split|]; split; [repeat split|]; split; [reflexivity|]; split; [cbn; lia|]; split; [cbn; lia|];
  split; [apply plain_b_ok; vm_compute; reflexivity|repeat constructor; discriminate].
Example C70_metar_case : kept_apart (py "METAR") (before_it ++ after_it)
  /\ kept_apart (py "METAR") (before_it ++ MWord (py "$MAINT") :: after_it) /\ appendix (map py ["TEMPO"; "4000"; "RMK"; "X"])
  /\ sentence (body_words (py "METAR") (before_it ++ MWord (py "$MAINT") :: after_it))
     = py "METAR KJWS 071200Z 2 1/2SM $MAINT RA 10/08 WS RWY24"
  /\ gives (metar_parse some_env (py "METAR KJWS 071200Z 2 1/2SM $MAINT RA 10/08 WS RWY24 TEMPO 4000 XYZ RMK X") (Some 2024%Z) (Some 2%Z) false)
       (fun x => match me_unparsed x with [a; b] => str_eqb a (py "$MAINT") && str_eqb b (py "XYZ") | _ => false end) = true.
Proof.
  split; [apart_by|]. split; [apart_by|]. split; [split; [apply plain_b_ok; vm_compute; reflexivity|reflexivity]|].
  conjs; vm_compute; reflexivity.
Qed.

Definition some_changes : list ctok := [ProbTempo false; Plain (py "0712/0718"); Plain (py "RA")].
Ltac forecast_by := split; [apply stray_b_ok; vm_compute; reflexivity|]; split; [cbn; lia|];
  split; [repeat constructor; vm_compute; intuition discriminate|]; split; [repeat constructor|]; split; [reflexivity|];
  split; [intros _; split; [reflexivity|repeat constructor]|]; apply plain_b_ok; vm_compute; reflexivity.
Example C70_taf_case : forecast_apart (py "KJFK") (map py ["071130Z"; "0712/0812"] ++ map py ["24010KT"; "2"; "1/2SM"; "RA"]) some_changes
  /\ forecast_apart (py "KJFK") (map py ["071130Z"; "0712/0812"] ++ py "what" :: map py ["24010KT"; "2"; "1/2SM"; "RA"]) some_changes
  /\ off_miles (py "KJFK" :: map py ["071130Z"; "0712/0812"]) (py "what") (map py ["24010KT"; "2"; "1/2SM"; "RA"])
  /\ gives (taf_parse some_env (sentence (forecast_words (py "KJFK") (map py ["071130Z"; "0712/0812"; "what"; "24010KT"; "2"; "1/2SM"; "RA"]) some_changes))
       (Some 2024%Z) (Some 2%Z) false) (fun x => match ta_unparsed x with [a] => str_eqb a (py "what") | _ => false end) = true.
Proof.
  split; [forecast_by|]. split; [forecast_by|]. split; [repeat split|]. vm_compute. reflexivity.
Qed.

Example C70_section_case : (forall h, In h trend_handlers -> re_match (h_regexp h) (py "$") = None)
  /\ (forall h, In h change_handlers -> re_match (h_regexp h) (py "$") = None).
Proof. split; intros h I; cbn [In trend_handlers change_handlers] in I; repeat (destruct I as [<-|I]; [vm_compute; reflexivity|]); destruct I. Qed.
