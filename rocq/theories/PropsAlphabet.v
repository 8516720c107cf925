(** * The characters and the length of a group (C72): statements only *)
From Coq Require Import String Ascii.
From Coq Require Import List NArith ZArith Bool Lia.
From Verif Require Import PyBase PyRegex AeroRegex Base MetarGroups Trend Metar Taf SpecText SpecKept SpecForeign SpecAlphabet ProofAlphabet
  PropsFailures PropsAbsent ProofValues.
Import ListNotations.
Local Open Scope string_scope.
Local Open Scope nat_scope.
Local Open Scope list_scope.

(** Whatever the text of a METAR, the fields of its body show only characters
    of the code and blanks, at most 19 in a field. *)
Theorem C72_metar : forall e code y mo tr x, metar_parse e code y mo tr = Ok x -> Forall showable (metar_fields x).
Proof. exact metar_shows. Qed.
Print Assumptions C72_metar.

(** A METAR accepted with truncation has no other characters in its body. *)
Theorem C72_truncated : forall e code y mo x, metar_parse e code y mo true = Ok x ->
  Forall (fun c => coded c \/ blank c) (nth 0 (me_sections x) []).
Proof. exact truncated_text. Qed.
Print Assumptions C72_truncated.

(** The same of the trends, but for the indicator with its times. *)
Theorem C72_trends : forall e code y mo tr x, metar_parse e code y mo tr = Ok x ->
  Forall (fun p => Forall showable (weather_fields (cp_common p))) (gl_list (me_trends x)).
Proof. exact metar_trends_show. Qed.
Print Assumptions C72_trends.

(** The same of a TAF but for its visibility and its temperatures. *)
Theorem C72_taf : forall e code y mo tr x, taf_parse e code y mo tr = Ok x -> Forall showable (taf_fields x).
Proof. exact taf_shows. Qed.
Print Assumptions C72_taf.

(** And of its changes, where the visibility has an end mark. *)
Theorem C72_changes : forall e code y mo tr x, taf_parse e code y mo tr = Ok x ->
  Forall (fun p => Forall showable (weather_fields (cf_common p))) (gl_list (ta_changes x)).
Proof. exact taf_changes_show. Qed.
Print Assumptions C72_changes.

(** In the body those two have no end mark in their patterns and show anything that follows. *)
Theorem C72_taf_refuted : exists x,
  taf_parse some_env (py "TAF KJFK 071130Z 0712/0812 9999what?! TX25/0718Z;;;") (Some 2024%Z) (Some 2%Z) true = Ok x
  /\ v_code (c_vis (ta_common x)) = Some (py "9999what?!")
  /\ map tt_code (gl_list (ta_max x)) = [Some (py "TX25/0718Z;;;")]
  /\ ~ coded 63%N.
Proof.
  eexists. split; [vm_compute; reflexivity|]. split; [vm_compute; reflexivity|]. split; [vm_compute; reflexivity|].
  intros [H|[H|H]]; [lia|vm_compute in H; discriminate H|vm_compute in H; intuition discriminate].
Qed.
Print Assumptions C72_taf_refuted.

(** So a misspelt wind is read as a visibility of 2401 metres, and the wind and
    the visibility after it are left over. *)
Theorem C72_misspelt_refuted : exists x,
  taf_parse some_env (py "TAF KJFK 071130Z 0712/0812 24010KT; 24012KT 9999") (Some 2024%Z) (Some 2%Z) false = Ok x
  /\ v_code (c_vis (ta_common x)) = Some (py "24010KT;") /\ w_code (c_wind (ta_common x)) = None
  /\ ta_unparsed x = map py ["24012KT"; "9999"].
Proof. eexists. split; [vm_compute; reflexivity|]. conjs; vm_compute; reflexivity. Qed.
Print Assumptions C72_misspelt_refuted.

(** No pattern of a METAR body, and no closed pattern of a trend, a TAF or a
    change, accepts a word with another character or more than 19 of them. *)
Theorem C72_words : forall q, ~ In 10%N q -> Exists (fun c => ~ coded c) q \/ 19 < length q ->
  foreign (metar_patterns ++ trend_patterns ++ closed_taf_patterns ++ closed_change_patterns) q.
Proof. exact unlike_foreign. Qed.
Print Assumptions C72_words.

(** The bound is met, and a longer word is left over. *)
Example C72_metar_case : exists x,
  metar_parse some_env (py "METAR SEQM 162000Z 9999(x) R24L/M0500VP2000FTU R24L/M0500VP2000FTUU") (Some 2024%Z) (Some 2%Z) false = Ok x
  /\ map rr_code (gl_list (me_rvr x)) = [Some (py "R24L/M0500VP2000FTU")] /\ length (py "R24L/M0500VP2000FTU") = 19
  /\ me_unparsed x = [py "9999(x)"; py "R24L/M0500VP2000FTUU"].
Proof. eexists. split; [vm_compute; reflexivity|]. conjs; vm_compute; reflexivity. Qed.
Example C72_truncated_case : exists x,
  metar_parse some_env (py "METAR SEQM 162000Z 19006KT 9999 -RA BKN023 20/M01 Q1021 WS R24") (Some 2024%Z) (Some 2%Z) true = Ok x
  /\ nth 0 (me_sections x) [] = py "METAR SEQM 162000Z 19006KT 9999 -RA BKN023 20/M01 Q1021 WS R24".
Proof. eexists. split; vm_compute; reflexivity. Qed.
Example C72_words_case : ~ In 10%N (py "9999(x)") /\ Exists (fun c => ~ coded c) (py "9999(x)").
Proof.
  split; [vm_compute; intuition discriminate|]. apply Exists_exists. exists 40%N. split; [vm_compute; tauto|].
  intros [H|[H|H]]; [lia|vm_compute in H; discriminate H|vm_compute in H; intuition discriminate].
Qed.
Example C72_trends_case : exists x,
  metar_parse some_env (py "METAR SEQM 162000Z 9999 TEMPO 4000(x) 3000 RA") (Some 2024%Z) (Some 2%Z) false = Ok x
  /\ map (fun p => weather_fields (cp_common p)) (gl_list (me_trends x)) = [map py ["3000"; "RA"]] /\ me_unparsed x = [py "4000(x)"].
Proof. eexists. split; [vm_compute; reflexivity|]. conjs; vm_compute; reflexivity. Qed.
Example C72_taf_case : exists x,
  taf_parse some_env (py "TAF KJFK 071130Z 0712/0812 VRB10KT; 24012KT 9999 TEMPO 0714/0716 4000what 3000") (Some 2024%Z) (Some 2%Z) false = Ok x
  /\ taf_fields x = map py ["TAF"; "KJFK"; "071130Z"; "0712/0812"; "24012KT"]
  /\ map (fun p => weather_fields (cf_common p)) (gl_list (ta_changes x)) = [[py "3000"]]
  /\ ta_unparsed x = map py ["VRB10KT;"; "4000what"].
Proof. eexists. split; [vm_compute; reflexivity|]. conjs; vm_compute; reflexivity. Qed.
