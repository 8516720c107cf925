(** * C80: the texts of the remaining groups *)
From Coq Require Import String Ascii.
From Coq Require Import List NArith ZArith Bool Lia.
From Verif Require Import PyBase PyTime Base MetarGroups Trend Metar Taf ListText SpecNum SpecGroups SpecGrammar SpecStated SpecPhrase ProofValues ProofPhrase ProofPhraseTime PropsFailures.
Import ListNotations.
Local Open Scope string_scope.
Local Open Scope nat_scope.
Local Open Scope list_scope.

(** C80 (all METARs): the texts of the type, the modifier and the runway state
    are the phrases their codes stand for. *)
Theorem C80_metar : forall e code y mo tr x, metar_parse e code y mo tr = Ok x ->
  explained ty_code (fun c t => type_phrase c (type_str t)) [me_type x]
  /\ explained mo_code (fun c a => modifier_phrase c (modifier_str a)) [me_modifier x]
  /\ explained rs_code (fun c a => runway_phrase c (runway_state_str a)) [me_rwy x].
Proof. exact metar_told. Qed.
Print Assumptions C80_metar.

(** C80 (all METARs): the texts of the windshear groups and of their list. *)
Theorem C80_windshear : forall e code y mo tr x cs, metar_parse e code y mo tr = Ok x ->
  map MetarGroups.ws_code (gl_list (me_ws x)) = map Some cs -> Forall typed cs ->
  Forall2 shear_phrase cs (map windshear_str (gl_list (me_ws x))) /\ shears_phrase cs (windshear_list_str (me_ws x)).
Proof. exact shears_told. Qed.
Print Assumptions C80_windshear.

(** C80 (all METARs): the text of every trend indicator: what its first word
    means, and the moment or the period, written in full. *)
Theorem C80_trend : forall e code y mo tr x, metar_parse e code y mo tr = Ok x ->
  explained ti_code (fun c i => trend_phrase i c (trend_ind_str i)) (map cp_ind (gl_list (me_trends x))).
Proof. exact trends_told. Qed.
Print Assumptions C80_trend.

(** C80 (all TAFs): the texts of the header and of the validity. *)
Theorem C80_taf : forall e code y mo tr x, taf_parse e code y mo tr = Ok x ->
  explained ty_code (fun c t => type_phrase c (type_str t)) [ta_type x]
  /\ explained mo_code (fun c a => modifier_phrase c (modifier_str a)) [ta_modifier x]
  /\ explained (fun a => mo_code (mi_mod a)) (fun c a => c = py "NIL" /\ modifier_str (mi_mod a) = py "missing report") [ta_missing x]
  /\ explained ca_code (fun c a => c = py "CNL" /\ cancelled_str a = py "cancelled") [ta_cancelled x]
  /\ (ca_code (ta_cancelled x) = None -> cancelled_str (ta_cancelled x) = [])
  /\ valid_phrase (ta_valid x) (valid_str (ta_valid x)).
Proof. exact taf_told. Qed.
Print Assumptions C80_taf.

(** C80 (all TAFs): the text of every change indicator, after later changes
    have cut the FM periods short. *)
Theorem C80_change : forall e code y mo tr x, taf_parse e code y mo tr = Ok x ->
  explained tc_code (fun c i => change_phrase i c (translation_str (tc_trans i))) (map cf_ind (gl_list (ta_changes x))).
Proof. exact changes_told. Qed.
Print Assumptions C80_change.

(** Reports with all these groups, and their texts. *)
Definition spoken := py "SPECI SEQM 162030Z COR 24008KT 9999 SCT030 22/17 Q1014 WS R24 WS R06L R24L/451293 TEMPO AT2110 3000 BECMG FM2130 TL2200 4000".
Example C80_example :
  exists x, metar_parse some_env spoken (Some 2026%Z) (Some 11%Z) true = Ok x
    /\ type_str (me_type x) = py "Special Aerodrome Report (SPECI)" /\ modifier_str (me_modifier x) = py "correction"
    /\ map MetarGroups.ws_code (gl_list (me_ws x)) = [Some (py "WS R24"); Some (py "WS R06L")] /\ windshear_list_str (me_ws x) = py "24 | 06 left"
    /\ rs_code (me_rwy x) = Some (py "R24L/451293")
    /\ runway_state_str (me_rwy x) = py "24 left, deposits of 12 mm of dry snow, contamination 26%-50% of runway, breaking action medium"
    /\ map (fun p => ti_code (cp_ind p)) (gl_list (me_trends x)) = [Some (py "TEMPO AT2110"); Some (py "BECMG FM2130 TL2200")]
    /\ map (fun p => trend_ind_str (cp_ind p)) (gl_list (me_trends x))
       = [py "temporary at 2026-11-16 21:10:00"; py "becoming from 2026-11-16 21:30:00 until 2026-11-16 22:00:00"].
Proof. eexists. split; [vm_compute; reflexivity|]. conjs; vm_compute; reflexivity. Qed.
(** The text of a group without the name of a runway is empty (the words must
    then be joined by the writer, the sanitizer does not do it); one single
    group with ALL stands for all runways even when it names one. *)
Definition shear_of (s : string) : result (list str * str) :=
  x <- metar_parse some_env (py s) (Some 2026%Z) (Some 11%Z) false ;; Ok (map windshear_str (gl_list (me_ws x)), windshear_list_str (me_ws x)).
Example C80_shears :
  shear_of "METAR SEQM 162000Z WS ALL RWY" = Ok ([py "all"], py "all runways")
  /\ shear_of "METAR SEQM 162000Z WS_RWY" = Ok ([[]], [])
  /\ shear_of "METAR SEQM 162000Z WS_ALL_R24" = Ok ([py "24"], py "all runways")
  /\ shear_of "METAR SEQM 162000Z WS R24C WS ALL RWY" = Ok ([py "24 center"; py "all"], py "24 center | all").
Proof. conjs; vm_compute; reflexivity. Qed.
Definition runway_of (s : string) : result str :=
  x <- metar_parse some_env (py "METAR SEQM 162000Z " ++ py s) (Some 2026%Z) (Some 11%Z) false ;; Ok (runway_state_str (me_rwy x)).
Example C80_runways :
  runway_of "R/SNOCLO" = Ok (py "aerodrome is closed due to extreme deposit of snow")
  /\ runway_of "R88/CLRD//" = Ok (py "contaminations have ceased to exists on all runways")
  /\ runway_of "R99/CLRD//" = Ok (py "contaminations have ceased to exists on previous runway")
  /\ runway_of "R10R/CLRD//" = Ok (py "contaminations have ceased to exists on runway 10 right")
  /\ runway_of "R/CLRD//" = Ok (py "contaminations have ceased to exists on runway None")
  /\ runway_of "R10//09935" = Ok (py "10, runway(s) non-operational due to snow, slush, ice, large drifts or runway clearance, but depth not reported and type of deposit not reported (e.g. due to runway clearance in progress), contamination None, estimated surface friction 0.35")
  /\ runway_of "R10//100//" = Ok (py "10, depth of less than 1 mm but type of deposit not reported (e.g. due to runway clearance in progress), contamination less than 10% of runway, breaking conditions not reported and/or runway not operational")
  /\ runway_of "R10/01//35" = Ok (py "10, depth of deposit operationally not significant or not measurable of clear and dry, contamination less than 10% of runway, estimated surface friction 0.35").
Proof. conjs; vm_compute; reflexivity. Qed.
Definition planned := py "TAF AMD SEQM 161700Z 1618/1718 24008KT 9999 SCT030 FM162100 24010KT PROB30 TEMPO 1622/1702 3000 FM170300 20005KT BECMG 1706/1708 4000".
Example C80_taf_example :
  exists x, taf_parse some_env planned (Some 2026%Z) (Some 11%Z) true = Ok x
    /\ type_str (ta_type x) = py "Terminal Aerodrome Forecast (TAF)" /\ modifier_str (ta_modifier x) = py "amendment"
    /\ valid_str (ta_valid x) = py "from 2026-11-16 18:00:00 until 2026-11-17 18:00:00"
    /\ map (fun p => tc_code (cf_ind p)) (gl_list (ta_changes x)) = [Some (py "FM162100"); Some (py "PROB30 TEMPO 1622/1702"); Some (py "FM170300"); Some (py "BECMG 1706/1708")]
    /\ map (fun p => translation_str (tc_trans (cf_ind p))) (gl_list (ta_changes x))
       = [py "from 2026-11-16 21:00:00 until 2026-11-17 02:00:00"; py "probability 30% temporary from 2026-11-16 22:00:00 until 2026-11-17 02:00:00";
          py "from 2026-11-17 03:00:00 until 2026-11-17 05:00:00"; py "becoming from 2026-11-17 06:00:00 until 2026-11-17 08:00:00"].
Proof. eexists. split; [vm_compute; reflexivity|]. conjs; vm_compute; reflexivity. Qed.
Example C80_taf_words :
  exists x z, taf_parse some_env (py "TAF SEQM 161700Z 1618/1718 CNL") (Some 2026%Z) (Some 11%Z) true = Ok x
    /\ taf_parse some_env (py "TAF SEQM 161700Z NIL") (Some 2026%Z) (Some 11%Z) true = Ok z
    /\ ca_code (ta_cancelled x) = Some (py "CNL") /\ ca_code (ta_cancelled z) = None /\ mo_code (mi_mod (ta_missing z)) = Some (py "NIL").
Proof. do 2 eexists. split; [vm_compute; reflexivity|]. split; [vm_compute; reflexivity|]. conjs; vm_compute; reflexivity. Qed.
