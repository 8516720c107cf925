(** * C78: what the groups of an accepted report say *)
From Coq Require Import String Ascii.
From Coq Require Import List NArith ZArith Bool Lia.
From Verif Require Import PyBase PyTime Base MetarGroups Trend Metar Taf SpecNum SpecByCode SpecGroups SpecGrammar SpecStated ProofValues ProofStated PropsFailures.
Import ListNotations.
Local Open Scope string_scope.
Local Open Scope nat_scope.
Local Open Scope list_scope.

(** C78 (all METARs): every group that has a code (of ASCII characters) is a
    group of the documented form and has the values this form stands for, or
    it is one of the few groups listed in [SpecStated]. *)
Theorem C78_metar : forall e code y mo tr x, metar_parse e code y mo tr = Ok x ->
  parts_say wind_says vis_says (metar_parts x)
  /\ explained wv_code (stated wvar_wf wvar_code wvar_is) [me_wvar x]
  /\ explained v_code (stated min_wf vis_code vis_is) [me_minvis x]
  /\ explained rr_code (stated rvr_wf rvr_code rvr_is) (gl_list (me_rvr x))
  /\ explained te_code temps_says [me_temps x]
  /\ explained pr_code (stated press_wf press_code (fun g p => hectopascals g (pr_value p))) [me_press x]
  /\ explained rw_code (stated recent_wf recent_code recent_is) [me_recent x]
  /\ explained MetarGroups.ws_code shear_says (gl_list (me_ws x))
  /\ explained se_code (stated sea_wf sea_code sea_is) [me_sea x]
  /\ explained rs_code (stated rs_wf rs_code_of rwy_is) [me_rwy x].
Proof. exact metar_says. Qed.
Print Assumptions C78_metar.

(** C78 (all METARs): the groups of the header; the year and the month are
    those given, or those of the clock. *)
Theorem C78_metar_head : forall e code y mo tr x, metar_parse e code y mo tr = Ok x ->
  explained st_code (station_says (stations e)) [me_station x] /\ explained mo_code (modifier_says modifiers) [me_modifier x]
  /\ ((1000 <= opt_default (now_year e) y <= 9999)%Z -> (1 <= opt_default (now_month e) mo <= 12)%Z ->
      explained t_code (time_says (opt_default (now_year e) y) (opt_default (now_month e) mo)) [me_time x]).
Proof. exact metar_head_says. Qed.
Print Assumptions C78_metar_head.

(** C78 (all TAFs): the same for the body and the changes; the visibility of
    the body may have something behind it. *)
Theorem C78_taf : forall e code y mo tr x, taf_parse e code y mo tr = Ok x ->
  parts_say taf_wind_says taf_vis_says [ta_common x] /\ parts_say taf_wind_says vis_says (map cf_common (gl_list (ta_changes x))).
Proof. exact taf_says. Qed.
Print Assumptions C78_taf.

Theorem C78_taf_head : forall e code y mo tr x, taf_parse e code y mo tr = Ok x ->
  explained st_code (station_says (stations e)) [ta_station x] /\ explained mo_code (modifier_says taf_modifiers) [ta_modifier x].
Proof. exact taf_head_says. Qed.
Print Assumptions C78_taf_head.

(** A METAR and a TAF with groups of many kinds. *)
Definition full := py "METAR COR MROC 071200Z AUTO 01004KT 350V050 4000 1200NE R07/1200U -RA 0VC030 BKN040CB 22/M// A2991 RERA WS ALL RWY W12/S3 TEMPO TL1330 M1/4SM".
Definition plan := py "TAF AMD MROC 071000Z 0712/0812 01004G20KT 9999X SCT030 BECMG 0716/0717 4000 -DZ".
Definition typed_code (c : option str) : bool := match c with Some c => forallb (fun a => (a <? 128)%N && negb (a =? 10)%N) c | None => false end.
Example C78_example :
  exists x z, metar_parse some_env full None None false = Ok x /\ taf_parse some_env plan None None false = Ok z
    /\ map w_code (winds (metar_parts x)) = [Some (py "01004KT"); None] /\ map v_code (sights (metar_parts x)) = [Some (py "4000"); Some (py "M1/4SM")]
    /\ map we_code (phenomena (metar_parts x)) = [Some (py "-RA")] /\ map cl_code (layers (metar_parts x)) = [Some (py "0VC030"); Some (py "BKN040CB")]
    /\ te_code (me_temps x) = Some (py "22/M//") /\ map MetarGroups.ws_code (gl_list (me_ws x)) = [Some (py "WS ALL RWY")]
    /\ forallb typed_code [wv_code (me_wvar x); v_code (me_minvis x); pr_code (me_press x); rw_code (me_recent x); se_code (me_sea x)] = true
    /\ map rr_code (gl_list (me_rvr x)) = [Some (py "R07/1200U")]
    /\ map v_code (sights (taf_parts z)) = [Some (py "9999X"); Some (py "4000")] /\ map w_code (winds (taf_parts z)) = [Some (py "01004G20KT"); None].
Proof. do 2 eexists. split; [vm_compute; reflexivity|]. split; [vm_compute; reflexivity|]. conjs; vm_compute; reflexivity. Qed.
(** Every one of the groups beyond occurs in an accepted report. *)
Example C78_beyond :
  exists x, metar_parse some_env (py "METAR MROC 071200Z 240P//KT 2M 0VC030 -XX/M// WS_RWY TEMPO 5U") None None false = Ok x
    /\ w_code (c_wind (me_common x)) = Some (py "240P//KT") /\ map v_code (sights (metar_parts x)) = [Some (py "2M"); Some (py "5U")]
    /\ map cl_code (layers (metar_parts x)) = [Some (py "0VC030")] /\ te_code (me_temps x) = Some (py "-XX/M//")
    /\ map MetarGroups.ws_code (gl_list (me_ws x)) = [Some (py "WS RWY")].
Proof. eexists. split; [vm_compute; reflexivity|]. conjs; vm_compute; reflexivity. Qed.
