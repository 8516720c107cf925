(** * C76: the code of a group decides its values *)
From Coq Require Import String Ascii.
From Coq Require Import List NArith ZArith Bool.
From Verif Require Import PyBase PyTime Base MetarGroups Trend Metar Taf SpecByCode ProofValues ProofByCode PropsFailures.
Import ListNotations.
Local Open Scope string_scope.
Local Open Scope nat_scope.
Local Open Scope list_scope.

(** C76 (all METARs): two groups of the same kind with the same code have the
    same values, whatever else the two reports say, wherever in the reports
    the groups stand, and whatever clock, year and month they were read with. *)
Theorem C76_metar : forall e code y mo tr x e' code' y' mo' tr' x',
  metar_parse e code y mo tr = Ok x -> metar_parse e' code' y' mo' tr' = Ok x' ->
  alike (metar_parts x) (metar_parts x')
  /\ decided mo_code [me_modifier x] [me_modifier x'] /\ decided wv_code [me_wvar x] [me_wvar x']
  /\ decided v_code [me_minvis x] [me_minvis x'] /\ decided rr_code (gl_list (me_rvr x)) (gl_list (me_rvr x'))
  /\ decided te_code [me_temps x] [me_temps x'] /\ decided pr_code [me_press x] [me_press x']
  /\ decided rw_code [me_recent x] [me_recent x'] /\ decided ws_code (gl_list (me_ws x)) (gl_list (me_ws x'))
  /\ decided se_code [me_sea x] [me_sea x'] /\ decided rs_code [me_rwy x] [me_rwy x'].
Proof. exact metar_decided. Qed.
Print Assumptions C76_metar.

(** C76 (all METARs): the station depends on the table of stations as well, and
    the time on the clock and on the year and month given. *)
Theorem C76_head : forall e y mo code tr x code' tr' x', metar_parse e code y mo tr = Ok x -> metar_parse e code' y mo tr' = Ok x' ->
  decided st_code [me_station x] [me_station x'] /\ decided t_code [me_time x] [me_time x'].
Proof. exact metar_head_decided. Qed.
Print Assumptions C76_head.

(** C76 (all TAFs): the same for the forecasts, although the visibility of the
    body and that of the changes have two different patterns. *)
Theorem C76_taf : forall e code y mo tr x e' code' y' mo' tr' x',
  taf_parse e code y mo tr = Ok x -> taf_parse e' code' y' mo' tr' = Ok x' ->
  alike (taf_parts x) (taf_parts x') /\ decided mo_code [ta_modifier x] [ta_modifier x'] /\ (e = e' -> decided st_code [ta_station x] [ta_station x']).
Proof. exact taf_decided. Qed.
Print Assumptions C76_taf.

(** C76 (a METAR and a TAF): what both reports say in the same words they mean
    alike, although winds and visibilities have a pattern in each. *)
Theorem C76_both : forall e code y mo tr x e' code' y' mo' tr' x',
  metar_parse e code y mo tr = Ok x -> taf_parse e' code' y' mo' tr' = Ok x' ->
  alike (metar_parts x) (taf_parts x') /\ (e = e' -> decided st_code [me_station x] [ta_station x']).
Proof. exact both_decided. Qed.
Print Assumptions C76_both.

(** Two METARs and a TAF with a wind, a visibility, a phenomenon and a layer in
    common, in different places. *)
Definition one := py "METAR MROC 071200Z 01004KT 350V050 9999 RA SCT030 22/17 A2991 TEMPO TL1330 4000 -DZ".
Definition two := py "SPECI MPTO 151800Z 27015KT 4000 -DZ BR SCT030 22/17 A2991 BECMG TL1930 01004KT 9999".
Definition three := py "TAF MROC 071000Z 0712/0812 01004KT 9999 SCT030 BECMG 0716/0717 4000 -DZ".
Definition trend_of (x : metar) : option trend_ind := option_map cp_ind (hd_error (gl_list (me_trends x))).
Example C76_example :
  exists x x' z, metar_parse some_env one None None false = Ok x /\ metar_parse some_env two (Some 2022%Z) (Some 3%Z) true = Ok x'
    /\ taf_parse some_env three None None false = Ok z
    /\ map w_code (winds (metar_parts x)) = [Some (py "01004KT"); None] /\ map w_code (winds (metar_parts x')) = [Some (py "27015KT"); Some (py "01004KT")]
    /\ map v_code (sights (metar_parts x)) = [Some (py "9999"); Some (py "4000")] /\ map v_code (sights (taf_parts z)) = [Some (py "9999"); Some (py "4000")]
    /\ map we_code (phenomena (metar_parts x)) = [Some (py "RA"); Some (py "-DZ")] /\ map we_code (phenomena (taf_parts z)) = [Some (py "-DZ")]
    /\ map cl_code (layers (metar_parts x')) = [Some (py "SCT030")] /\ map cl_code (layers (taf_parts z)) = [Some (py "SCT030")]
    /\ te_code (me_temps x) = te_code (me_temps x') /\ te_code (me_temps x) = Some (py "22/17").
Proof. eexists. eexists. eexists. split; [vm_compute; reflexivity|]. split; [vm_compute; reflexivity|]. split; [vm_compute; reflexivity|]. conjs; vm_compute; reflexivity. Qed.

(** The period of a trend is not decided by its code: it also depends on the
    time of the report. *)
Definition early := py "METAR MROC 071200Z 01004KT 9999 SCT030 22/17 A2991 TEMPO TL1330 4000".
Definition late := py "METAR MROC 071230Z 01004KT 9999 SCT030 22/17 A2991 TEMPO TL1330 4000".
Example C76_period :
  exists x x' i i', metar_parse some_env early None None false = Ok x /\ metar_parse some_env late None None false = Ok x'
    /\ trend_of x = Some i /\ trend_of x' = Some i' /\ ti_code i = ti_code i' /\ i <> i'.
Proof.
  eexists. eexists. eexists. eexists. split; [vm_compute; reflexivity|]. split; [vm_compute; reflexivity|]. split; [vm_compute; reflexivity|].
  split; [vm_compute; reflexivity|]. split; [vm_compute; reflexivity|]. intro E. discriminate E.
Qed.
