(** * Property C61: statements only *)
From Coq Require Import String Ascii.
From Coq Require Import List NArith ZArith Bool Lia.
From Verif Require Import PyBase PyTime Base MetarGroups Trend Metar Taf SpecKept SpecStr ProofValues ProofStr ProofStrTaf
  PropsFailures PropsAbsent.
Import ListNotations.
Local Open Scope string_scope.
Local Open Scope nat_scope.
Local Open Scope list_scope.

(** The text of a METAR is the texts of its groups, but an AT time of a trend
    whose indicator is not translated is there twice.  What the line of a
    replaced pressure says is in [C61_replaced]. *)
Theorem C61_metar_partial : forall e code y mo tr x, metar_parse e code y mo tr = Ok x -> metar_text e x.
Proof. exact metar_text_ok. Qed.
Print Assumptions C61_metar_partial.

(** The text of a TAF is the texts of the groups of its body and the
    indicators of its changes.  Missing: the other groups of the changes (see
    [C61_refuted]).  Which end an FM change has is in [C61_ended]. *)
Theorem C61_taf_partial : forall e code y mo tr x, taf_parse e code y mo tr = Ok x -> taf_text e x.
Proof. exact taf_text_ok. Qed.
Print Assumptions C61_taf_partial.

(** The time of an untranslated indicator is written twice, once in front of
    the next line; the wind of a change is not in the text of its forecast;
    an FM change that a later one ends is shown with its first end. *)
Theorem C61_refuted :
  (exists x p, read_in 2024 2 "METAR SEQM 162000Z TEMPOX AT2030 3000" = Ok x /\ gl_list (me_trends x) = [p]
     /\ trend_ind_str (cp_ind p) = py " at 2024-02-16 20:30:00"
     /\ split_on 10 (change_period_str p) = [py "at 2024-02-16 20:30:00"; py " at 2024-02-16 20:30:003.0 km"])
  /\ (exists x x', read_taf 2024 2 "TAF SEQM 142300Z 1500/1524 05005KT 9999 FM150600 12010KT" = Ok x
     /\ read_taf 2024 2 "TAF SEQM 142300Z 1500/1524 05005KT 9999 FM150600 36050KT" = Ok x'
     /\ map (fun p => w_code (c_wind (cf_common p))) (gl_list (ta_changes x)) = [Some (py "12010KT")]
     /\ map (fun p => w_code (c_wind (cf_common p))) (gl_list (ta_changes x')) = [Some (py "36050KT")]
     /\ taf_str x = taf_str x')
  /\ (exists x, read_taf 2024 2 "TAF SEQM 142300Z 1500/1524 9999 FM150300 12010KT FM150600 36050KT" = Ok x
     /\ map change_fc_str (gl_list (ta_changes x))
        = [py "from 2024-02-15 03:00:00 until 2024-02-15 05:00:00" ++ [10%N]; py "from 2024-02-15 06:00:00 until 2024-02-16 00:00:00" ++ [10%N]]
     /\ skipn 5 (split_on 10 (taf_str x))
        = [py "from 2024-02-15 03:00:00 until 2024-02-16 00:00:00"; []; py "from 2024-02-15 06:00:00 until 2024-02-16 00:00:00"]).
Proof.
  split; [|split].
  - eexists. eexists. split; [vm_compute; reflexivity|]. vm_compute. conjs; reflexivity.
  - eexists. eexists. split; [vm_compute; reflexivity|]. split; [vm_compute; reflexivity|]. vm_compute. conjs; reflexivity.
  - eexists. split; [vm_compute; reflexivity|]. vm_compute. conjs; reflexivity.
Qed.
Print Assumptions C61_refuted.

(** A report with two pressures and a trend, line by line. *)
Example C61_metar_case : exists x,
  read_in 2024 2 "METAR SEQM 162000Z 9999 -RA BKN023 Q1021 A3015 TEMPO FM2030 3000 RA" = Ok x
  /\ split_on 10 (metar_str x)
     = [py "Meteorological Aerodrome Report (METAR)"; py "Name: None | Coordinates: None None | Elevation: None m MSL | Country: None";
        py "2024-02-16 20:00:00"; py "10.0 km"; py "light rain"; py "broken at 2300.0 feet"; py "1021.0 hPa"; py "1021.0 hPa";
        py "temporary from 2024-02-16 20:30:00 until 2024-02-16 22:00:00"; py "3.0 km"; py "rain"].
Proof. eexists. split; [vm_compute; reflexivity|]. vm_compute. reflexivity. Qed.

(** A forecast with a change, line by line. *)
Example C61_taf_case : exists x,
  read_taf 2024 2 "TAF AMD SEQM 142300Z 1500/1524 9999 BKN030 TEMPO 1507/1508 RA" = Ok x
  /\ split_on 10 (taf_str x)
     = [py "Terminal Aerodrome Forecast (TAF)"; py "amendment"; py "Name: None | Coordinates: None None | Elevation: None m MSL | Country: None";
        py "2024-02-14 23:00:00"; py "from 2024-02-15 00:00:00 until 2024-02-16 00:00:00"; py "10.0 km"; py "broken at 3000.0 feet";
        py "temporary from 2024-02-15 07:00:00 until 2024-02-15 08:00:00"].
Proof. eexists. split; [vm_compute; reflexivity|]. vm_compute. reflexivity. Qed.
