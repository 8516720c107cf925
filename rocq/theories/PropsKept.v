(** * Property C60: statements only *)
From Coq Require Import String Ascii.
From Coq Require Import List NArith ZArith Bool Lia.
From Verif Require Import PyBase PyTime Base MetarGroups Trend Metar Taf SpecText SpecMetar SpecKept ProofValues ProofKeptMetar ProofKeptTaf
  PropsFailures PropsAbsent.
Import ListNotations.
Local Open Scope string_scope.
Local Open Scope nat_scope.
Local Open Scope list_scope.

Theorem C60_metar : forall e code y mo tr x, metar_parse e code y mo tr = Ok x -> metar_words_kept x.
Proof. exact metar_words. Qed.
Print Assumptions C60_metar.

Theorem C60_taf : forall e code y mo tr x, taf_parse e code y mo tr = Ok x -> taf_words_kept x.
Proof. exact taf_words. Qed.
Print Assumptions C60_taf.

(** A report with words left over in the body and in a trend, a joined
    visibility and two pressures, of which the first is replaced. *)
Example C60_metar_case : exists x,
  metar_parse some_env (py "METAR SEQM 162000Z QQQ 19006KT 2 1/2SM RA BKN023 20/10 Q1021 A3015 TEMPO FM2030 3000 ZZZ RA") (Some 2024%Z) (Some 2%Z) false = Ok x
  /\ me_unparsed x = [py "QQQ"; py "ZZZ"]
  /\ v_code (c_vis (me_common x)) = Some (py "2 1/2SM")
  /\ pr_code (me_press x) = Some (py "A3015")
  /\ map (fun p => ti_code (cp_ind p)) (gl_list (me_trends x)) = [Some (py "TEMPO FM2030")].
Proof. eexists. split; [vm_compute; reflexivity|]. vm_compute. conjs; reflexivity. Qed.

(** A forecast with a change that starts with FM and one of PROB30 TEMPO. *)
Example C60_taf_case : exists x,
  taf_parse some_env (py "TAF SEQM 142300Z 1500/1524 05005KT 9999 QQQ BKN030 TX12/1512Z TN02/1506Z PROB30 TEMPO 1501/1503 RA FM150600 00000KT ZZZ")
    (Some 2024%Z) (Some 2%Z) false = Ok x
  /\ ta_unparsed x = [py "QQQ"; py "ZZZ"]
  /\ map cf_code (gl_list (ta_changes x)) = [Some (py "PROB30 TEMPO 1501/1503 RA"); Some (py "FM150600 00000KT ZZZ")]
  /\ map (fun p => tc_code (cf_ind p)) (gl_list (ta_changes x)) = [Some (py "PROB30 TEMPO 1501/1503"); Some (py "FM150600")].
Proof. eexists. split; [vm_compute; reflexivity|]. vm_compute. conjs; reflexivity. Qed.
