(** * Reading the raw code of a report again (C73): statements only *)
From Coq Require Import String Ascii.
From Coq Require Import List NArith ZArith Bool Lia.
From Verif Require Import PyBase PyRegex AeroRegex Base MetarGroups Trend Metar Taf SpecText SpecBare ProofReparse PropsFailures ProofValues.
Import ListNotations.
Local Open Scope string_scope.
Local Open Scope nat_scope.
Local Open Scope list_scope.

(** The raw code of an accepted report, read again with the same arguments,
    gives the same report in every attribute, exactly when the text had
    something in it and no group of it consisted of [=] signs only. *)
Theorem C73_metar : forall e code y mo tr x, metar_parse e code y mo tr = Ok x ->
  (metar_parse e (me_raw x) y mo tr = Ok x <-> has_ink code /\ ~ bare code).
Proof. exact metar_again. Qed.
Print Assumptions C73_metar.

Theorem C73_taf : forall e code y mo tr x, taf_parse e code y mo tr = Ok x ->
  (taf_parse e (ta_raw x) y mo tr = Ok x <-> has_ink code /\ ~ bare code).
Proof. exact taf_again. Qed.
Print Assumptions C73_taf.

(** Otherwise more than the raw code can differ: a lone = sign leaves an empty
    group, which is read as a weather and disappears the second time. *)
Theorem C73_bare_refuted : exists x x', metar_parse some_env (py "METAR SEQM = 162000Z") (Some 2024%Z) (Some 2%Z) false = Ok x
  /\ metar_parse some_env (me_raw x) (Some 2024%Z) (Some 2%Z) false = Ok x'
  /\ length (gl_list (c_weathers (me_common x))) = 1 /\ length (gl_list (c_weathers (me_common x'))) = 0
  /\ me_unparsed x = [py "162000Z"] /\ me_unparsed x' = [].
Proof. eexists. eexists. split; [vm_compute; reflexivity|]. split; [vm_compute; reflexivity|]. conjs; vm_compute; reflexivity. Qed.
Print Assumptions C73_bare_refuted.

Example C73_case : exists x, metar_parse some_env (py " METAR  SEQM 162000Z
 9999 XX= ") (Some 2024%Z) (Some 2%Z) false = Ok x /\ me_raw x = py "METAR SEQM 162000Z 9999 XX"
  /\ metar_parse some_env (me_raw x) (Some 2024%Z) (Some 2%Z) false = Ok x.
Proof. eexists. split; [vm_compute; reflexivity|]. split; vm_compute; reflexivity. Qed.
Example C73_taf_case : exists x, taf_parse some_env (py "TAF KJFK  071130Z 0712/0812 24010KT TEMPO 0714/0716  3000=") (Some 2024%Z) (Some 2%Z) false = Ok x
  /\ ta_raw x = py "TAF KJFK 071130Z 0712/0812 24010KT TEMPO 0714/0716 3000"
  /\ taf_parse some_env (ta_raw x) (Some 2024%Z) (Some 2%Z) false = Ok x.
Proof. eexists. split; [vm_compute; reflexivity|]. split; vm_compute; reflexivity. Qed.
