(** * Property C58: statements only *)
From Coq Require Import String Ascii.
From Coq Require Import List NArith ZArith QArith Bool Lia.
From Verif Require Import PyBase PyRegex AeroRegex PyFloat PyTime Utils Base MetarGroups Trend Metar Taf SpecNum SpecRange
  ProofRange ProofRangeReport PropsFailures PropsAbsent.
Import ListNotations.
Local Open Scope string_scope.
Local Open Scope nat_scope.
Local Open Scope list_scope.

(** ** C58: the numbers of a report are finite and within bounds *)

Theorem C58_metar : forall e code y mo tr x, metar_parse e code y mo tr = Ok x -> metar_lies x.
Proof. exact metar_numbers. Qed.
Print Assumptions C58_metar.

Theorem C58_taf : forall e code y mo tr x, taf_parse e code y mo tr = Ok x -> taf_lies x.
Proof. exact taf_numbers. Qed.
Print Assumptions C58_taf.

(** The bounds are nearly reached: a number above [b], for [b] one less than
    the upper bound or one more than the lower one. *)
Definition above (b : Z) (v : option float) : bool :=
  match v with Some f => match fvalue f with Some q => negb (Qle_bool q (inject_Z b)) | None => false end | None => false end.
Definition below (b : Z) (v : option float) : bool :=
  match v with Some f => match fvalue f with Some q => negb (Qle_bool (inject_Z b) q) | None => false end | None => false end.

Example C58_case :
  gives (metar_parse some_env (py "METAR SEQM 162000Z 360P999G999MPS 99 9/1SM R12/9999VP9999 BKN999 M99/99 Q9999 W99/H999") (Some 2024%Z) (Some 2%Z) false)
    (fun x => above 1941 (w_speed (c_wind (me_common x))) && above 1941 (w_gust (c_wind (me_common x)))
      && above 359 (dir_value (w_dir (c_wind (me_common x)))) && above 200015 (v_vis (c_vis (me_common x)))
      && existsb (fun c => above 30449 (cl_height c)) (gl_list (c_clouds (me_common x)))
      && existsb (fun r => above 9998 (rr_low r) && above 9998 (rr_high r)) (gl_list (me_rvr x))
      && below (-98) (te_temp (me_temps x)) && above 98 (te_dewpt (me_temps x))
      && above 98 (se_temp (me_sea x)) && above 99 (se_height (me_sea x))) = true
  /\ gives (metar_parse some_env (py "METAR SEQM 162000Z 9999 02/01 9999") (Some 2024%Z) (Some 2%Z) false)
       (fun x => above 338604 (pr_value (me_press x))) = true
  /\ gives (taf_parse some_env (py "TAF SEQM 142300Z 1500/1524 05005KT 9999 BKN030 TX99/1518Z TNM99/1512Z") (Some 2024%Z) (Some 2%Z) false)
       (fun x => existsb (fun t => above 98 (tt_value t)) (gl_list (ta_max x)) && existsb (fun t => below (-98) (tt_value t)) (gl_list (ta_min x))) = true.
Proof. vm_compute. repeat split. Qed.
