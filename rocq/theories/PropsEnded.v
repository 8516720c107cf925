(** * Property C61, the lines of the changes: statements only *)
From Coq Require Import String Ascii.
From Coq Require Import List NArith ZArith Bool Lia.
From Verif Require Import PyBase PyTime Base MetarGroups Trend Metar Taf SpecTime SpecKept SpecStr SpecClocked SpecEnded ProofEnded
  PropsFailures PropsAbsent.
From Verif Require SpecTaf.
Import ListNotations.
Local Open Scope string_scope.
Local Open Scope nat_scope.
Local Open Scope list_scope.

(** The line of a FM change ends with the forecast, or with the validity group
    behind FM, whatever comes later; the other changes have their own text. *)
Theorem C61_ended : forall e code y mo tr x, taf_parse e code y mo tr = Ok x -> taf_says e x.
Proof. exact taf_says_ok. Qed.
Print Assumptions C61_ended.

(** The first change ends at 05:00 and is shown until 00:00, the end of the
    forecast; the second is not FM. *)
Example C61_ended_case : exists x,
  read_taf 2024 2 "TAF SEQM 142300Z 1500/1524 9999 FM150300 12010KT BECMG 1506/1508 36050KT" = Ok x
  /\ map (fun p => t_dt (va_until (tc_valid (cf_ind p)))) (gl_list (ta_changes x)) = [mk_dt 2024 2 15 5 0; mk_dt 2024 2 15 8 0]
  /\ t_dt (va_until (ta_valid x)) = mk_dt 2024 2 16 0 0
  /\ skipn 5 (split_on 10 (taf_str x))
     = [py "from 2024-02-15 03:00:00 until 2024-02-16 00:00:00"; []; py "becoming from 2024-02-15 06:00:00 until 2024-02-15 08:00:00"].
Proof.
  eexists. split; [vm_compute; reflexivity|]. split; [vm_compute; reflexivity|]. split; vm_compute; reflexivity.
Qed.
