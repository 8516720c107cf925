(** * What a METAR prints (C53): statements only *)
From Coq Require Import String Ascii.
From Coq Require Import List NArith ZArith Bool Lia.
From Verif Require Import PyBase PyRegex AeroRegex PyFloat PyTime Utils Base MetarGroups Trend Metar Taf SpecText SpecFailures SpecPrint
  ProofValues ProofPrint PropsFailures PropsAbsent.
Import ListNotations.
Local Open Scope string_scope.
Local Open Scope nat_scope.
Local Open Scope list_scope.

(** An accepted METAR prints what its trends print, in order; a trend prints
    one line for each of its time groups; nothing is printed exactly when no
    trend has a time group. *)
Theorem C53_exact : forall e code y mo tr x, metar_parse e code y mo tr = Ok x ->
  me_out x = flat_map cp_out (gl_list (me_trends x)) /\ Forall printed_as (gl_list (me_trends x))
  /\ (me_out x = [] <-> Forall untimed (gl_list (me_trends x))).
Proof. exact metar_printed. Qed.
Print Assumptions C53_exact.

Example C53_exact_case :
  gives (read_in 2024 2 "METAR SEQM 071200Z 01018KT TEMPO FM1230 TL1330 4000 BECMG AT1300 CAVOK")
    (fun x => match gl_list (me_trends x) with
              | [p; q] => opt_str_eqb (ti_code (cp_ind p)) (py "TEMPO FM1230 TL1330") && Nat.eqb (length (cp_out p)) 2
                  && opt_str_eqb (ti_code (cp_ind q)) (py "BECMG AT1300") && Nat.eqb (length (cp_out q)) 1 && Nat.eqb (length (me_out x)) 3
              | _ => false end) = true
  /\ gives (read_in 2024 2 "METAR SEQM 071200Z 01018KT TEMPO 4000 BECMG CAVOK")
       (fun x => Nat.eqb (length (gl_list (me_trends x))) 2 && Nat.eqb (length (me_out x)) 0) = true.
Proof. conjs; vm_compute; reflexivity. Qed.
