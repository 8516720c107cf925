(** * Property C01 (reports): statements only *)
From Coq Require Import String Ascii.
From Coq Require Import List NArith ZArith Bool Lia.
From Verif Require Import PyBase PyRegex AeroRegex PyTime Utils Base MetarGroups Trend Metar Taf SpecText ProofText ProofValues ProofLayout PropsFailures.
Import ListNotations.
Local Open Scope string_scope.
Local Open Scope nat_scope.
Local Open Scope list_scope.

(** The same groups in any two layouts are the same report, or fail the same way. *)
Theorem C01_metar : forall ws t u a b c d e f env y mo tr,
  Forall word ws -> Forall (fun w => ~ In 61%N w) ws ->
  laid_out ws t -> blanks a -> blanks b -> e = [] \/ e = py "=" ->
  laid_out ws u -> blanks c -> blanks d -> f = [] \/ f = py "=" ->
  metar_parse env (a ++ t ++ e ++ b) y mo tr = metar_parse env (c ++ u ++ f ++ d) y mo tr.
Proof. exact metar_layout. Qed.
Print Assumptions C01_metar.

Theorem C01_taf : forall ws t u a b c d e f env y mo tr,
  Forall word ws -> Forall (fun w => ~ In 61%N w) ws ->
  laid_out ws t -> blanks a -> blanks b -> e = [] \/ e = py "=" ->
  laid_out ws u -> blanks c -> blanks d -> f = [] \/ f = py "=" ->
  taf_parse env (a ++ t ++ e ++ b) y mo tr = taf_parse env (c ++ u ++ f ++ d) y mo tr.
Proof. exact taf_layout. Qed.
Print Assumptions C01_taf.

(** A single blank other than a space, newline or tab is no layout: it joins
    the groups around it. *)
Example C01_metar_case :
  match metar_parse some_env ([10%N] ++ py "METAR SEQM" ++ [10; 9]%N ++ py "071200Z" ++ [13; 10]%N ++ py "Q1015=" ++ [10%N]) (Some 2024%Z) (Some 6%Z) true,
        metar_parse some_env (py "METAR SEQM 071200Z Q1015") (Some 2024%Z) (Some 6%Z) true with
  | Ok x, Ok y => str_eqb (me_raw x) (me_raw y) && str_eqb (metar_str x) (metar_str y)
  | _, _ => false
  end = true
  /\ match metar_parse some_env (py "METAR SEQM 071200Z" ++ [13%N] ++ py "Q1015") (Some 2024%Z) (Some 6%Z) false with
     | Ok x => Nat.eqb (length (me_unparsed x)) 1
     | _ => false
     end = true.
Proof. conjs; vm_compute; reflexivity. Qed.
