(** * Properties C01 and C02 (raw code): statements only *)
From Coq Require Import String Ascii.
From Coq Require Import List NArith ZArith Bool Lia.
From Verif Require Import PyBase PyRegex AeroRegex Base SpecText ProofText.
Import ListNotations.
Open Scope list_scope.

(** ** C01: raw code normalisation is layout independent *)

Theorem C01_layout : forall ws t a e b,
  laid_out ws t -> Forall word ws -> Forall (fun w => ~ In 61%N w) ws ->
  blanks a -> blanks b -> e = [] \/ e = py "=" ->
  report_raw_code (a ++ t ++ e ++ b) = Ok (sentence ws).
Proof. exact raw_layout. Qed.
Print Assumptions C01_layout.

Theorem C01_clean : forall code raw, report_raw_code code = Ok raw ->
  ~ In 10%N raw /\ ~ In 9%N raw /\ ~ In 61%N raw.
Proof. exact raw_clean. Qed.
Print Assumptions C01_clean.

Example C01_case :
  laid_out [py "METAR"; py "MROC"; py "071200Z"]
           (py "METAR" ++ [10%N] ++ py "MROC" ++ [32; 9; 8195]%N ++ py "071200Z")
  /\ report_raw_code ([32; 10]%N ++ (py "METAR" ++ [10%N] ++ py "MROC" ++ [32; 9; 8195]%N ++ py "071200Z")
                      ++ py "=" ++ [13%N])
     = Ok (py "METAR MROC 071200Z").
Proof.
  split; [|vm_compute; reflexivity].
  apply next_group; [right; left; reflexivity|]. apply next_group; [|apply one_group].
  right. right. right. split; [cbn; lia|repeat constructor].
Qed.

(** ** C02: normalisation is idempotent *)

(** For every text with something in it whose [=] signs follow a group
    directly.  Missing from the full statement: an [=] preceded by whitespace
    leaves that whitespace behind. *)
Theorem C02_idempotent_partial : forall code, has_ink code -> glued code ->
  exists raw, report_raw_code code = Ok raw /\ report_raw_code raw = Ok raw.
Proof. exact raw_idempotent. Qed.
Print Assumptions C02_idempotent_partial.

Example C02_case : has_ink (py " METAR  MROC= ") /\ glued (py " METAR  MROC= ")
  /\ report_raw_code (py " METAR  MROC= ") = Ok (py "METAR MROC").
Proof.
  split; [|split; [|vm_compute; reflexivity]].
  - exists 77%N. split; [vm_compute; tauto|discriminate].
  - intros a b E. exists (py " METAR  MRO"), 67%N. split; [|discriminate].
    do 12 (destruct a as [|? a]; [discriminate E|]; injection E as <- E).
    destruct a as [|? a]; [reflexivity|]. injection E as <- E.
    destruct a as [|? a]; [discriminate E|]. injection E as <- E. destruct a; discriminate E.
Qed.

(** Every non-empty text: refuted, twice. *)
Theorem C02_idempotent_refuted :
  (exists code raw, report_raw_code code = Ok raw /\ report_raw_code raw <> Ok raw /\ raw <> [])
  /\ (exists code, report_raw_code code = Ok [] /\ report_raw_code [] = Raise AssertionError).
Proof.
  split.
  - exists (py "METAR ="), (py "METAR "). split; [vm_compute; reflexivity|]. split; vm_compute; discriminate.
  - exists (py "="). split; vm_compute; reflexivity.
Qed.
Print Assumptions C02_idempotent_refuted.
