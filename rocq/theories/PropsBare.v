(** * When the raw code is final (C02): statements only *)
From Coq Require Import String Ascii.
From Coq Require Import List NArith ZArith Bool Lia.
From Verif Require Import PyBase PyRegex AeroRegex Base SpecText SpecBare ProofBare.
Import ListNotations.
Open Scope list_scope.

(** Normalising the raw code again changes nothing exactly when the text has
    something in it and no group of it consists of [=] signs only. *)
Theorem C02_exact : forall code,
  (exists raw, report_raw_code code = Ok raw /\ report_raw_code raw = Ok raw) <-> has_ink code /\ ~ bare code.
Proof. exact raw_final. Qed.
Print Assumptions C02_exact.

Example C02_exact_case : bare (py "METAR = MROC") /\ bare (py "METAR MROC =") /\ bare (py "=") /\ has_ink (py " =METAR ")
  /\ report_raw_code (py " =METAR ") = Ok (py "METAR") /\ report_raw_code (py "METAR = MROC") = Ok (py "METAR  MROC").
Proof.
  assert (F : Forall (fun c => c = 61%N) (py "=")) by (constructor; [reflexivity|constructor]).
  split; [|split; [|split; [|split; [|split; vm_compute; reflexivity]]]].
  - exists (py "METAR "), (py "="), (py " MROC"). split; [reflexivity|]. split; [discriminate|]. split; [exact F|]. split; right.
    + exists (py "METAR"), 32%N. split; reflexivity.
    + exists 32%N, (py "MROC"). split; reflexivity.
  - exists (py "METAR MROC "), (py "="), []. split; [reflexivity|]. split; [discriminate|]. split; [exact F|]. split; [right|left; reflexivity].
    exists (py "METAR MROC"), 32%N. split; reflexivity.
  - exists [], (py "="), []. split; [reflexivity|]. split; [discriminate|]. split; [exact F|]. split; left; reflexivity.
  - exists 77%N. split; [vm_compute; tauto|discriminate].
Qed.
