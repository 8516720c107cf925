(** * When the sections keep the order of the text (C36) *)
From Coq Require Import String Ascii.
From Coq Require Import List NArith ZArith Bool Lia.
From Verif Require Import PyBase Metar SpecText SpecOrder ProofOrder PropsSections.
Import ListNotations.
Local Open Scope string_scope.
Local Open Scope nat_scope.
Local Open Scope list_scope.

(** The sections that are not empty, written one after another, are the raw
    code again exactly when no piece but the last begins with RMK. *)
Theorem C36_in_order_exact : forall raw ps, ~ In 124%N raw -> pieces section_words raw ps -> Forall closed ps ->
  (sentence (filter inked (metar_sections raw)) = raw
   <-> Forall (fun p => starts_with (py "RMK") p = false) (removelast ps)).
Proof. exact in_order_exact. Qed.
Print Assumptions C36_in_order_exact.

Example C36_in_order_exact_case :
  let ps := [py "METAR X"; py "TEMPO B"; py "RMK A"] in let qs := [py "METAR X"; py "RMK A"; py "TEMPO B"] in
  pieces section_words (sentence ps) ps /\ pieces section_words (sentence qs) qs /\ Forall closed ps
  /\ ~ In 124%N (sentence ps) /\ ~ In 124%N (sentence qs)
  /\ sentence (filter inked (metar_sections (sentence ps))) = sentence ps
  /\ sentence (filter inked (metar_sections (sentence qs))) = sentence ps.
Proof.
  cbv zeta.
  assert (U : forall p, In p [py "METAR X"; py "TEMPO B"; py "RMK A"] -> uncut section_words p).
  { intros p I. apply uncut_b_ok. destruct I as [<-|[<-|[<-|[]]]]; vm_compute; reflexivity. }
  split; [|split; [|split; [|split; [|split; [|split; vm_compute; reflexivity]]]]].
  - split; [reflexivity|]. split; [discriminate|]. split; [|repeat constructor].
    rewrite Forall_forall. exact U.
  - split; [reflexivity|]. split; [discriminate|]. split; [|repeat constructor].
    rewrite Forall_forall. intros p I. apply U. cbn [In] in *. tauto.
  - repeat constructor; discriminate.
  - cbn. intuition discriminate.
  - cbn. intuition discriminate.
Qed.
