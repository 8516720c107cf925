(** * Exact form of C35: statements only *)
From Coq Require Import String Ascii.
From Coq Require Import List NArith ZArith Bool Lia.
From Verif Require Import PyBase PyRegex AeroRegex PyTime Utils Base Taf SpecTime SpecTaf SpecChain TimeFacts ProofValues ProofTime ProofTaf ProofChain.
Import ListNotations.
Local Open Scope string_scope.
Local Open Scope nat_scope.
Local Open Scope list_scope.

(** Adding a change fails with AttributeError exactly when it is FM or BECMG
    and the last change before it that is not TEMPO or PROB has an indicator
    that was not recognised; otherwise with RangeError exactly when the list
    is full; otherwise the changes are chained. *)
Theorem C35_exact : forall new g u, length (gl_list g) <= gl_max g ->
  real_time u -> real_time (t_dt (va_from (tc_valid (cf_ind new)))) ->
  minutes_later 60 u (t_dt (va_from (tc_valid (cf_ind new)))) ->
  added new g (changes_add new g).
Proof. exact changes_add_exact. Qed.
Print Assumptions C35_exact.

(** FM0106 is not recognised; a TEMPO may stand between it and the FM that fails. *)
Example C35_exact_case : exists a t b,
  let v := mk_valid None (time_at (mk_dt 2023 6 1 0 0)) (time_at (mk_dt 2023 6 2 0 0)) in
  change_fc_new (py "FM0106 27010KT") v = Ok a /\ change_fc_new (py "TEMPO 0108/0110 RA") v = Ok t
  /\ change_fc_new (py "FM011200 9999") v = Ok b
  /\ ind_code a = None /\ passing t /\ ends_others b /\ unknown_before [a; t]
  /\ real_time (mk_dt 2023 6 1 11 0) /\ t_dt (va_from (tc_valid (cf_ind b))) = mk_dt 2023 6 1 12 0
  /\ minutes_later 60 (mk_dt 2023 6 1 11 0) (mk_dt 2023 6 1 12 0)
  /\ changes_add b (mk_gl 0 8 [a; t]) = Raise AttributeError.
Proof.
  eexists _, _, _. cbv zeta. split; [vm_compute; reflexivity|]. split; [vm_compute; reflexivity|]. split; [vm_compute; reflexivity|].
  split; [reflexivity|].
  match goal with |- passing ?t /\ _ => assert (P : passing t) by (right; eexists; reflexivity) end.
  split; [exact P|]. split; [left; eexists; reflexivity|].
  split; [eexists [], _, [_]; split; [reflexivity|]; split; [constructor; [exact P|constructor]|reflexivity]|].
  split; [apply valid_dt_spec; vm_compute; reflexivity|]. split; [reflexivity|].
  split; [apply later_valid; vm_compute; reflexivity|vm_compute; reflexivity].
Qed.
