(** * When an accepted visibility fails (C19) *)
From Coq Require Import String Ascii.
From Coq Require Import List NArith ZArith Bool Lia.
From Verif Require Import PyBase PyRegex AeroRegex MetarGroups SpecNum SpecFailures SpecVision ProofVision.
Import ListNotations.
Local Open Scope string_scope.
Local Open Scope nat_scope.
Local Open Scope list_scope.

(** Which exception an accepted prevailing visibility raises, if any. *)
Theorem C19_prevailing_exact : forall g m e, re_match r_VISIBILITY g = Some m ->
  (prevailing_new (Some m) = Raise e <-> vision_fails g e).
Proof. exact prevailing_exact. Qed.
Print Assumptions C19_prevailing_exact.

(** The minimum visibility can only fail on its direction. *)
Theorem C19_minimum_exact : forall g m e, re_match r_MINIMUM_VISIBILITY g = Some m ->
  (minimum_visibility_new (Some m) = Raise e <-> e = ValueError /\ exists x, contains g x /\ no_direction x).
Proof. exact minimum_exact. Qed.
Print Assumptions C19_minimum_exact.

(** All three happen; a whole number before the fraction avoids the TypeError. *)
Example C19_exact_case :
  (exists m, re_match r_VISIBILITY (py "M_1/2KM") = Some m /\ prevailing_new (Some m) = Raise TypeError)
  /\ (exists m v, re_match r_VISIBILITY (py "M1_1/2KM") = Some m /\ prevailing_new (Some m) = Ok v)
  /\ (exists m, re_match r_VISIBILITY (py "P11_1/0SM") = Some m /\ prevailing_new (Some m) = Raise ZeroDivisionError)
  /\ (exists m, re_match r_VISIBILITY (py "////WE") = Some m /\ prevailing_new (Some m) = Raise ValueError)
  /\ (exists m, re_match r_MINIMUM_VISIBILITY (py "1200EE") = Some m /\ minimum_visibility_new (Some m) = Raise ValueError)
  /\ bare_km (py "M_1/2KM").
Proof.
  split; [eexists; split; [vm_compute; reflexivity|vm_compute; reflexivity]|].
  split; [do 2 eexists; split; [vm_compute; reflexivity|vm_compute; reflexivity]|].
  do 3 (split; [eexists; split; [vm_compute; reflexivity|vm_compute; reflexivity]|]).
  exists (py "M"), (py "_"), (py "1"), (py "2"), 1%N, 2%N, [].
  assert (R : reads (py "1") 1 /\ reads (py "2") 2).
  { split; (split; [discriminate|vm_compute; reflexivity]). }
  destruct R as [R1 R2]. split; [reflexivity|]. split; [cbn; tauto|]. split; [cbn; tauto|]. split; [exact R1|]. split; [reflexivity|].
  split; [exact R2|]. split; [reflexivity|]. left. reflexivity.
Qed.
