(** * Exactly when should_be_cavok answers True (C07) *)
From Coq Require Import String Ascii.
From Coq Require Import List NArith ZArith Bool Lia QArith.
From Verif Require Import PyBase PyRegex AeroRegex PyFloat Base MetarGroups SpecNum SpecGroups SpecRules
  ProofValues ProofRules PropsRules SpecCavok ProofCavok.
Import ListNotations.
Local Open Scope string_scope.
Local Open Scope nat_scope.
Local Open Scope list_scope.

(** Whatever the layers and wherever earlier loops have stopped: True exactly
    when there is no weather, 10 km or more, some layer, every broken or
    overcast layer has a height above 1500 feet, and the layers from the cursor
    on are neither CB nor TCU, nor below 5000 feet, nor (only when [is] behaves
    as equality) a vertical visibility. *)
Theorem C07_exact : forall same c vis gs, shows_vis vis (c_vis c) -> shows_clouds gs (gl_list (c_clouds c)) ->
  ((exists c', should_be_cavok same c = Ok (true, c')) <->
   gl_list (c_weathers c) = [] /\ (exists q, coded_vis vis = Some q /\ (10000 # 1 <= q)%Q)
   /\ gs <> [] /\ Forall high gs /\ Forall (passes same) (skipn (gl_n (c_clouds c)) gs)).
Proof. exact cavok_exact. Qed.
Print Assumptions C07_exact.

(** VV/// with 9999 passes in CPython, and does not when the constants are shared. *)
Example C07_exact_case : let g := mk_cloud_g vv HtSlashes TyAbsent in let c := report (VisMeters 9999 None) [g] in
  shows_vis (Some (VisMeters 9999 None)) (c_vis c) /\ shows_clouds [g] (gl_list (c_clouds c))
  /\ passes false g /\ ~ passes true g /\ high g
  /\ (exists c', should_be_cavok false c = Ok (true, c')) /\ (exists c', should_be_cavok true c = Ok (false, c')).
Proof.
  cbv zeta. split; [seen|]. split; [shown|].
  split; [split; [discriminate|split; [discriminate|split; [discriminate|discriminate]]]|].
  split; [intros (_ & _ & _ & K); discriminate (K eq_refl)|]. split; [discriminate|].
  split; eexists; vm_compute; reflexivity.
Qed.
