(** * Exact forms of C09 and C22: statements only *)
From Coq Require Import String Ascii.
From Coq Require Import List NArith ZArith Bool Lia QArith Qabs.
From Verif Require Import PyBase PyRegex AeroRegex PyFloat Base MetarGroups SpecNum SpecGroups SpecRules
  ProofValues ProofValues2 ProofRules ProofExact PropsRules.
Import ListNotations.
Local Open Scope string_scope.
Local Open Scope nat_scope.
Local Open Scope list_scope.

(** should_be_cavok raises, and then TypeError, exactly when there is no
    weather and a broken or overcast layer without a height comes before any
    such layer at or below 1500 feet. *)
Theorem C09_exact : forall same c gs e, shows_clouds gs (gl_list (c_clouds c)) ->
  (should_be_cavok same c = Raise e <->
   e = TypeError /\ gl_list (c_weathers c) = [] /\
   exists l1 g l2, gs = l1 ++ g :: l2 /\ ~ ceiling_has_height g
     /\ Forall (fun g => cover_in ["BKN"; "OVC"] g = true -> forall n, hundreds_of g = Some n -> (15 < n)%N) l1).
Proof. exact cavok_raises. Qed.
Print Assumptions C09_exact.

(** BKN020 BKN/// raises, BKN010 BKN/// does not. *)
Example C09_exact_case : let slashes := mk_cloud_g bkn HtSlashes TyAbsent in
  shows_clouds [layer bkn 20; slashes] (gl_list (c_clouds (report (VisMeters 9999 None) [layer bkn 20; slashes])))
  /\ should_be_cavok false (report (VisMeters 9999 None) [layer bkn 20; slashes]) = Raise TypeError
  /\ exists c, should_be_cavok false (report (VisMeters 9999 None) [layer bkn 10; slashes]) = Ok (false, c).
Proof. cbv zeta. split; [shown|]. split; [vm_compute; reflexivity|]. eexists. vm_compute. reflexivity. Qed.

(** Above 2500 a pressure without prefix and unit is taken for whole inches:
    it is a hundred times the pressure of the A group. *)
Theorem C22_above : forall n, (2500 < n < 10000)%N ->
  exists p, metar_pressure_new (re_match r_PRESSURE (press_code (mk_press_g PfNone (Some n) false))) = Ok p
    /\ within (1 # 10 ^ 9) (pr_value p) (ofN n / (2953 # 100000)).
Proof. exact press_none_above. Qed.
Print Assumptions C22_above.

Example C22_above_case : (2500 < 2992 < 10000)%N /\ press_code (mk_press_g PfNone (Some 2992%N) false) = py "2992".
Proof. split; [lia|reflexivity]. Qed.
