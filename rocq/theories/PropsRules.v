(** * Properties C07-C14: CAVOK conditions, flight rules, compass points *)
From Coq Require Import String Ascii.
From Coq Require Import List NArith ZArith Bool Lia QArith Qabs.
From Verif Require Import PyBase PyRegex AeroRegex PyFloat Base MetarGroups SpecNum SpecGroups SpecRules
  FloatFacts ProofValues ProofValues2 ProofRules.
Import ListNotations.
Local Open Scope string_scope.
Local Open Scope nat_scope.
Local Open Scope list_scope.

(** A report whose clouds and visibility were decoded from the groups [gs] and
    [vis], used in the cases below. *)
Definition decoded (o : result visibility) : visibility :=
  match o with Ok v => v | Raise _ => mk_vis None None (mk_dir None false) false end.
Definition decoded_cloud (g : cloud_g) : cloud :=
  match cloud_from_metar (re_match r_CLOUD (cloud_code g)) with
  | Ok c => c
  | Raise _ => mk_cloud None None None None None
  end.
Definition no_wind : metar_wind := mk_wind None (mk_dir None false) None None.
Definition report (vis : vis_g) (gs : list cloud_g) : common :=
  mk_common [] no_wind (decoded (prevailing_new (re_match r_VISIBILITY (vis_code vis))))
    (gl_new 3) (mk_gl 0 4 (map decoded_cloud gs)).

Definition layer (cover : string * string * string) (n : N) : cloud_g :=
  mk_cloud_g cover (HtHundreds n) TyAbsent.
Definition few := ("FEW", "a few", "1-2").
Definition bkn := ("BKN", "broken", "5-7").
Definition vv := ("VV", "indefinite ceiling", "undefined").

Lemma shown_clouds : forall gs, Forall cloud_wf gs -> shows_clouds gs (map decoded_cloud gs).
Proof.
  intros gs H. induction H as [|g gs Hg H IH]; constructor; [|exact IH]. split; [exact Hg|].
  unfold decoded_cloud. destruct (cloud_full g Hg) as (c & -> & _). reflexivity.
Qed.
Lemma shown_vis : forall g, vis_wf g ->
  shows_vis (Some g) (decoded (prevailing_new (re_match r_VISIBILITY (vis_code g)))).
Proof. intros g H. split; [exact H|]. destruct (prevailing_full g H) as (v & -> & _). reflexivity. Qed.

Ltac shown := apply shown_clouds; repeat (apply Forall_cons; [split; [cbn; tauto|];
  split; [cbn; try exact I; lia|intros [? ?]; discriminate]|]); apply Forall_nil.
Ltac seen := apply shown_vis; vm_compute; repeat split; try tauto; congruence.

(** ** C07: should_be_cavok follows its rule *)

(** Full statement: the same without [ceiling_has_height] and [vv_decided].
    It is false: [C07_refuted] and [C09_refuted]. *)
Theorem C07_should_be_cavok_partial : forall same c vis gs, gl_n (c_clouds c) = 0 ->
  shows_vis vis (c_vis c) -> shows_clouds gs (gl_list (c_clouds c)) ->
  Forall ceiling_has_height gs -> Forall (vv_decided same) gs ->
  exists b c', should_be_cavok same c = Ok (b, c')
    /\ (b = true <-> cavok_conditions (gl_list (c_weathers c)) vis gs).
Proof. exact cavok_rule. Qed.
Print Assumptions C07_should_be_cavok_partial.

Example C07_case : let c := report (VisMeters 9999 None) [layer few 50; layer bkn 100] in
  gl_n (c_clouds c) = 0 /\ shows_vis (Some (VisMeters 9999 None)) (c_vis c)
  /\ shows_clouds [layer few 50; layer bkn 100] (gl_list (c_clouds c))
  /\ Forall ceiling_has_height [layer few 50; layer bkn 100]
  /\ Forall (vv_decided false) [layer few 50; layer bkn 100]
  /\ cavok_conditions [] (Some (VisMeters 9999 None)) [layer few 50; layer bkn 100].
Proof.
  cbv zeta. split; [reflexivity|]. split; [seen|]. split; [shown|].
  split; [repeat constructor; intros _; discriminate|]. split; [repeat constructor; discriminate|].
  split; [reflexivity|]. split; [eexists; split; [reflexivity|discriminate]|]. split; [discriminate|].
  repeat constructor; try discriminate; try (intros n H; injection H as <-; lia);
    try (intros _ n H; injection H as <-; lia); intros [? ?]; discriminate.
Qed.

(** A vertical visibility without a height is not rejected when [is] does not
    behave as equality, and one at 5000 feet is when it does. *)
Theorem C07_should_be_cavok_refuted : forall same, exists c vis gs,
  gl_n (c_clouds c) = 0 /\ shows_vis vis (c_vis c) /\ shows_clouds gs (gl_list (c_clouds c))
  /\ Forall ceiling_has_height gs
  /\ exists b c', should_be_cavok same c = Ok (b, c')
     /\ ~ (b = true <-> cavok_conditions (gl_list (c_weathers c)) vis gs).
Proof.
  intros [|].
  - exists (report (VisMeters 9999 None) [layer vv 50]), (Some (VisMeters 9999 None)), [layer vv 50].
    split; [reflexivity|]. split; [seen|]. split; [shown|].
    split; [repeat constructor; intros _; discriminate|].
    exists false. eexists. split; [vm_compute; reflexivity|]. intros [_ H]. discriminate H.
    split; [reflexivity|]. split; [eexists; split; [reflexivity|discriminate]|]. split; [discriminate|].
    repeat constructor; try discriminate; try (intros n K; injection K as <-; lia); intros [? ?]; discriminate.
  - set (g := mk_cloud_g vv HtSlashes TyAbsent).
    exists (report (VisMeters 9999 None) [g]), (Some (VisMeters 9999 None)), [g].
    split; [reflexivity|]. split; [seen|]. split; [shown|].
    split; [repeat constructor; discriminate|].
    exists true. eexists. split; [vm_compute; reflexivity|]. intros [H _].
    destruct (H eq_refl) as (_ & _ & _ & F). inversion F as [|x l L _]; subst.
    destruct L as (_ & _ & _ & _ & L). apply L. split; reflexivity.
Qed.
Print Assumptions C07_should_be_cavok_refuted.

(** ** C08: repeated calls *)

(** Full statement: two calls on any report agree.  They agree unless exactly
    one layer stands against CAVOK, and in that case they never do. *)
Theorem C08_repeated_calls_partial : forall same c vis gs, gl_n (c_clouds c) = 0 ->
  shows_vis vis (c_vis c) -> shows_clouds gs (gl_list (c_clouds c)) ->
  Forall ceiling_has_height gs -> Forall (vv_decided same) gs ->
  ~ (cavok_but_layers (gl_list (c_weathers c)) vis gs /\ one_bad_layer gs) ->
  exists b c1 c2, should_be_cavok same c = Ok (b, c1) /\ should_be_cavok same c1 = Ok (b, c2).
Proof. intros same c vis gs H0 Hv Hg Hc Hd. exact (proj1 (cavok_twice same c vis gs H0 Hv Hg Hc Hd)). Qed.
Print Assumptions C08_repeated_calls_partial.

Example C08_partial_case : let gs := [layer few 10; layer few 20] in
  let c := report VisCavok gs in
  gl_n (c_clouds c) = 0 /\ shows_vis (Some VisCavok) (c_vis c) /\ shows_clouds gs (gl_list (c_clouds c))
  /\ ~ (cavok_but_layers [] (Some VisCavok) gs /\ one_bad_layer gs).
Proof.
  cbv zeta. split; [reflexivity|]. split; [seen|]. split; [shown|].
  intros [_ (l1 & g & l2 & E & F1 & _ & F2)].
  assert (Hb : forall n, (n < 50)%N -> ~ layer_ok (layer few n)).
  { intros n Hn (_ & _ & _ & H & _). specialize (H n eq_refl). lia. }
  destruct l1 as [|x l1].
  - injection E as _ <-. inversion F2; subst. apply (Hb 20%N); [lia|assumption].
  - injection E as <- _. inversion F1; subst. apply (Hb 10%N); [lia|assumption].
Qed.

Theorem C08_repeated_calls_refuted : forall same c vis gs, gl_n (c_clouds c) = 0 ->
  shows_vis vis (c_vis c) -> shows_clouds gs (gl_list (c_clouds c)) ->
  Forall ceiling_has_height gs -> Forall (vv_decided same) gs ->
  cavok_but_layers (gl_list (c_weathers c)) vis gs -> one_bad_layer gs ->
  exists c1 c2, should_be_cavok same c = Ok (false, c1) /\ should_be_cavok same c1 = Ok (true, c2).
Proof.
  intros same c vis gs H0 Hv Hg Hc Hd B O.
  exact (proj2 (cavok_twice same c vis gs H0 Hv Hg Hc Hd) (conj B O)).
Qed.
Print Assumptions C08_repeated_calls_refuted.

Example C08_refuted_case : let gs := [layer few 10; layer bkn 100] in
  let c := report VisCavok gs in
  gl_n (c_clouds c) = 0 /\ shows_vis (Some VisCavok) (c_vis c) /\ shows_clouds gs (gl_list (c_clouds c))
  /\ Forall ceiling_has_height gs /\ Forall (vv_decided false) gs
  /\ cavok_but_layers [] (Some VisCavok) gs /\ one_bad_layer gs.
Proof.
  cbv zeta. split; [reflexivity|]. split; [seen|]. split; [shown|].
  split; [repeat constructor; intros _; discriminate|]. split; [repeat constructor; discriminate|].
  split.
  - split; [reflexivity|]. split; [eexists; split; [reflexivity|discriminate]|]. split; [discriminate|].
    repeat constructor; try discriminate; intros _ n H; injection H as <-; lia.
  - exists [], (layer few 10), [layer bkn 100]. split; [reflexivity|]. split; [constructor|]. split.
    + intros (_ & _ & _ & H & _). specialize (H 10%N eq_refl). lia.
    + repeat constructor; try discriminate; try (intros n H; injection H as <-; lia);
        try (intros _ n H; injection H as <-; lia); intros [? ?]; discriminate.
Qed.

(** ** C09: should_be_cavok never raises *)

(** Full statement: without [ceiling_has_height].  False, see below. *)
Theorem C09_no_exception_partial : forall same c vis gs,
  shows_vis vis (c_vis c) -> shows_clouds gs (gl_list (c_clouds c)) ->
  Forall ceiling_has_height gs -> exists b c', should_be_cavok same c = Ok (b, c').
Proof. exact cavok_total. Qed.
Print Assumptions C09_no_exception_partial.

Example C09_case : Forall ceiling_has_height [layer few 10; layer bkn 15; mk_cloud_g vv HtSlashes TyAbsent].
Proof. repeat constructor; try (intros _; discriminate). discriminate. Qed.

(** "BKN///" is a cloud group and [ceiling] compares its missing height. *)
Theorem C09_no_exception_refuted : forall same, exists c vis gs,
  shows_vis vis (c_vis c) /\ shows_clouds gs (gl_list (c_clouds c))
  /\ should_be_cavok same c = Raise TypeError.
Proof.
  intro same. set (g := mk_cloud_g bkn HtSlashes TyAbsent).
  exists (report (VisMeters 9999 None) [g]), (Some (VisMeters 9999 None)), [g].
  split; [seen|]. split; [shown|]. vm_compute. reflexivity.
Qed.
Print Assumptions C09_no_exception_refuted.

(** ** C10: flight rules *)

(** For all finite numbers, whatever they were decoded from. *)
Theorem C10_flight_rules : forall vis clouds, opt_all sound vis -> opt_all sound (ceiling_height clouds) ->
  flight_rules_of vis clouds = option_map py (category (exact (ceiling_height clouds)) (exact vis)).
Proof. exact flight_rules_exact. Qed.
Print Assumptions C10_flight_rules.

(** For decoded groups, in the numbers written in them: rounding never moves
    a value across a limit. *)
Theorem C10_flight_rules_coded : forall g gs v l, shows_vis g v -> shows_clouds gs l ->
  flight_rules_of (v_vis v) l = option_map py (category (coded_ceiling gs) (coded_vis g)).
Proof. exact flight_rules_coded. Qed.
Print Assumptions C10_flight_rules_coded.

Example C10_case : let g := VisMiles None (Some (true, 10)%N) None in
  let gs := [layer few 10; layer bkn 5] in
  let c := report g gs in
  shows_vis (Some g) (c_vis c) /\ shows_clouds gs (gl_list (c_clouds c))
  /\ category (coded_ceiling gs) (coded_vis (Some g)) = Some "IFR".
Proof.
  cbv zeta. split; [split; [cbn; repeat split; try tauto; try lia; left; discriminate|vm_compute; reflexivity]|].
  split; [shown|reflexivity].
Qed.

(** ** C11: monotone *)

Theorem C11_monotone : forall v l v' l',
  opt_all sound v -> opt_all sound (ceiling_height l) ->
  opt_all sound v' -> opt_all sound (ceiling_height l') ->
  lower_or_equal (exact v') (exact v) ->
  lower_or_equal (exact (ceiling_height l')) (exact (ceiling_height l)) ->
  rank (flight_rules_of v' l') <= rank (flight_rules_of v l).
Proof. exact flight_rules_mono. Qed.
Print Assumptions C11_monotone.

Example C11_case : let v := Some (fN 5000) in let v' := Some (fN 4999) in
  opt_all sound v /\ opt_all sound v' /\ lower_or_equal (exact v') (exact v)
  /\ rank (flight_rules_of v' []) = 2 /\ rank (flight_rules_of v []) = 3.
Proof.
  cbv zeta. split; [apply fN_sound; lia|]. split; [apply fN_sound; lia|].
  split; [vm_compute; discriminate|]. split; vm_compute; reflexivity.
Qed.

(** ** C12: defined when there is data *)

(** Full statement: [None] only if there is no ceiling and no visibility.  The
    visibility alone leaves a report without category from 20 km on. *)
Theorem C12_no_category_partial : forall g gs v l, shows_vis g v -> shows_clouds gs l ->
  (flight_rules_of (v_vis v) l = None <->
   coded_ceiling gs = None /\ (forall q, coded_vis g = Some q -> (20000 # 1 <= q)%Q)).
Proof. exact coded_none. Qed.
Print Assumptions C12_no_category_partial.

Example C12_case : let g := VisMeters 9999 None in let c := report g [] in
  shows_vis (Some g) (c_vis c) /\ shows_clouds [] (gl_list (c_clouds c))
  /\ flight_rules (c) = Some (py "VFR").
Proof. cbv zeta. split; [seen|]. split; [constructor|vm_compute; reflexivity]. Qed.

Theorem C12_no_category_refuted : exists g v, shows_vis (Some g) v /\ v_vis v <> None
  /\ flight_rules_of (v_vis v) [] = None.
Proof.
  exists (VisMiles None (Some (true, 15)%N) None).
  eexists. split; [split; [cbn; repeat split; try tauto; try lia; left; discriminate|vm_compute; reflexivity]|].
  split; [discriminate|vm_compute; reflexivity].
Qed.
Print Assumptions C12_no_category_refuted.

(** ** C13: compass points *)

Theorem C13_cardinal : forall x q var, normal x -> fvalue x = Some q -> (0 <= q <= 360 # 1)%Q ->
  exists i p, nth_error points16 i = Some p /\ in_sector i q
    /\ cardinal (mk_dir (Some x) var) = Some (py p).
Proof. exact cardinal_sector. Qed.
Print Assumptions C13_cardinal.

Theorem C13_sectors_disjoint : forall i j q, i < 16 -> j < 16 -> in_sector i q -> in_sector j q -> i = j.
Proof. exact sector_unique. Qed.
Print Assumptions C13_sectors_disjoint.

Example C13_case : normal (fN 360) /\ in_sector 0 (360 # 1) /\ normal (fN 12) /\ in_sector 1 (12 # 1)
  /\ cardinal (mk_dir None false) = None.
Proof.
  split; [vm_compute; repeat split; congruence|]. split; [exists (-1)%Z; split; vm_compute; congruence|].
  split; [vm_compute; repeat split; congruence|]. split; [exists 0%Z; split; vm_compute; congruence|reflexivity].
Qed.

(** ** C14: from_cardinal *)

Theorem C14_points : forall p, In p points16 ->
  exists d, from_cardinal (py p) = Ok d /\ cardinal d = Some (py p) /\ dir_variable d = false.
Proof. exact from_cardinal_points. Qed.
Print Assumptions C14_points.

(** The whole number of degrees nearest to the point, north being 360. *)
Theorem C14_degrees : forall i p, nth_error points16 i = Some p ->
  exists d x z, from_cardinal (py p) = Ok d /\ dir_value d = Some x /\ (val x == inject_Z z)%Q
    /\ (Qabs (inject_Z z - (45 # 2) * inject_Z (Z.of_nat (if Nat.eqb i 0 then 16 else i))) <= 1 # 2)%Q.
Proof. exact from_cardinal_degrees. Qed.
Print Assumptions C14_degrees.

Theorem C14_others : forall s, ~ In s (map py points16) -> from_cardinal s = Raise ValueError.
Proof. exact from_cardinal_others. Qed.
Print Assumptions C14_others.

Example C14_case : In "WNW" points16 /\ ~ In (py "WE") (map py points16).
Proof. split; [cbn; tauto|]. cbn. intuition discriminate. Qed.
