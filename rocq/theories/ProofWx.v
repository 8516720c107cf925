(** * Wind, visibility, weather and clouds in the slots of any section *)
From Coq Require Import String Ascii.
From Coq Require Import List NArith ZArith Bool Lia QArith.
From Verif Require Import PyBase PyRegex AeroRegex PyFloat PyTime Utils Base MetarGroups Trend Metar Taf SpecNum SpecGroups SpecTime
  SpecText SpecWords SpecMetar SpecTafReport SymRegex ProofGroups ProofGroups2 ProofValues ProofTime
  ProofWords GroupShapes ProofSlots Dispatch ProofFields ProofMetar.
Import ListNotations.
Local Open Scope string_scope.
Local Open Scope nat_scope.
Local Open Scope list_scope.

(** ** The patterns of a TAF *)

Definition decodes_wind (r : regex) (g : wind_g) : Prop :=
  exists m w, re_match r (wind_code g) = Some m /\ metar_wind_new (Some m) = Ok w /\ wind_is g w.
Definition decodes_vis (r : regex) (g : vis_g) : Prop :=
  exists m v, re_match r (vis_code g) = Some m /\ prevailing_new (Some m) = Ok v /\ vis_is g v.

Lemma twind_captures : forall g, wind_wf g -> wind_given g ->
  exists m, re_match r_T_WIND (wind_code g) = Some m /\ m_string m = wind_code g
    /\ forall n, In n wind_names -> group m n = lookup n (wind_text g).
Proof.
  intros g H [H1 H2]. rewrite <- wind_text_code. refine (captures _ _ _ _ (wind_fits g H) _). clear H.
  destruct g as [d s gu u]. cbn [wg_dir wg_speed] in H1, H2.
  destruct d as [t| |]; [| |congruence]; destruct s as [[|] [|] n|[|]]; try destruct H2;
    destruct gu as [[[[|] [|]] gn]|]; destruct u;
    unfold wind_shape, wdir_sym, upto2; cbn [wg_dir wg_speed wg_gust wg_units];
    try (destruct (t <? 10 * 3)%N); vm_compute; reflexivity.
Qed.
Lemma tvis_captures : forall g, vis_wf g -> vis_given g ->
  exists m, re_match r_T_VISIBILITY (vis_code g) = Some m /\ m_string m = vis_code g
    /\ forall n, In n vis_names -> group m n = lookup n (vis_text g).
Proof.
  intros g H H2. rewrite <- vis_text_code. refine (captures _ _ _ _ (vis_fits g) _).
  destruct g as [n [d|]|[d|]| |[[|]|] [[[|] i]|] [[a b]|]|[[|]|] [|] n]; try destruct H2;
    try (vm_compute; reflexivity).
  destruct H as [_ H]. simpl in H. repeat (destruct H as [<-|H]; [vm_compute; reflexivity|]). destruct H.
Qed.

Lemma twind_decodes : forall g, wind_wf g -> wind_given g -> decodes_wind r_T_WIND g.
Proof.
  intros g H H2. destruct (r_WIND_decodes g H) as (m & w & Em & E & Hw).
  destruct (wind_captures g H) as (m0 & Em0 & Es & Hc). rewrite Em in Em0. injection Em0 as <-.
  destruct (twind_captures g H H2) as (m1 & Em1 & Es1 & Hc1). exists m1, w. split; [exact Em1|]. split; [|exact Hw].
  rewrite <- E. unfold metar_wind_new.
  rewrite Es, Es1, (Hc "units"), (Hc "speed"), (Hc "gust"), (Hc "dir"), (Hc1 "units"), (Hc1 "speed"), (Hc1 "gust"), (Hc1 "dir")
    by (cbn; intuition). reflexivity.
Qed.
Lemma tvis_decodes : forall g, vis_wf g -> vis_given g -> decodes_vis r_T_VISIBILITY g.
Proof.
  intros g H H2. destruct (r_VISIBILITY_decodes g H) as (m & w & Em & E & Hw).
  destruct (vis_captures g H) as (m0 & Em0 & Es & Hc). rewrite Em in Em0. injection Em0 as <-.
  destruct (tvis_captures g H H2) as (m1 & Em1 & Es1 & Hc1). exists m1, w. split; [exact Em1|]. split; [|exact Hw].
  rewrite <- E. unfold prevailing_new.
  rewrite Es, Es1, (Hc "vis"), (Hc "integer"), (Hc "fraction"), (Hc "units"), (Hc "dir"), (Hc "cavok"),
    (Hc1 "vis"), (Hc1 "integer"), (Hc1 "fraction"), (Hc1 "units"), (Hc1 "dir"), (Hc1 "cavok") by (cbn; intuition). reflexivity.
Qed.

(** ** The slots *)

Lemma wind_feed1 : forall r o c, opt_all (decodes_wind r) o ->
  exists c', feed r handle_wind (of_option wind_code o) c = Ok c'
    /\ mute c' = mk_common [] (c_wind c') (c_vis c) (c_weathers c) (c_clouds c)
    /\ holds wind_is (eq (c_wind c)) o (c_wind c').
Proof.
  intros r [g|] c H; cbn [of_option feed opt_all] in *.
  - destruct H as (m & w & Em & E & Hw). rewrite Em. unfold handle_wind. rewrite E. cbn [bind].
    eexists. split; [reflexivity|]. split; [reflexivity|]. exact Hw.
  - exists c. split; [reflexivity|]. split; [destruct c; reflexivity|reflexivity].
Qed.
Lemma vis_feed1 : forall r o c, opt_all (decodes_vis r) o ->
  exists c', feed r handle_prevailing (of_option vis_code o) c = Ok c'
    /\ mute c' = mk_common [] (c_wind c) (c_vis c') (c_weathers c) (c_clouds c)
    /\ holds vis_is (eq (c_vis c)) o (c_vis c').
Proof.
  intros r [g|] c H; cbn [of_option feed opt_all] in *.
  - destruct H as (m & w & Em & E & Hw). rewrite Em. unfold handle_prevailing. rewrite E. cbn [bind].
    eexists. split; [reflexivity|]. split; [reflexivity|]. exact Hw.
  - exists c. split; [reflexivity|]. split; [destruct c; reflexivity|reflexivity].
Qed.

(** The groups as the dispatch loop sees them. *)
Definition wx_groups (g : wx_g) : list str :=
  of_option wind_code (x_wind g) ++ of_option vis_code (x_vis g) ++ map weather_code (x_weathers g) ++ map cloud_code (x_clouds g).

(** No wind, visibility, weather or cloud yet. *)
Definition calm (c : common) : Prop :=
  no_wind (c_wind c) /\ no_vis (c_vis c) /\ c_weathers c = gl_new 3 /\ c_clouds c = cloudlist_new.
Lemma common_calm : forall s, exists c, common_new s = Ok c /\ calm c.
Proof.
  intro s. eexists. split; [reflexivity|]. unfold calm, no_wind, no_vis. conjs; reflexivity.
Qed.
Lemma calm_mute : forall s c, calm c -> calm (set_string s c).
Proof. intros s c H. exact H. Qed.

Section Wx.
Context {S : Type}.
Variables (get : S -> common) (put : common -> S -> S).
Hypothesis L1 : forall x, put (get x) x = x.
Hypothesis L2 : forall c x, get (put c x) = c.
Hypothesis L3 : forall c c' x, put c (put c' x) = put c x.
Definition wlift (f : rmatch -> common -> result common) (m : rmatch) (y : S) : result S :=
  c <- f m (get y) ;; Ok (put c y).

Lemma wlift_feed : forall r f gs x c, feed r f gs (get x) = Ok c -> feed r (wlift f) gs x = Ok (put c x).
Proof. intros r f gs x c E. unfold wlift. rewrite (feed_lens S get put r f L1 L2 L3), E. reflexivity. Qed.

Lemma wx_phase : forall (hs : list (handler S)) rw rv lo pw g i rest x,
  lo <= i <= pw ->
  nth_error hs pw = Some (mk_handler rw (wlift handle_wind)) ->
  nth_error hs (pw + 1) = Some (mk_handler rv (wlift handle_prevailing)) ->
  (forall j, j < 3 -> nth_error hs (pw + 2 + j) = Some (mk_handler r_WEATHER (wlift handle_weather))) ->
  (forall j, j < 4 -> nth_error hs (pw + 5 + j) = Some (mk_handler r_CLOUD (wlift handle_cloud))) ->
  opt_all (fun w => passes hs lo pw (wind_code w) /\ decodes_wind rw w) (x_wind g) ->
  opt_all (fun v => passes hs lo (pw + 1) (vis_code v) /\ decodes_vis rv v) (x_vis g) ->
  Forall (fun w => weather_wf w /\ passes hs (match x_vis g with Some _ => pw + 2 | None => lo end) (pw + 2) (weather_code w))
    (x_weathers g) -> length (x_weathers g) <= 3 ->
  Forall (fun c => cloud_wf c /\ passes hs lo (pw + 5) (cloud_code c)) (x_clouds g) -> length (x_clouds g) <= 4 ->
  calm (get x) ->
  exists i' c, i <= i' <= pw + 9 /\ wx_holds g c
    /\ parse_groups hs (wx_groups g ++ rest) i [] x = parse_groups hs rest i' [] (put c x).
Proof.
  intros hs rw rv lo pw g i rest x Hi N1 N2 N3 N4 Hw Hv Hx Lx Hc Lc (C1 & C2 & C3 & C4). unfold wx_groups. rewrite <- !app_assoc.
  (* wind *)
  destruct (wind_feed1 rw (x_wind g) (get x)) as (c1 & F1 & B1 & V1).
  { eapply opt_all_impl; [|exact Hw]. intros w K. apply K. }
  apply wlift_feed in F1.
  match goal with |- context [parse_groups hs (_ ++ ?r) i [] x] =>
    destruct (phase_f _ hs _ _ _ _ _ F1 lo 1 pw i r) as (i1 & I1 & _ & P1) end.
  { lia. } { apply one_le; lia. } { intros j Hj. replace (pw + j) with pw by lia. exact N1. }
  { apply of_option_Forall. eapply opt_all_impl; [|exact Hw]. intros w [K (m & w0 & Em & _)].
    split; [exact K|exact (some_not_none _ _ _ Em)]. }
  rewrite P1. clear P1 F1.
  (* visibility *)
  destruct (vis_feed1 rv (x_vis g) (get (put c1 x))) as (c2 & F2 & B2 & V2).
  { eapply opt_all_impl; [|exact Hv]. intros w K. apply K. }
  apply wlift_feed in F2.
  match goal with |- context [parse_groups hs (_ ++ ?r) i1 [] _] =>
    destruct (phase_f _ hs _ _ _ _ _ F2 lo 1 (pw + 1) i1 r) as (i2 & I2 & J2 & P2) end.
  { lia. } { apply one_le; lia. } { intros j Hj. replace (pw + 1 + j) with (pw + 1) by lia. exact N2. }
  { apply of_option_Forall. eapply opt_all_impl; [|exact Hv]. intros w [K (m & w0 & Em & _)].
    split; [exact K|exact (some_not_none _ _ _ Em)]. }
  rewrite P2. clear P2 F2. rewrite L2 in B2, V2. rewrite L3.
  (* weather *)
  assert (W2 : c_weathers c2 = gl_new 3).
  { change (c_weathers (mute c2) = gl_new 3). rewrite B2. cbn [c_weathers].
    change (c_weathers (mute c1) = gl_new 3). rewrite B1. exact C3. }
  destruct (weather_feed (x_weathers g) (get (put c2 x))) as (c3 & l3 & F3 & B3 & V3).
  { eapply Forall_impl; [|exact Hx]. intros w K. apply K. }
  { rewrite L2, W2. cbn. lia. }
  apply wlift_feed in F3.
  match goal with |- context [parse_groups hs (_ ++ ?r) i2 [] _] =>
    destruct (phase_f _ hs _ _ _ _ _ F3 (match x_vis g with Some _ => pw + 2 | None => lo end) 3 (pw + 2) i2 r) as (i3 & I3 & _ & P3) end.
  { destruct (x_vis g); [|lia]. assert (pw + 1 < i2) by (apply J2; discriminate). lia. } { rewrite map_length; lia. } { exact N3. }
  { apply (map_Forall _ _ _ _ _ Hx). intros w [K1 K2]. split; [exact K2|].
    destruct (weather_captures w K1) as (m & Em & _). exact (some_not_none _ _ _ Em). }
  rewrite P3. clear P3 F3. rewrite L2, W2 in B3. rewrite L3.
  (* clouds *)
  assert (W3 : c_clouds c3 = cloudlist_new).
  { change (c_clouds (mute c3) = cloudlist_new). rewrite B3. cbn [c_clouds].
    change (c_clouds (mute c2) = cloudlist_new). rewrite B2. cbn [c_clouds].
    change (c_clouds (mute c1) = cloudlist_new). rewrite B1. exact C4. }
  destruct (cloud_feed (x_clouds g) (get (put c3 x))) as (c4 & l4 & F4 & B4 & V4).
  { eapply Forall_impl; [|exact Hc]. intros w K. apply K. }
  { rewrite L2, W3. cbn. lia. }
  apply wlift_feed in F4.
  match goal with |- context [parse_groups hs (_ ++ ?r) i3 [] _] =>
    destruct (phase_f _ hs _ _ _ _ _ F4 lo 4 (pw + 5) i3 r) as (i4 & I4 & _ & P4) end.
  { lia. } { rewrite map_length; lia. } { exact N4. }
  { apply (map_Forall _ _ _ _ _ Hc). intros w [K1 K2]. split; [exact K2|].
    destruct (cloud_captures w K1) as (m & Em & _). exact (some_not_none _ _ _ Em). }
  rewrite P4. clear P4 F4. rewrite L2, W3 in B4. rewrite L3.
  exists i4, c4. split; [lia|]. split; [|reflexivity].
  assert (E1 : c_wind c4 = c_wind c1).
  { change (c_wind (mute c4) = c_wind c1). rewrite B4. cbn [c_wind]. change (c_wind (mute c3) = c_wind c1). rewrite B3. cbn [c_wind].
    change (c_wind (mute c2) = c_wind c1). rewrite B2. reflexivity. }
  assert (E2 : c_vis c4 = c_vis c2).
  { change (c_vis (mute c4) = c_vis c2). rewrite B4. cbn [c_vis]. change (c_vis (mute c3) = c_vis c2). rewrite B3. reflexivity. }
  assert (E3 : gl_list (c_weathers c4) = l3).
  { change (gl_list (c_weathers (mute c4)) = l3). rewrite B4. cbn [c_weathers].
    change (gl_list (c_weathers (mute c3)) = l3). rewrite B3. reflexivity. }
  assert (E4 : gl_list (c_clouds c4) = l4) by (change (gl_list (c_clouds (mute c4)) = l4); rewrite B4; reflexivity).
  unfold wx_holds. rewrite E1, E2, E3, E4. conjs.
  - exact (holds_no _ _ _ _ _ _ _ V1 C1).
  - apply (holds_no _ _ _ _ (c_vis c1) _ _ V2). change (no_vis (c_vis (mute c1))). rewrite B1. exact C2.
  - exact V3.
  - exact V4.
Qed.
End Wx.
