(** * What the handlers of one kind of group do to the report *)
From Coq Require Import String Ascii.
From Coq Require Import List NArith ZArith Bool Lia QArith.
From Verif Require Import PyBase PyRegex AeroRegex PyFloat PyTime Base MetarGroups Trend Metar SpecNum SpecGroups SpecTime
  SpecText SpecWords SpecMetar ProofGroups ProofGroups2 ProofValues ProofValues2 ProofValues3 ProofTime Dispatch.
Import ListNotations.
Local Open Scope string_scope.
Local Open Scope nat_scope.
Local Open Scope list_scope.

(** ** The common part: wind, visibility, weather, clouds *)

(** Handlers that act on a part of the state. *)
Lemma feed_lens : forall (S : Type) (get : S -> common) (put : common -> S -> S) r f,
  (forall x, put (get x) x = x) -> (forall c x, get (put c x) = c) ->
  (forall c c' x, put c (put c' x) = put c x) ->
  forall gs x, feed r (fun m y => c <- f m (get y) ;; Ok (put c y)) gs x
             = (c <- feed r f gs (get x) ;; Ok (put c x)).
Proof.
  intros S get put r f H1 H2 H3. induction gs as [|g gs IH]; intro x; cbn [feed].
  - cbn [bind]. rewrite H1. reflexivity.
  - destruct (re_match r g) as [m|]; [|apply IH].
    destruct (f m (get x)) as [c|k]; [|reflexivity]. cbn [bind]. rewrite IH, H2.
    destruct (feed r f gs c) as [c'|k]; [|reflexivity]. cbn [bind]. rewrite H3. reflexivity.
Qed.

(** Without the text buffer. *)
Definition mute (c : common) : common := set_string [] c.

Definition wind_decodes (r : regex) : Prop := forall g, wind_wf g ->
  exists m w, re_match r (wind_code g) = Some m /\ metar_wind_new (Some m) = Ok w /\ wind_is g w.
Lemma r_WIND_decodes : wind_decodes r_WIND.
Proof.
  intros g H. destruct (wg_units g) eqn:U.
  - destruct (wind_kt g H U) as (w & E & H1 & H2 & H3 & H4 & H5).
    destruct (wind_captures g H) as (m & Em & _). rewrite Em in E. exists m, w.
    split; [exact Em|]. split; [exact E|]. unfold wind_is. rewrite U. auto.
  - destruct (wind_mps g H U) as (w & E & H1 & H2 & H3 & H4 & H5 & H6 & H7).
    destruct (wind_captures g H) as (m & Em & _). rewrite Em in E. exists m, w.
    split; [exact Em|]. split; [exact E|]. unfold wind_is. rewrite U. auto 10.
Qed.

Lemma wind_feed : forall r o c, wind_decodes r -> opt_all wind_wf o ->
  exists c', feed r handle_wind (of_option wind_code o) c = Ok c'
    /\ mute c' = mk_common [] (c_wind c') (c_vis c) (c_weathers c) (c_clouds c)
    /\ holds wind_is (eq (c_wind c)) o (c_wind c').
Proof.
  intros r [g|] c Hr H; cbn [of_option feed opt_all] in *.
  - destruct (Hr g H) as (m & w & Em & E & Hw). rewrite Em. unfold handle_wind. rewrite E. cbn [bind].
    eexists. split; [reflexivity|]. split; [reflexivity|]. exact Hw.
  - exists c. split; [reflexivity|]. split; [destruct c; reflexivity|reflexivity].
Qed.

Definition vis_decodes (r : regex) : Prop := forall g, vis_wf g ->
  exists m v, re_match r (vis_code g) = Some m /\ prevailing_new (Some m) = Ok v /\ vis_is g v.
Lemma r_VISIBILITY_decodes : vis_decodes r_VISIBILITY.
Proof.
  intros g H. destruct (prevailing_ok g H) as (v & E & Hv). destruct (vis_captures g H) as (m & Em & _).
  rewrite Em in E. exists m, v. split; [exact Em|]. split; [exact E|exact Hv].
Qed.
Lemma vis_feed : forall r o c, vis_decodes r -> opt_all vis_wf o ->
  exists c', feed r handle_prevailing (of_option vis_code o) c = Ok c'
    /\ mute c' = mk_common [] (c_wind c) (c_vis c') (c_weathers c) (c_clouds c)
    /\ holds vis_is (eq (c_vis c)) o (c_vis c').
Proof.
  intros r [g|] c Hr H; cbn [of_option feed opt_all] in *.
  - destruct (Hr g H) as (m & w & Em & E & Hw). rewrite Em. unfold handle_prevailing. rewrite E. cbn [bind].
    eexists. split; [reflexivity|]. split; [reflexivity|]. exact Hw.
  - exists c. split; [reflexivity|]. split; [destruct c; reflexivity|reflexivity].
Qed.

(** A list with room. *)
Lemma gl_add_ok : forall A (x : A) g, length (gl_list g) < gl_max g ->
  gl_add x g = Ok (mk_gl (gl_n g) (gl_max g) (gl_list g ++ [x])).
Proof. intros A x g H. unfold gl_add. rewrite (proj2 (Nat.leb_gt _ _) H). reflexivity. Qed.

Lemma weather_feed : forall gs c, Forall weather_wf gs ->
  length (gl_list (c_weathers c)) + length gs <= gl_max (c_weathers c) ->
  exists c' l, feed r_WEATHER handle_weather (map weather_code gs) c = Ok c'
    /\ mute c' = mk_common [] (c_wind c) (c_vis c)
                   (mk_gl (gl_n (c_weathers c)) (gl_max (c_weathers c)) (gl_list (c_weathers c) ++ l)) (c_clouds c)
    /\ Forall2 weather_is gs l.
Proof.
  induction gs as [|g gs IH]; intros c H Hl; cbn [map feed].
  - exists c, []. split; [reflexivity|]. split; [|constructor]. rewrite app_nil_r.
    destruct c as [s w v [n mx l] cl]. reflexivity.
  - apply Forall_cons_iff in H. destruct H as [Hg H]. cbn [length] in Hl.
    destruct (weather_captures g Hg) as (m & Em & _). pose proof (weather_ok g Hg) as Hw. cbv zeta in Hw.
    rewrite Em in *. unfold handle_weather at 1. rewrite gl_add_ok by lia. cbn [bind].
    match goal with |- context [feed r_WEATHER handle_weather (map weather_code gs) ?d] =>
      destruct (IH d H) as (c' & l & E1 & E2 & E3) end.
    { cbn [c_weathers gl_list gl_max]. rewrite app_length. cbn [length]. lia. }
    cbn [c_wind c_vis c_clouds c_weathers gl_list gl_max gl_n] in E2.
    exists c', (weather_new (Some m) :: l). split; [exact E1|]. split.
    + rewrite E2, <- app_assoc. reflexivity.
    + constructor; [exact Hw|exact E3].
Qed.

Lemma cloud_feed : forall gs c, Forall cloud_wf gs ->
  length (gl_list (c_clouds c)) + length gs <= gl_max (c_clouds c) ->
  exists c' l, feed r_CLOUD handle_cloud (map cloud_code gs) c = Ok c'
    /\ mute c' = mk_common [] (c_wind c) (c_vis c) (c_weathers c)
                   (mk_gl (gl_n (c_clouds c)) (gl_max (c_clouds c)) (gl_list (c_clouds c) ++ l))
    /\ Forall2 cloud_is gs l.
Proof.
  induction gs as [|g gs IH]; intros c H Hl; cbn [map feed].
  - exists c, []. split; [reflexivity|]. split; [|constructor]. rewrite app_nil_r.
    destruct c as [s w v wl [n mx l]]. reflexivity.
  - apply Forall_cons_iff in H. destruct H as [Hg H]. cbn [length] in Hl.
    destruct (cloud_captures g Hg) as (m & Em & _). destruct (cloud_ok g Hg) as (v & E & Hv).
    rewrite Em in *. unfold handle_cloud at 1. rewrite E. cbn [bind]. rewrite gl_add_ok by lia. cbn [bind].
    match goal with |- context [feed r_CLOUD handle_cloud (map cloud_code gs) ?d] =>
      destruct (IH d H) as (c' & l & E1 & E2 & E3) end.
    { cbn [c_clouds gl_list gl_max]. rewrite app_length. cbn [length]. lia. }
    cbn [c_wind c_vis c_clouds c_weathers gl_list gl_max gl_n] in E2.
    exists c', (v :: l). split; [exact E1|]. split.
    + rewrite E2, <- app_assoc. reflexivity.
    + constructor; [exact Hv|exact E3].
Qed.

(** ** The METAR *)

Definition bare (x : metar) : metar := upd_common (mute (me_common x)) x.

Lemma lift_feed : forall r f gs x,
  feed r (lift f) gs x = (c <- feed r f gs (me_common x) ;; Ok (upd_common c x)).
Proof.
  intros r f. apply (feed_lens metar me_common upd_common r f).
  - intros []; reflexivity.
  - reflexivity.
  - reflexivity.
Qed.

Lemma modifier_feed : forall o x, opt_all (fun w => In w modifiers) o ->
  exists x' v, feed r_MODIFIER handle_modifier (of_option code_of o) x = Ok x'
    /\ bare x' = upd_modifier v (bare x) /\ holds modifier_is (eq (me_modifier x)) o v.
Proof.
  intros [w|] x H; cbn [of_option feed opt_all] in *.
  - assert (E : exists m, re_match r_MODIFIER (code_of w) = Some m /\ m_string m = code_of w
                /\ modifier_is w (modifier_new (Some (code_of w)))).
    { cbn in H. repeat (destruct H as [<-|H]; [eexists; split; [vm_compute; reflexivity|split; vm_compute; auto]|]).
      destruct H. }
    destruct E as (m & Em & Es & Hm). rewrite Em. unfold handle_modifier. rewrite Es. cbn [bind].
    eexists _, _. split; [reflexivity|]. split; [reflexivity|]. exact Hm.
  - exists x, (me_modifier x). split; [reflexivity|]. split; [destruct x; reflexivity|reflexivity].
Qed.

Lemma wvar_feed : forall o x, opt_all wvar_wf o ->
  exists x' v, feed r_WIND_VARIATION handle_wind_variation (of_option wvar_code o) x = Ok x'
    /\ bare x' = upd_wvar v (bare x) /\ holds wvar_is (eq (me_wvar x)) o v.
Proof.
  intros [g|] x H; cbn [of_option feed opt_all] in *.
  - destruct (wvar_ok g H) as (v & E & Hv). destruct (wvar_captures g H) as (m & Em & _). rewrite Em in *.
    unfold handle_wind_variation. rewrite E. cbn [bind]. eexists _, v. split; [reflexivity|]. split; [reflexivity|exact Hv].
  - exists x, (me_wvar x). split; [reflexivity|]. split; [destruct x; reflexivity|reflexivity].
Qed.

Lemma minvis_feed : forall o x, opt_all (fun g => vis_wf g /\ min_vis g) o ->
  exists x' v, feed r_MINIMUM_VISIBILITY handle_minimum_visibility (of_option vis_code o) x = Ok x'
    /\ bare x' = upd_minvis v (bare x) /\ holds vis_is (eq (me_minvis x)) o v.
Proof.
  intros [g|] x H; cbn [of_option feed opt_all] in *.
  - destruct H as [H Hm]. destruct (minimum_ok g H Hm) as (v & E & H1 & H2 & H3 & H4 & H5).
    destruct (minvis_captures g H Hm) as (m & Em & _). rewrite Em in *.
    unfold handle_minimum_visibility. rewrite E. cbn [bind]. eexists _, v. split; [reflexivity|]. split; [reflexivity|].
    cbn [holds]. unfold vis_is. destruct g as [n d|d| |l i f|l two n]; try destruct Hm; auto.
  - exists x, (me_minvis x). split; [reflexivity|]. split; [destruct x; reflexivity|reflexivity].
Qed.

Lemma rvr_feed : forall gs x, Forall rvr_wf gs ->
  length (gl_list (me_rvr x)) + length gs <= gl_max (me_rvr x) ->
  exists x' l, feed r_RUNWAY_RANGE handle_runway_range (map rvr_code gs) x = Ok x'
    /\ bare x' = upd_rvr (mk_gl (gl_n (me_rvr x)) (gl_max (me_rvr x)) (gl_list (me_rvr x) ++ l)) (bare x)
    /\ Forall2 rvr_is gs l.
Proof.
  induction gs as [|g gs IH]; intros x H Hl; cbn [map feed].
  - exists x, []. split; [reflexivity|]. split; [|constructor]. rewrite app_nil_r.
    destruct x as [x1 x2 x3 x4 x5 x6 x7 x8 x9 x10 [n mx l] x12 x13 x14 x15 x16 x17 x18 x19]. reflexivity.
  - apply Forall_cons_iff in H. destruct H as [Hg H]. cbn [length] in Hl.
    destruct (rvr_captures g Hg) as (m & Em & _). destruct (rvr_ok g Hg) as (v & E & Hv).
    rewrite Em in *. unfold handle_runway_range at 1. rewrite E. cbn [bind]. rewrite gl_add_ok by lia. cbn [bind].
    match goal with |- context [feed r_RUNWAY_RANGE handle_runway_range (map rvr_code gs) ?d] =>
      destruct (IH d H) as (x' & l & E1 & E2 & E3) end.
    { cbn [out_string upd_common upd_rvr me_rvr gl_list gl_max]. rewrite app_length. cbn [length]. lia. }
    cbn [out_string upd_common upd_rvr me_rvr gl_list gl_max gl_n] in E2.
    exists x', (v :: l). split; [exact E1|]. split.
    + rewrite E2, <- app_assoc. reflexivity.
    + constructor; [exact Hv|exact E3].
Qed.

Lemma temps_feed : forall o x, opt_all temps_wf o ->
  exists x' v, feed r_TEMPERATURES handle_temperatures (of_option temps_code o) x = Ok x'
    /\ bare x' = upd_temps v (bare x) /\ holds temps_is (eq (me_temps x)) o v.
Proof.
  intros [g|] x H; cbn [of_option feed opt_all] in *.
  - destruct (temps_ok g H) as (v & E & Hv). destruct (temps_captures g H) as (m & Em & _). rewrite Em in *.
    unfold handle_temperatures. rewrite E. cbn [bind]. eexists _, v. split; [reflexivity|]. split; [reflexivity|exact Hv].
  - exists x, (me_temps x). split; [reflexivity|]. split; [destruct x; reflexivity|reflexivity].
Qed.

Lemma press_ok : forall g, press_wf g -> press_unit g ->
  exists m v, re_match r_PRESSURE (press_code g) = Some m /\ metar_pressure_new (Some m) = Ok v /\ press_is g v.
Proof.
  intros g H Hu. destruct (press_captures g) as (m & Em & _). exists m. unfold press_is.
  destruct (in_inches g) eqn:I.
  - assert (K : pg_prefix g = PfA \/ pg_ins g = true).
    { unfold in_inches in I. destruct (pg_prefix g); auto. }
    destruct (press_A_ok g H K) as (p & E & E1 & E2). rewrite Em in E. exists p. auto.
  - assert (K : (pg_prefix g = PfQ \/ pg_prefix g = PfQNH) /\ pg_ins g = false).
    { unfold in_inches in I. destruct Hu as [Hu|Hu]; destruct (pg_prefix g); try discriminate; try congruence; auto. }
    destruct K as [K1 K2]. destruct (press_Q_ok g H K1 K2) as (p & E & E1 & E2). rewrite Em in E. exists p. auto.
Qed.

Lemma press_feed : forall gs x, Forall (fun g => press_wf g /\ press_unit g) gs ->
  exists x' v, feed r_PRESSURE handle_pressure (map press_code gs) x = Ok x'
    /\ bare x' = upd_press v (bare x) /\ holds press_is (eq (me_press x)) (last_of gs) v.
Proof.
  assert (A : forall (gs : list press_g) a b, last_of (a :: b :: gs) = last_of (b :: gs)) by reflexivity.
  intros gs x H. destruct gs as [|g gs]; cbn [map feed].
  - exists x, (me_press x). split; [reflexivity|]. split; [destruct x; reflexivity|reflexivity].
  - revert g x H. induction gs as [|g2 gs IH]; intros g x H;
      apply Forall_cons_iff in H; destruct H as [[Hg Hu] H];
      destruct (press_ok g Hg Hu) as (m & v & Em & E & Hv); rewrite Em; unfold handle_pressure at 1; rewrite E; cbn [bind].
    + eexists _, v. split; [reflexivity|]. split; [reflexivity|exact Hv].
    + rewrite A. cbn [map feed].
      match goal with |- context [feed r_PRESSURE handle_pressure (map press_code gs)] =>
        match goal with |- context [handle_pressure _ ?d] =>
          destruct (IH g2 d H) as (x' & w & E1 & E2 & E3) end end.
      exists x', w. split; [exact E1|]. split; [rewrite E2; reflexivity|].
      assert (S : exists z, last_of (g2 :: gs) = Some z).
      { clear. change (exists z, fold_left (fun _ (x : press_g) => Some x) gs (Some g2) = Some z).
        revert g2. induction gs as [|g gs IH]; intro g2; [exists g2; reflexivity|]. apply IH. }
      destruct S as [z S]. rewrite S in *. exact E3.
Qed.

Lemma recent_feed : forall o x, opt_all recent_wf o ->
  exists x' v, feed r_RECENT_WEATHER handle_recent_weather (of_option recent_code o) x = Ok x'
    /\ bare x' = upd_recent v (bare x) /\ holds recent_is (eq (me_recent x)) o v.
Proof.
  intros [g|] x H; cbn [of_option feed opt_all] in *.
  - pose proof (recent_ok g H) as Hv. cbv zeta in Hv. destruct (recent_captures g H) as (m & Em & _). rewrite Em in *.
    unfold handle_recent_weather. cbn [bind]. eexists _, _. split; [reflexivity|]. split; [reflexivity|exact Hv].
  - exists x, (me_recent x). split; [reflexivity|]. split; [destruct x; reflexivity|reflexivity].
Qed.

Lemma ws_feed : forall gs x, Forall ws_wf gs ->
  length (gl_list (me_ws x)) + length gs <= gl_max (me_ws x) ->
  exists x' l, feed r_WINDSHEAR handle_windshear (map ws_token gs) x = Ok x'
    /\ bare x' = upd_ws (mk_gl (gl_n (me_ws x)) (gl_max (me_ws x)) (gl_list (me_ws x) ++ l)) (bare x)
    /\ Forall2 ws_is gs l.
Proof.
  induction gs as [|g gs IH]; intros x H Hl; cbn [map feed].
  - exists x, []. split; [reflexivity|]. split; [|constructor]. rewrite app_nil_r.
    destruct x as [x1 x2 x3 x4 x5 x6 x7 x8 x9 x10 x11 x12 x13 x14 [n mx l] x16 x17 x18 x19]. reflexivity.
  - apply Forall_cons_iff in H. destruct H as [Hg H]. cbn [length] in Hl.
    destruct (ws_captures g Hg) as (m & Em & _). pose proof (ws_ok g Hg) as Hv. cbv zeta in Hv.
    rewrite Em in *. unfold handle_windshear at 1. rewrite gl_add_ok by lia. cbn [bind].
    match goal with |- context [feed r_WINDSHEAR handle_windshear (map ws_token gs) ?d] =>
      destruct (IH d H) as (x' & l & E1 & E2 & E3) end.
    { cbn [out_string upd_common upd_ws me_ws gl_list gl_max]. rewrite app_length. cbn [length]. lia. }
    cbn [out_string upd_common upd_ws me_ws gl_list gl_max gl_n] in E2.
    exists x', (windshear_new (Some m) :: l). split; [exact E1|]. split.
    + rewrite E2, <- app_assoc. reflexivity.
    + constructor; [exact Hv|exact E3].
Qed.

Lemma sea_feed : forall o x, opt_all sea_wf o ->
  exists x' v, feed r_SEA_STATE handle_sea_state (of_option sea_code o) x = Ok x'
    /\ bare x' = upd_sea v (bare x) /\ holds sea_is (eq (me_sea x)) o v.
Proof.
  intros [g|] x H; cbn [of_option feed opt_all] in *.
  - destruct (sea_ok g H) as (v & E & Hv). destruct (sea_captures g H) as (m & Em & _). rewrite Em in *.
    unfold handle_sea_state. rewrite E. cbn [bind]. eexists _, v. split; [reflexivity|]. split; [reflexivity|exact Hv].
  - exists x, (me_sea x). split; [reflexivity|]. split; [destruct x; reflexivity|reflexivity].
Qed.

Lemma rs_feed : forall o x, opt_all rs_wf o ->
  exists x' v, feed r_RUNWAY_STATE handle_runway_state (of_option rs_code_of o) x = Ok x'
    /\ bare x' = upd_rwy v (bare x) /\ holds rs_is (eq (me_rwy x)) o v.
Proof.
  intros [g|] x H; cbn [of_option feed opt_all] in *.
  - pose proof (rs_ok g H) as Hv. cbv zeta in Hv. destruct (rs_captures g H) as (m & Em & _). rewrite Em in *.
    unfold handle_runway_state. cbn [bind]. eexists _, _. split; [reflexivity|]. split; [reflexivity|exact Hv].
  - exists x, (me_rwy x). split; [reflexivity|]. split; [destruct x; reflexivity|reflexivity].
Qed.
