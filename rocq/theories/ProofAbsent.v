(** * Absent groups are empty; dictionaries carry the code (C51, C52) *)
From Coq Require Import String Ascii.
From Coq Require Import List NArith ZArith Bool Lia.
From Verif Require Import PyBase PyRegex AeroRegex PyFloat PyTime Utils Base MetarGroups Trend Metar Taf AsDict
  SpecAbsent ProofProb OutMetar.
Import ListNotations.
Local Open Scope string_scope.
Local Open Scope nat_scope.
Local Open Scope list_scope.

Ltac empties := unfold no_distance, no_pressure, no_temperature, no_speed, no_dir; repeat match goal with |- _ /\ _ => split end; try reflexivity; vm_compute; reflexivity.

Lemma no_distance_none : no_distance None. Proof. unfold no_distance. empties. Qed.
Lemma no_pressure_none : no_pressure None. Proof. unfold no_pressure. empties. Qed.
Lemma no_temperature_none : no_temperature None. Proof. unfold no_temperature. empties. Qed.
Lemma no_speed_none : no_speed None. Proof. unfold no_speed. empties. Qed.
Lemma no_dir_none : no_dir (mk_dir None false). Proof. unfold no_dir. empties. Qed.

Lemma wind_none : exists w, metar_wind_new None = Ok w /\ wind_absent w.
Proof. eexists. split; [vm_compute; reflexivity|]. unfold wind_absent, blank. empties. Qed.
Lemma wvar_none : exists w, wind_variation_new None = Ok w /\ wvar_absent w.
Proof. eexists. split; [vm_compute; reflexivity|]. unfold wvar_absent, blank. empties. Qed.
Lemma prevailing_none : exists w, prevailing_new None = Ok w /\ vis_absent w.
Proof. eexists. split; [vm_compute; reflexivity|]. unfold vis_absent, blank. empties. Qed.
Lemma minimum_none : exists w, minimum_visibility_new None = Ok w /\ vis_absent w.
Proof. eexists. split; [vm_compute; reflexivity|]. unfold vis_absent, blank. empties. Qed.
Lemma rvr_none : exists w, runway_range_new None = Ok w /\ rvr_absent w.
Proof. eexists. split; [vm_compute; reflexivity|]. unfold rvr_absent, blank. empties. Qed.
Lemma temps_none : exists w, temperatures_new None = Ok w /\ temps_absent w.
Proof. eexists. split; [vm_compute; reflexivity|]. unfold temps_absent, blank. empties. Qed.
Lemma press_none : exists w, metar_pressure_new None = Ok w /\ press_absent w.
Proof. eexists. split; [vm_compute; reflexivity|]. unfold press_absent, blank. empties. Qed.
Lemma sea_none : exists w, sea_state_new None = Ok w /\ sea_absent w.
Proof. eexists. split; [vm_compute; reflexivity|]. unfold sea_absent, blank. empties. Qed.
Lemma weather_none : weather_absent (weather_new None). Proof. unfold weather_absent, blank. empties. Qed.
Lemma recent_none : recent_absent (recent_weather_new None). Proof. unfold recent_absent, blank. empties. Qed.
Lemma ws_none : ws_absent (windshear_new None). Proof. unfold ws_absent, blank. empties. Qed.
Lemma rs_none : rs_absent (runway_state_new None). Proof. unfold rs_absent, blank. empties. Qed.
Lemma modifier_none : modifier_absent (modifier_new None). Proof. unfold modifier_absent, blank. empties. Qed.
Lemma missing_none : missing_absent (missing_new None). Proof. unfold missing_absent, modifier_absent, blank. empties. Qed.
Lemma cancelled_none : cancelled_absent (cancelled_new None). Proof. unfold cancelled_absent, blank. empties. Qed.
Lemma station_none : forall e, station_absent e (station_new e None).
Proof. intro e. unfold station_absent. repeat match goal with |- _ /\ _ => split end; reflexivity. Qed.

(** ** Inside a report

    A field either still has the value the constructor gave it, or its code
    is some text. *)

Lemma kept_some : forall A (code : A -> option str) absent v c, code v = Some c -> kept code absent v.
Proof. intros A code absent v c E K. congruence. Qed.

Lemma wind_some : forall m w, metar_wind_new (Some m) = Ok w -> exists c, w_code w = Some c.
Proof.
  intros m w E. unfold metar_wind_new in E. destruct (speed_new None); [|discriminate]. cbn [bind] in E. cbv zeta in E.
  destruct (direction_new (group m "dir")); [|discriminate]. cbn [bind] in E.
  destruct (speed_new _); [|discriminate]. cbn [bind] in E. destruct (speed_new _); [|discriminate]. cbn [bind] in E.
  assert (K := f_equal (fun r => match r with Ok x => w_code x | Raise _ => None end) E). cbn [w_code] in K.
  rewrite <- K. eexists. reflexivity.
Qed.
Ltac binds E := repeat (match type of E with bind ?r _ = _ => destruct r; [cbn [bind] in E; cbv zeta in E|discriminate E] end).
Ltac somes acc E := binds E;
  match type of E with Ok ?a = Ok ?b => let K := fresh "K" in assert (K : a = b) by congruence; rewrite <- K; cbn; eexists; reflexivity end.

Lemma prevailing_some : forall m v, prevailing_new (Some m) = Ok v -> exists c, v_code v = Some c.
Proof.
  intros m v E. unfold prevailing_new in E. cbv zeta in E. binds E. destruct (truthy (group m "cavok")); somes v_code E.
Qed.
Lemma minimum_some : forall m v, minimum_visibility_new (Some m) = Ok v -> exists c, v_code v = Some c.
Proof. intros m v E. unfold minimum_visibility_new in E. cbv zeta in E. somes v_code E. Qed.
Lemma wvar_some : forall m v, wind_variation_new (Some m) = Ok v -> exists c, wv_code v = Some c.
Proof. intros m v E. unfold wind_variation_new in E. somes wv_code E. Qed.
Lemma temps_some : forall m v, temperatures_new (Some m) = Ok v -> exists c, te_code v = Some c.
Proof. intros m v E. unfold temperatures_new in E. somes te_code E. Qed.
Lemma press_some : forall m v, metar_pressure_new (Some m) = Ok v -> exists c, pr_code v = Some c.
Proof.
  intros m v E. unfold metar_pressure_new in E. cbv zeta in E. destruct (group m "press") as [p|]; [|discriminate].
  destruct (str_eqb p (py "////")); somes pr_code E.
Qed.
Lemma sea_some : forall m v, sea_state_new (Some m) = Ok v -> exists c, se_code v = Some c.
Proof. intros m v E. unfold sea_state_new in E. somes se_code E. Qed.

Lemma common_wind : forall m c c', handle_wind m c = Ok c' -> common_kept c -> common_kept c'.
Proof.
  intros m c c' E [A B]. unfold handle_wind in E. destruct (metar_wind_new (Some m)) as [w|] eqn:W; [|discriminate].
  cbn [bind] in E. apply wind_some in W. destruct W as (k & W).
  assert (K : c' = mk_common (concat_string (c_string c) (metar_wind_str w)) w (c_vis c) (c_weathers c) (c_clouds c)) by congruence.
  rewrite K. split; [exact (kept_some _ _ _ _ _ W)|exact B].
Qed.
Lemma common_prevailing : forall m c c', handle_prevailing m c = Ok c' -> common_kept c -> common_kept c'.
Proof.
  intros m c c' E [A B]. unfold handle_prevailing in E. destruct (prevailing_new (Some m)) as [w|] eqn:W; [|discriminate].
  cbn [bind] in E. apply prevailing_some in W. destruct W as (k & W).
  assert (K : c' = mk_common (concat_string (c_string c) (prevailing_str w)) (c_wind c) w (c_weathers c) (c_clouds c)) by congruence.
  rewrite K. split; [exact A|exact (kept_some _ _ _ _ _ W)].
Qed.
Lemma common_weather : forall m c c', handle_weather m c = Ok c' -> common_kept c -> common_kept c'.
Proof.
  intros m c c' E H. unfold handle_weather in E. cbv zeta in E. destruct (gl_add _ _) as [l|]; [|discriminate]. cbn [bind] in E.
  assert (K : c_wind c' = c_wind c /\ c_vis c' = c_vis c) by (inversion E; split; reflexivity).
  unfold common_kept. destruct K as [-> ->]. exact H.
Qed.
Lemma common_cloud : forall m c c', handle_cloud m c = Ok c' -> common_kept c -> common_kept c'.
Proof.
  intros m c c' E H. unfold handle_cloud in E. destruct (cloud_from_metar _); [|discriminate]. cbn [bind] in E.
  destruct (gl_add _ _) as [l|]; [|discriminate]. cbn [bind] in E.
  assert (K : c_wind c' = c_wind c /\ c_vis c' = c_vis c) by (inversion E; split; reflexivity).
  unfold common_kept. destruct K as [-> ->]. exact H.
Qed.
Lemma common_new_kept : forall b c, common_new b = Ok c -> common_kept c.
Proof.
  intros b c E. unfold common_new in E. destruct wind_none as (w & Ew & Aw). destruct prevailing_none as (v & Ev & Av).
  rewrite Ew, Ev in E. cbn [bind] in E.
  assert (K : c = mk_common b w v (gl_new 3) cloudlist_new) by congruence. rewrite K.
  split; intros _; [exact Aw|exact Av].
Qed.

(** *** METAR *)

Ltac some_field W E X :=
  let k := fresh "k" in destruct W as (k & W); cbn [bind] in E; cbv zeta in E;
  let K := fresh "K" in match type of E with Ok ?a = Ok X => assert (K : X = a) by congruence end; rewrite K; clear K;
  unfold metar_kept in *; cbn; intuition (eauto using kept_some).

Lemma metar_step : forall e y mo h m x x', In h (metar_handlers e y mo) -> h_handle h m x = Ok x' -> metar_kept e x -> metar_kept e x'.
Proof.
  intros e y mo h m x x' I E H. unfold metar_handlers in I. cbn [In] in I.
  assert (L : forall f, (forall c c', f m c = Ok c' -> common_kept c -> common_kept c') -> lift f m x = Ok x' -> metar_kept e x').
  { intros f Hf Ef. unfold lift in Ef. destruct (f m (me_common x)) as [c|] eqn:Ec; [|discriminate]. cbn [bind] in Ef.
    assert (K : x' = upd_common c x) by congruence. rewrite K. destruct H as [H1 H2]. split; [exact (Hf _ _ Ec H1)|exact H2]. }
  assert (Same : forall s x1, x' = out_string s x1 -> metar_kept e x1 -> metar_kept e x').
  { intros s x1 -> K. exact K. }
  destruct H as (H0 & H1 & H2 & H3 & H4 & H5 & H6 & H7 & H8 & H9).
  repeat (destruct I as [<-|I]; [cbn [h_handle] in E|]); try contradiction;
    try (apply (L _ (common_wind m) E)); try (apply (L _ (common_prevailing m) E));
    try (apply (L _ (common_weather m) E)); try (apply (L _ (common_cloud m) E)).
  { unfold handle_type in E. cbv zeta in E. eapply Same; [symmetry; injection E as E; exact E|]. unfold metar_kept. cbn. auto 12. }
  { unfold handle_station in E. cbv zeta in E. eapply Same; [symmetry; injection E as E; exact E|]. unfold metar_kept. cbn.
    repeat (split; [first [assumption|intro K; discriminate K]|]). assumption. }
  { unfold handle_time in E. destruct (time_from_metar e (Some m) y mo); [|discriminate]. cbn [bind] in E.
    eapply Same; [symmetry; injection E as E; exact E|]. unfold metar_kept. cbn. auto 12. }
  { unfold handle_modifier in E. cbv zeta in E. eapply Same; [symmetry; injection E as E; exact E|]. unfold metar_kept. cbn.
    repeat (split; [first [assumption|intro K; discriminate K]|]). assumption. }
  { unfold handle_wind_variation in E. destruct (wind_variation_new (Some m)) as [v|] eqn:W; [|discriminate]. cbn [bind] in E.
    apply wvar_some in W. destruct W as (k & W). eapply Same; [symmetry; injection E as E; exact E|]. unfold metar_kept. cbn.
    repeat (split; [first [assumption|exact (kept_some _ _ _ _ _ W)]|]). assumption. }
  { unfold handle_minimum_visibility in E. destruct (minimum_visibility_new (Some m)) as [v|] eqn:W; [|discriminate]. cbn [bind] in E.
    apply minimum_some in W. destruct W as (k & W). eapply Same; [symmetry; injection E as E; exact E|]. unfold metar_kept. cbn.
    repeat (split; [first [assumption|exact (kept_some _ _ _ _ _ W)]|]). assumption. }
  all: try (unfold handle_runway_range in E; destruct (runway_range_new (Some m)); [|discriminate]; cbn [bind] in E;
    destruct (gl_add _ _); [|discriminate]; cbn [bind] in E;
    eapply Same; [symmetry; injection E as E; exact E|]; unfold metar_kept; cbn; auto 12; fail).
  all: try (unfold handle_windshear in E; cbv zeta in E;
    destruct (gl_add _ _); [|discriminate]; cbn [bind] in E;
    eapply Same; [symmetry; injection E as E; exact E|]; unfold metar_kept; cbn; auto 12; fail).
  all: try (unfold handle_temperatures in E; destruct (temperatures_new (Some m)) as [v|] eqn:W; [|discriminate]; cbn [bind] in E;
    apply temps_some in W; destruct W as (k & W); eapply Same; [symmetry; injection E as E; exact E|]; unfold metar_kept; cbn;
    repeat (split; [first [assumption|exact (kept_some _ _ _ _ _ W)]|]); assumption).
  all: try (unfold handle_pressure in E; destruct (metar_pressure_new (Some m)) as [v|] eqn:W; [|discriminate]; cbn [bind] in E;
    apply press_some in W; destruct W as (k & W); eapply Same; [symmetry; injection E as E; exact E|]; unfold metar_kept; cbn;
    repeat (split; [first [assumption|exact (kept_some _ _ _ _ _ W)]|]); assumption).
  all: try (unfold handle_sea_state in E; destruct (sea_state_new (Some m)) as [v|] eqn:W; [|discriminate]; cbn [bind] in E;
    apply sea_some in W; destruct W as (k & W); eapply Same; [symmetry; injection E as E; exact E|]; unfold metar_kept; cbn;
    repeat (split; [first [assumption|exact (kept_some _ _ _ _ _ W)]|]); assumption).
  all: try (unfold handle_recent_weather in E; cbv zeta in E; eapply Same; [symmetry; injection E as E; exact E|]; unfold metar_kept; cbn;
    repeat (split; [first [assumption|intro K; discriminate K]|]); first [assumption|intro K; discriminate K]).
  all: try (unfold handle_runway_state in E; cbv zeta in E; eapply Same; [symmetry; injection E as E; exact E|]; unfold metar_kept; cbn;
    repeat (split; [first [assumption|intro K; discriminate K]|]); first [assumption|intro K; discriminate K]).
Qed.

(** *** The trends of a METAR *)

Lemma indicator_some : forall m ct, change_indicator_new (Some m) = Ok ct -> exists c, fst ct = Some c.
Proof.
  intros m ct E. unfold change_indicator_new in E. cbv zeta in E.
  destruct (assoc (m_string m) CHANGE_TRANSLATIONS); [injection E as <-; eexists; reflexivity|].
  destruct (starts_with (py "PROB") (m_string m)); [|injection E as <-; eexists; reflexivity].
  destruct (split_on 95%N (m_string m)) as [|c0 [|c1 l]]; [discriminate| |].
  - destruct (assoc c0 CHANGE_TRANSLATIONS); discriminate.
  - destruct (assoc c0 CHANGE_TRANSLATIONS); [|discriminate]. destruct (assoc c1 CHANGE_TRANSLATIONS); [|discriminate].
    injection E as <-. eexists. reflexivity.
Qed.

Lemma trend_step : forall h m p p', In h trend_handlers -> h_handle h m p = Ok p' -> trend_kept p -> trend_kept p'.
Proof.
  intros h m p p' I E [H1 H2]. unfold trend_handlers in I. cbn [In] in I.
  assert (L : forall f, (forall c c', f m c = Ok c' -> common_kept c -> common_kept c') -> cp_lift f m p = Ok p' -> trend_kept p').
  { intros f Hf Ef. unfold cp_lift in Ef. destruct (f m (cp_common p)) as [c|] eqn:Ec; [|discriminate]. cbn [bind] in Ef.
    assert (K : p' = cp_set_common c p) by congruence. rewrite K. split; [exact (Hf _ _ Ec H1)|exact H2]. }
  assert (T : handle_time_period m p = Ok p' -> trend_kept p').
  { unfold handle_time_period, add_period. cbv zeta. intro Et.
    destruct (ti_code (cp_ind p)) as [c|]; [|discriminate].
    destruct (int_of_opt (group m "hour")); [|discriminate]. cbn [bind] in Et.
    destruct (int_of_opt (group m "min")); [|discriminate]. cbn [bind] in Et.
    destruct (period_time _ _ _); [|discriminate]. cbn [bind] in Et.
    destruct (opt_str_eqb (group m "prefix") (py "FM")); [|destruct (opt_str_eqb (group m "prefix") (py "TL"))];
      cbn [bind] in Et; injection Et as <-; (split; [exact H1|intro K; discriminate K]). }
  repeat (destruct I as [<-|I]; [cbn [h_handle] in E|]); try contradiction;
    try exact (T E); try (apply (L _ (common_wind m) E)); try (apply (L _ (common_prevailing m) E));
    try (apply (L _ (common_weather m) E)); try (apply (L _ (common_cloud m) E)).
  unfold handle_trend_indicator, trend_ind_new in E. destruct (change_indicator_new (Some m)) as [ct|] eqn:C; [|discriminate].
  cbn [bind] in E. cbv zeta in E. destruct (dt_add_hours _ _); [|discriminate]. cbn [bind] in E.
  apply indicator_some in C. destruct C as (c & C). injection E as <-. split; [exact H1|].
  intro K. cbn in K. congruence.
Qed.

Lemma trend_parsed : forall code t p, change_period_new code t = Ok p -> trend_kept p.
Proof.
  intros code t p E. unfold change_period_new in E. cbv zeta in E.
  destruct (common_new []) as [c|] eqn:C; [|discriminate]. cbn [bind] in E. apply common_new_kept in C.
  unfold trend_ind_new in E. cbn [change_indicator_new bind fst snd] in E. cbv zeta in E.
  destruct (dt_add_hours t 2) as [u|]; [|discriminate]. cbn [bind] in E.
  destruct (parse_section trend_handlers _ _) as [[q un]|] eqn:P; [|discriminate]. cbn [bind] in E. injection E as <-.
  apply (parse_section_inv _ trend_kept) in P; [exact P|intros h m q1 q2; apply trend_step|].
  split; [exact C|]. intros _. unfold trend_ind_absent, blank. cbn. auto 8.
Qed.

Lemma gl_add_forall : forall A (P : A -> Prop) x g g', gl_add x g = Ok g' -> P x -> Forall P (gl_list g) -> Forall P (gl_list g').
Proof.
  intros A P x g g' E Hx Hg. unfold gl_add in E. destruct (Nat.leb _ _); [discriminate|]. injection E as <-. cbn [gl_list].
  apply Forall_app. split; [exact Hg|]. constructor; [exact Hx|constructor].
Qed.

Lemma trends_parsed : forall e l x x', handle_trends l x = Ok x' -> metar_kept e x -> trends_kept x -> metar_kept e x' /\ trends_kept x'.
Proof.
  intros e l. induction l as [|w l IH]; intros x x' E H T; cbn [handle_trends] in E; [injection E as <-; auto|].
  destruct w as [|c w]; [exact (IH _ _ E H T)|]. unfold handle_weather_trend in E.
  destruct (change_period_new (c :: w) _) as [p|] eqn:C; [|discriminate]. cbn [bind] in E. apply trend_parsed in C.
  destruct (gl_add p (me_trends x)) as [g|] eqn:G; [|discriminate]. cbn [bind] in E.
  apply IH in E; [exact E|exact H|]. exact (gl_add_forall _ _ _ _ _ G C T).
Qed.

Lemma metar_start : forall e raw y mo x, metar_init e raw y mo = Ok x -> metar_kept e x /\ trends_kept x.
Proof.
  intros e raw y mo x E. unfold metar_init in E.
  destruct (time_new e None None None None None None); [|discriminate]. cbn [bind] in E.
  destruct (common_new []) as [c|] eqn:C; [|discriminate]. cbn [bind] in E. apply common_new_kept in C.
  destruct (time_from_metar e None y mo); [|discriminate]. cbn [bind] in E.
  destruct wvar_none as (wv & Ewv & Awv). destruct minimum_none as (mv & Emv & Amv). destruct temps_none as (te & Ete & Ate).
  destruct press_none as (pr & Epr & Apr). destruct sea_none as (se & Ese & Ase).
  rewrite Ewv, Emv, Ete, Epr, Ese in E. cbn [bind] in E. injection E as <-. split; [|constructor].
  split; [exact C|]. split; [intros _; apply station_none|]. split; [intros _; exact modifier_none|].
  split; [intros _; exact Awv|]. split; [intros _; exact Amv|]. split; [intros _; exact Ate|]. split; [intros _; exact Apr|].
  split; [intros _; exact recent_none|]. split; [intros _; exact Ase|]. intros _. exact rs_none.
Qed.

Lemma parse_groups_frame : forall S (hs : list (handler S)) sec st r, parse_section hs sec st = Ok r -> exists a b, r = (a, b).
Proof. intros S hs sec st [a b] _. exists a, b. reflexivity. Qed.

Lemma collect_list : forall A (g : grouplist A), gl_list (snd (gl_collect g)) = gl_list g.
Proof.
  intros A g. unfold gl_collect. generalize (Datatypes.S (length (gl_list g))) as n. intro n. revert g.
  induction n as [|n IH]; intro g; cbn [gl_collect_fuel]; [reflexivity|].
  unfold gl_next. destruct (Nat.leb (length (gl_list g)) (gl_n g)); [reflexivity|].
  destruct (nth_error (gl_list g) (gl_n g)); [|reflexivity].
  specialize (IH (mk_gl (Datatypes.S (gl_n g)) (gl_max g) (gl_list g))).
  destruct (gl_collect_fuel n _) as [l g2]. exact IH.
Qed.

Lemma metar_handler_trends : forall e y mo h m s s', In h (metar_handlers e y mo) -> h_handle h m s = Ok s' ->
  me_trends s' = me_trends s.
Proof.
  intros e y mo h m s s' I Eh. unfold metar_handlers in I. cbn [In] in I.
  repeat (destruct I as [<-|I]; [cbn [h_handle] in Eh|]); try contradiction;
    unfold lift, handle_type, handle_station, handle_time, handle_modifier, handle_wind_variation, handle_minimum_visibility,
      handle_runway_range, handle_temperatures, handle_pressure, handle_recent_weather, handle_windshear, handle_sea_state,
      handle_runway_state in Eh; cbv zeta in Eh; binds Eh;
    match type of Eh with Ok ?a = Ok s' => transitivity (me_trends a); [congruence|reflexivity] end.
Qed.

Lemma metar_absent : forall e code y mo tr x, metar_parse e code y mo tr = Ok x -> metar_kept e x /\ trends_kept x.
Proof.
  intros e code y mo tr x E. unfold metar_parse in E. destruct (report_raw_code code) as [raw|]; [|discriminate]. cbn [bind] in E.
  destruct (metar_init e raw y mo) as [x0|] eqn:E0; [|discriminate]. cbn [bind] in E. apply metar_start in E0.
  unfold parse_body in E. destruct (parse_section (metar_handlers e y mo) _ x0) as [[x1 un]|] eqn:E1; [|discriminate].
  cbn [bind] in E.
  assert (K : metar_kept e x1 /\ trends_kept x1).
  { apply (parse_section_inv _ (fun x => metar_kept e x /\ me_trends x = me_trends x0)) in E1.
    - destruct E1 as [K1 K2]. split; [exact K1|]. unfold trends_kept. rewrite K2. apply E0.
    - intros h m s s' I Eh [K1 K2]. split; [exact (metar_step e y mo h m s s' I Eh K1)|]. rewrite <- K2.
      exact (metar_handler_trends _ _ _ _ _ _ _ I Eh).
    - split; [apply E0|reflexivity]. }
  unfold parse_weather_trend in E. destruct (handle_trends _ _) as [x2|] eqn:E2; [|discriminate]. cbn [bind] in E.
  apply (trends_parsed e) in E2; [|exact (proj1 K)|exact (proj2 K)].
  pose proof (collect_list _ (me_trends x2)) as Cl. destruct (gl_collect (me_trends x2)) as [l g]. cbn [snd] in Cl. cbv zeta in E.
  assert (X : x = upd_unparsed (me_unparsed x2 ++ flat_map cp_unparsed l) (upd_trends g x2)).
  { destruct (me_unparsed (upd_unparsed _ _)) as [|u us] in E; [congruence|]. destruct tr; [discriminate|congruence]. }
  rewrite X. destruct E2 as [K1 K2]. split; [exact K1|]. unfold trends_kept. cbn [me_trends upd_unparsed upd_trends].
  rewrite Cl. exact K2.
Qed.
