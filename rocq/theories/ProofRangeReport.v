(** * The numbers of a report (C58) *)
From Coq Require Import String Ascii.
From Coq Require Import List NArith ZArith QArith Bool Lia.
From Verif Require Import PyBase PyRegex AeroRegex PyFloat PyTime Utils Base MetarGroups Trend Metar Taf
  ProofProb Outcomes ProofAbsent ProofAbsentTaf SpecRange ProofRange.
Import ListNotations.
Local Open Scope string_scope.
Local Open Scope nat_scope.
Local Open Scope list_scope.

(** What every handler keeps when its pattern matched the group. *)
Lemma parse_groups_keep : forall S (I : S -> Prop) (hs : list (handler S)) gs index un st st' un',
  (forall h g m st st', In h (skipn index hs) -> re_match (h_regexp h) g = Some m -> h_handle h m st = Ok st' -> I st -> I st') ->
  I st -> parse_groups hs gs index un st = Ok (st', un') -> I st'.
Proof.
  intros S I hs gs. induction gs as [|g gs IH]; intros index un st st' un' Hk Hi E; cbn [parse_groups] in E.
  - injection E as <- _. exact Hi.
  - destruct (first_match (skipn index hs) 0 g) as [[[k h] m]|] eqn:F.
    + apply first_match_in in F. destruct F as (F1 & F2 & F3).
      destruct (h_handle h m st) as [st1|x] eqn:H; [|discriminate]. cbn [bind] in E.
      apply (IH (index + k) _ st1 _ _) in E; [exact E| |exact (Hk h g m st st1 F1 F2 H Hi)].
      intros h' g' m' s s' Hin. apply Hk. exact (skipn_more _ index k hs h' Hin).
    + apply (IH index _ st _ _) in E; assumption.
Qed.

Lemma parse_section_keep : forall S (I : S -> Prop) (hs : list (handler S)) sec st st' un',
  (forall h g m st st', In h hs -> re_match (h_regexp h) g = Some m -> h_handle h m st = Ok st' -> I st -> I st') ->
  I st -> parse_section hs sec st = Ok (st', un') -> I st'.
Proof. intros S I hs sec st st' un' Hk. apply (parse_groups_keep S I hs _ 0). exact Hk. Qed.

Definition common_ok (c : common) : Prop :=
  wind_ok (c_wind c) /\ vis_ok 200017 (c_vis c) /\ Forall cloud_ok (gl_list (c_clouds c))
  /\ Forall weather_ok (gl_list (c_weathers c)).

Definition one_of (r a b : regex) : Prop := r = a \/ r = b.

Lemma ok_wind : forall r g m c c', one_of r r_WIND r_T_WIND -> re_match r g = Some m -> handle_wind m c = Ok c' -> common_ok c -> common_ok c'.
Proof.
  intros r g m c c' R M E (A & B & C). unfold handle_wind in E. destruct (metar_wind_new (Some m)) as [w|] eqn:W; [|discriminate].
  cbn [bind] in E.
  assert (O : wind_ok w).
  { destruct R as [->| ->].
    - exact (wind_range _ _ _ _ (proj1 wind_checks_ok) (proj1 wind_dirs) M W).
    - exact (wind_range _ _ _ _ (proj2 wind_checks_ok) (proj2 wind_dirs) M W). }
  assert (K : c' = mk_common (concat_string (c_string c) (metar_wind_str w)) w (c_vis c) (c_weathers c) (c_clouds c)) by congruence.
  rewrite K. split; [exact O|]. split; [exact B|exact C].
Qed.
Lemma ok_prevailing : forall r g m c c', one_of r r_VISIBILITY r_T_VISIBILITY -> re_match r g = Some m ->
  handle_prevailing m c = Ok c' -> common_ok c -> common_ok c'.
Proof.
  intros r g m c c' R M E (A & B & C). unfold handle_prevailing in E. destruct (prevailing_new (Some m)) as [w|] eqn:W; [|discriminate].
  cbn [bind] in E.
  assert (O : vis_ok 200017 w).
  { destruct R as [->| ->].
    - exact (prevailing_range _ _ _ (proj1 vis_checks_ok) M _ W).
    - exact (prevailing_range _ _ _ (proj1 (proj2 vis_checks_ok)) M _ W). }
  assert (K : c' = mk_common (concat_string (c_string c) (prevailing_str w)) (c_wind c) w (c_weathers c) (c_clouds c)) by congruence.
  rewrite K. split; [exact A|]. split; [exact O|exact C].
Qed.
Lemma ok_weather : forall m c c', handle_weather m c = Ok c' -> common_ok c -> common_ok c'.
Proof.
  intros m c c' E (A & B & C & W). unfold handle_weather in E. cbv zeta in E. destruct (gl_add _ _) as [l|] eqn:G; [|discriminate]. cbn [bind] in E.
  assert (K : c_wind c' = c_wind c /\ c_vis c' = c_vis c /\ c_clouds c' = c_clouds c /\ c_weathers c' = l) by (injection E as <-; auto).
  unfold common_ok. destruct K as (-> & -> & -> & ->). split; [exact A|]. split; [exact B|]. split; [exact C|].
  exact (gl_add_forall _ _ _ _ _ G (weather_range _) W).
Qed.
Lemma ok_cloud : forall g m c c', re_match r_CLOUD g = Some m -> handle_cloud m c = Ok c' -> common_ok c -> common_ok c'.
Proof.
  intros g m c c' M E (A & B & C & Wx). unfold handle_cloud in E. destruct (cloud_from_metar (Some m)) as [k|] eqn:W; [|discriminate].
  cbn [bind] in E. destruct (gl_add k (c_clouds c)) as [l|] eqn:G; [|discriminate]. cbn [bind] in E.
  assert (K : c_wind c' = c_wind c /\ c_vis c' = c_vis c /\ c_clouds c' = l /\ c_weathers c' = c_weathers c) by (injection E as <-; auto).
  unfold common_ok. destruct K as (-> & -> & -> & ->). split; [exact A|]. split; [exact B|]. split; [|exact Wx].
  exact (gl_add_forall _ _ _ _ _ G (cloud_range _ _ _ M W) C).
Qed.
Lemma common_new_ok : forall b c, common_new b = Ok c -> common_ok c.
Proof.
  intros b c E. unfold common_new in E.
  destruct (metar_wind_new None) as [w|] eqn:W; [|discriminate]. cbn [bind] in E.
  destruct (prevailing_new None) as [v|] eqn:V; [|discriminate]. cbn [bind] in E.
  assert (K : c = mk_common b w v (gl_new 3) cloudlist_new) by congruence. rewrite K.
  vm_compute in W. vm_compute in V. injection W as <-. injection V as <-.
  unfold common_ok, wind_ok, vis_ok. cbn.
  repeat match goal with |- _ /\ _ => split end; try apply okv_none; constructor.
Qed.

(** ** METAR *)

Definition body_ok (x : metar) : Prop :=
  common_ok (me_common x) /\ wvar_ok (me_wvar x) /\ vis_ok 10000 (me_minvis x)
  /\ Forall rvr_ok (gl_list (me_rvr x)) /\ temps_ok (me_temps x) /\ press_ok (me_press x) /\ recent_ok (me_recent x) /\ sea_ok (me_sea x).
Definition trends_ok (x : metar) : Prop := Forall (fun p => common_ok (cp_common p)) (gl_list (me_trends x)).

Lemma metar_ok_step : forall e y mo h g m x x', In h (metar_handlers e y mo) -> re_match (h_regexp h) g = Some m ->
  h_handle h m x = Ok x' -> body_ok x -> body_ok x'.
Proof.
  intros e y mo h g m x x' I M E H. unfold metar_handlers in I. cbn [In] in I.
  assert (L : forall f, (forall c c', f m c = Ok c' -> common_ok c -> common_ok c') -> lift f m x = Ok x' -> body_ok x').
  { intros f Hf Ef. unfold lift in Ef. destruct (f m (me_common x)) as [c|] eqn:Ec; [|discriminate]. cbn [bind] in Ef.
    assert (K : x' = upd_common c x) by congruence. rewrite K. destruct H as [H1 H2]. split; [exact (Hf _ _ Ec H1)|exact H2]. }
  assert (Same : forall x1, Ok x1 = Ok x' -> body_ok x1 -> body_ok x').
  { intros x1 K O. assert (x' = x1) by congruence. subst x'. exact O. }
  destruct H as (H0 & H1 & H2 & H3 & H4 & H5 & HR & H6).
  repeat (destruct I as [<-|I]; [cbn [h_handle h_regexp] in E, M|]); try contradiction;
    try (apply (L _ (fun c c' => ok_wind _ _ m c c' (or_introl eq_refl) M) E));
    try (apply (L _ (fun c c' => ok_prevailing _ _ m c c' (or_introl eq_refl) M) E));
    try (apply (L _ (ok_weather m) E)); try (apply (L _ (fun c c' => ok_cloud _ m c c' M) E)).
  all: try (unfold handle_type, handle_station, handle_modifier, handle_time, handle_recent_weather, handle_runway_state, handle_windshear in E;
    cbv zeta in E; binds E; refine (Same _ E _); unfold body_ok; cbn;
    repeat (split; [first [assumption|exact (recent_range (Some m))]|]); assumption).
  - unfold handle_wind_variation in E. destruct (wind_variation_new (Some m)) as [v|] eqn:W; [|discriminate]. cbn [bind] in E.
    refine (Same _ E _). unfold body_ok. cbn. repeat (split; [first [assumption|exact (wvar_range _ _ _ M W)]|]). assumption.
  - unfold handle_minimum_visibility in E. destruct (minimum_visibility_new (Some m)) as [v|] eqn:W; [|discriminate]. cbn [bind] in E.
    refine (Same _ E _). unfold body_ok. cbn.
    repeat (split; [first [assumption|exact (minimum_range _ _ _ (proj2 (proj2 vis_checks_ok)) M _ W)]|]). assumption.
  - unfold handle_runway_range in E. destruct (runway_range_new (Some m)) as [v|] eqn:W; [|discriminate]. cbn [bind] in E.
    destruct (gl_add v (me_rvr x)) as [l|] eqn:G; [|discriminate]. cbn [bind] in E. refine (Same _ E _). unfold body_ok. cbn.
    repeat (split; [first [assumption|exact (gl_add_forall _ _ _ _ _ G (rvr_range _ _ _ M W) H3)]|]). assumption.
  - unfold handle_runway_range in E. destruct (runway_range_new (Some m)) as [v|] eqn:W; [|discriminate]. cbn [bind] in E.
    destruct (gl_add v (me_rvr x)) as [l|] eqn:G; [|discriminate]. cbn [bind] in E. refine (Same _ E _). unfold body_ok. cbn.
    repeat (split; [first [assumption|exact (gl_add_forall _ _ _ _ _ G (rvr_range _ _ _ M W) H3)]|]). assumption.
  - unfold handle_runway_range in E. destruct (runway_range_new (Some m)) as [v|] eqn:W; [|discriminate]. cbn [bind] in E.
    destruct (gl_add v (me_rvr x)) as [l|] eqn:G; [|discriminate]. cbn [bind] in E. refine (Same _ E _). unfold body_ok. cbn.
    repeat (split; [first [assumption|exact (gl_add_forall _ _ _ _ _ G (rvr_range _ _ _ M W) H3)]|]). assumption.
  - unfold handle_temperatures in E. destruct (temperatures_new (Some m)) as [v|] eqn:W; [|discriminate]. cbn [bind] in E.
    refine (Same _ E _). unfold body_ok. cbn. repeat (split; [first [assumption|exact (temps_range _ _ _ M W)]|]). assumption.
  - unfold handle_pressure in E. destruct (metar_pressure_new (Some m)) as [v|] eqn:W; [|discriminate]. cbn [bind] in E.
    refine (Same _ E _). unfold body_ok. cbn. repeat (split; [first [assumption|exact (press_range _ _ _ M W)]|]). assumption.
  - unfold handle_pressure in E. destruct (metar_pressure_new (Some m)) as [v|] eqn:W; [|discriminate]. cbn [bind] in E.
    refine (Same _ E _). unfold body_ok. cbn. repeat (split; [first [assumption|exact (press_range _ _ _ M W)]|]). assumption.
  - unfold handle_sea_state in E. destruct (sea_state_new (Some m)) as [v|] eqn:W; [|discriminate]. cbn [bind] in E.
    refine (Same _ E _). unfold body_ok. cbn. repeat (split; [first [assumption|exact (sea_range _ _ _ M W)]|]). exact (sea_range _ _ _ M W).
Qed.

Lemma trend_ok_step : forall h g m p p', In h trend_handlers -> re_match (h_regexp h) g = Some m -> h_handle h m p = Ok p' ->
  common_ok (cp_common p) -> common_ok (cp_common p').
Proof.
  intros h g m p p' I M E H. unfold trend_handlers in I. cbn [In] in I.
  assert (L : forall f, (forall c c', f m c = Ok c' -> common_ok c -> common_ok c') -> cp_lift f m p = Ok p' -> common_ok (cp_common p')).
  { intros f Hf Ef. unfold cp_lift in Ef. destruct (f m (cp_common p)) as [c|] eqn:Ec; [|discriminate]. cbn [bind] in Ef.
    assert (K : p' = cp_set_common c p) by congruence. rewrite K. exact (Hf _ _ Ec H). }
  repeat (destruct I as [<-|I]; [cbn [h_handle h_regexp] in E, M|]); try contradiction;
    try (apply (L _ (fun c c' => ok_wind _ _ m c c' (or_introl eq_refl) M) E));
    try (apply (L _ (fun c c' => ok_prevailing _ _ m c c' (or_introl eq_refl) M) E));
    try (apply (L _ (ok_weather m) E)); try (apply (L _ (fun c c' => ok_cloud _ m c c' M) E));
    unfold handle_trend_indicator, handle_time_period in E; cbv zeta in E; binds E;
    (match type of E with Ok ?a = Ok _ => assert (K : p' = a) by congruence end); rewrite K; exact H.
Qed.

Lemma trend_ok_parsed : forall code t p, change_period_new code t = Ok p -> common_ok (cp_common p).
Proof.
  intros code t p E. unfold change_period_new in E. cbv zeta in E.
  destruct (common_new []) as [c|] eqn:C; [|discriminate]. cbn [bind] in E. apply common_new_ok in C.
  destruct (trend_ind_new None t) as [i|]; [|discriminate]. cbn [bind] in E.
  destruct (parse_section trend_handlers _ _) as [[q un]|] eqn:P; [|discriminate]. cbn [bind] in E. injection E as <-.
  apply (parse_section_keep _ (fun q => common_ok (cp_common q))) in P; [exact P|exact trend_ok_step|exact C].
Qed.

Lemma trends_ok_parsed : forall l x x', handle_trends l x = Ok x' -> body_ok x -> trends_ok x -> body_ok x' /\ trends_ok x'.
Proof.
  intros l. induction l as [|w l IH]; intros x x' E H T; cbn [handle_trends] in E; [injection E as <-; auto|].
  destruct w as [|c w]; [exact (IH _ _ E H T)|]. unfold handle_weather_trend in E.
  destruct (change_period_new (c :: w) _) as [p|] eqn:C; [|discriminate]. cbn [bind] in E. apply trend_ok_parsed in C.
  destruct (gl_add p (me_trends x)) as [g|] eqn:G; [|discriminate]. cbn [bind] in E.
  apply IH in E; [exact E|exact H|]. exact (gl_add_forall _ _ _ _ _ G C T).
Qed.

Lemma metar_ok_start : forall e raw y mo x, metar_init e raw y mo = Ok x -> body_ok x /\ trends_ok x.
Proof.
  intros e raw y mo x E. unfold metar_init in E.
  destruct (time_new e None None None None None None); [|discriminate]. cbn [bind] in E.
  destruct (common_new []) as [c|] eqn:C; [|discriminate]. cbn [bind] in E. apply common_new_ok in C.
  destruct (time_from_metar e None y mo); [|discriminate]. cbn [bind] in E.
  destruct wvar_none as (wv & Ewv & Awv). destruct minimum_none as (mv & Emv & Amv). destruct temps_none as (te & Ete & Ate).
  destruct press_none as (pr & Epr & Apr). destruct sea_none as (se & Ese & Ase).
  rewrite Ewv, Emv, Ete, Epr, Ese in E. cbn [bind] in E. injection E as <-. split; [|constructor].
  vm_compute in Ewv, Emv, Ete, Epr, Ese. injection Ewv as <-. injection Emv as <-. injection Ete as <-. injection Epr as <-. injection Ese as <-.
  split; [exact C|]. split; [|split; [|split; [|split; [|split; [|split; [exact (recent_range None)|]]]]]];
    unfold wvar_ok, vis_ok, temps_ok, press_ok, sea_ok; cbn;
    repeat match goal with |- _ /\ _ => split end; try apply okv_none; constructor.
Qed.

Lemma metar_ok : forall e code y mo tr x, metar_parse e code y mo tr = Ok x -> body_ok x /\ trends_ok x.
Proof.
  intros e code y mo tr x E. unfold metar_parse in E. destruct (report_raw_code code) as [raw|]; [|discriminate]. cbn [bind] in E.
  destruct (metar_init e raw y mo) as [x0|] eqn:E0; [|discriminate]. cbn [bind] in E. apply metar_ok_start in E0.
  unfold parse_body in E. destruct (parse_section (metar_handlers e y mo) _ x0) as [[x1 un]|] eqn:E1; [|discriminate].
  cbn [bind] in E.
  assert (K : body_ok x1 /\ trends_ok x1).
  { apply (parse_section_keep _ (fun x => body_ok x /\ me_trends x = me_trends x0)) in E1.
    - destruct E1 as [K1 K2]. split; [exact K1|]. unfold trends_ok. rewrite K2. apply E0.
    - intros h g m s s' I M Eh [K1 K2]. split; [exact (metar_ok_step e y mo h g m s s' I M Eh K1)|]. rewrite <- K2.
      exact (metar_handler_trends _ _ _ _ _ _ _ I Eh).
    - split; [apply E0|reflexivity]. }
  unfold parse_weather_trend in E. destruct (handle_trends _ _) as [x2|] eqn:E2; [|discriminate]. cbn [bind] in E.
  apply trends_ok_parsed in E2; [|exact (proj1 K)|exact (proj2 K)].
  pose proof (collect_list _ (me_trends x2)) as Cl. destruct (gl_collect (me_trends x2)) as [l g]. cbn [snd] in Cl. cbv zeta in E.
  assert (X : x = upd_unparsed (me_unparsed x2 ++ flat_map cp_unparsed l) (upd_trends g x2)).
  { destruct (me_unparsed (upd_unparsed _ _)) as [|u us] in E; [congruence|]. destruct tr; [discriminate|congruence]. }
  rewrite X. destruct E2 as [K1 K2]. split; [exact K1|]. unfold trends_ok. cbn [me_trends upd_unparsed upd_trends].
  rewrite Cl. exact K2.
Qed.

(** ** TAF *)

Definition change_ok (p : change_fc) : Prop := common_ok (cf_common p).
Definition taf_ok (x : taf) : Prop :=
  common_ok (ta_common x) /\ Forall ttemp_ok (gl_list (ta_max x)) /\ Forall ttemp_ok (gl_list (ta_min x))
  /\ Forall change_ok (gl_list (ta_changes x)).

Lemma change_ok_step : forall h g m p p', In h change_handlers -> re_match (h_regexp h) g = Some m -> h_handle h m p = Ok p' ->
  change_ok p -> change_ok p'.
Proof.
  intros h g m p p' I M E H. unfold change_handlers in I. cbn [In] in I.
  assert (L : forall f, (forall c c', f m c = Ok c' -> common_ok c -> common_ok c') -> cf_lift f m p = Ok p' -> change_ok p').
  { intros f Hf Ef. unfold cf_lift in Ef. destruct (f m (cf_common p)) as [c|] eqn:Ec; [|discriminate]. cbn [bind] in Ef.
    injection Ef as <-. exact (Hf _ _ Ec H). }
  repeat (destruct I as [<-|I]; [cbn [h_handle h_regexp] in E, M|]); try contradiction;
    try (apply (L _ (fun c c' => ok_wind _ _ m c c' (or_intror eq_refl) M) E));
    try (apply (L _ (fun c c' => ok_prevailing _ _ m c c' (or_intror eq_refl) M) E));
    try (apply (L _ (fun c c' => ok_prevailing _ _ m c c' (or_introl eq_refl) M) E));
    try (apply (L _ (ok_weather m) E)); try (apply (L _ (fun c c' => ok_cloud _ m c c' M) E));
    unfold handle_change_indicator, handle_change_valid in E; binds E; injection E as <-; exact H.
Qed.

Lemma change_ok_parsed : forall code v p, change_fc_new code v = Ok p -> change_ok p.
Proof.
  intros code v p E. unfold change_fc_new in E. cbv zeta in E.
  destruct (common_new []) as [c|] eqn:C; [|discriminate]. cbn [bind] in E. apply common_new_ok in C.
  cbn [taf_ind_new bind] in E.
  destruct (parse_section change_handlers _ _) as [[q un]|] eqn:P; [|discriminate]. cbn [bind] in E. injection E as <-.
  apply (parse_section_keep _ change_ok) in P; [exact P|exact change_ok_step|exact C].
Qed.

Lemma pop_ok : forall u rl temp a b, pop_changes u rl temp = Ok (a, b) -> Forall change_ok rl -> Forall change_ok temp ->
  Forall change_ok a /\ Forall change_ok b.
Proof.
  intros u rl. induction rl as [|l rl IH]; intros temp a b E H T; cbn [pop_changes] in E; [injection E as <- <-; auto|].
  inversion H as [|? ? Hl Hr]; subst. destruct (tc_code (cf_ind l)) as [c|] eqn:Ec; [|discriminate].
  destruct (_ || _); [exact (IH _ _ _ E Hr (Forall_cons _ Hl T))|].
  destruct (starts_with (py "FM") c) eqn:F; [|injection E as <- <-; split; [exact Hr|constructor; assumption]].
  unfold reset_until_period in E. binds E. injection E as <- <-. split; [exact Hr|]. constructor; [exact Hl|exact T].
Qed.

Lemma changes_add_ok : forall p g g', changes_add p g = Ok g' -> change_ok p -> Forall change_ok (gl_list g) ->
  Forall change_ok (gl_list g').
Proof.
  intros p g g' E Hp Hg. unfold changes_add in E. cbv zeta in E. destruct (_ && _); [|exact (gl_add_forall _ _ _ _ _ E Hp Hg)].
  destruct (pop_changes _ (rev (gl_list g)) []) as [[rl temp]|] eqn:P; [|discriminate]. cbn [bind] in E.
  apply pop_ok in P; [|apply Forall_rev; exact Hg|constructor]. destruct P as [P1 P2].
  destruct (gl_add_all temp _) as [g1|] eqn:A; [|discriminate]. cbn [bind] in E.
  apply (add_all_kept _ change_ok) in A; [|exact P2|cbn [gl_list]; apply Forall_rev; exact P1].
  exact (gl_add_forall _ _ _ _ _ E Hp A).
Qed.

Lemma taf_ok_step : forall e y mo h g m x x', In h (taf_handlers e y mo) -> re_match (h_regexp h) g = Some m ->
  h_handle h m x = Ok x' -> taf_ok x -> taf_ok x'.
Proof.
  intros e y mo h g m x x' I M E H. unfold taf_handlers in I. cbn [In] in I.
  assert (L : forall f, (forall c c', f m c = Ok c' -> common_ok c -> common_ok c') -> tlift f m x = Ok x' -> taf_ok x').
  { intros f Hf Ef. unfold tlift in Ef. destruct (f m (ta_common x)) as [c|] eqn:Ec; [|discriminate]. cbn [bind] in Ef.
    assert (K : x' = tupd_common c x) by congruence. rewrite K. destruct H as [H1 H2]. split; [exact (Hf _ _ Ec H1)|exact H2]. }
  destruct H as (H0 & H1 & H2 & H3).
  assert (T : re_match r_T_TEMPERATURE g = Some m -> thandle_temperature m x = Ok x' -> taf_ok x').
  { intros Mt Et. unfold thandle_temperature in Et. destruct (taf_temp_new m _) as [t|] eqn:W; [|discriminate]. cbn [bind] in Et.
    pose proof (ttemp_range _ _ _ _ Mt W) as O.
    destruct (opt_str_eqb _ _); (destruct (gl_add t _) as [l|] eqn:G; [|discriminate]; cbn [bind] in Et;
      match type of Et with Ok ?a = Ok _ => assert (K : x' = a) by congruence end; rewrite K; unfold taf_ok; cbn;
      pose proof (gl_add_forall _ ttemp_ok _ _ _ G O) as Q; auto). }
  repeat (destruct I as [<-|I]; [cbn [h_handle h_regexp] in E, M|]); try contradiction;
    try exact (T M E);
    try (apply (L _ (fun c c' => ok_wind _ _ m c c' (or_intror eq_refl) M) E));
    try (apply (L _ (fun c c' => ok_prevailing _ _ m c c' (or_intror eq_refl) M) E));
    try (apply (L _ (fun c c' => ok_prevailing _ _ m c c' (or_introl eq_refl) M) E));
    try (apply (L _ (ok_weather m) E)); try (apply (L _ (fun c c' => ok_cloud _ m c c' M) E));
    unfold thandle_type, thandle_modifier, thandle_station, thandle_time, thandle_missing, thandle_valid, thandle_cancelled in E;
    cbv zeta in E; binds E;
    (match type of E with Ok ?a = Ok _ => assert (K : x' = a) by congruence end; rewrite K; unfold taf_ok; cbn; auto).
Qed.

Lemma changes_ok_parsed : forall l x x', handle_changes l x = Ok x' -> taf_ok x -> taf_ok x'.
Proof.
  intros l. induction l as [|w l IH]; intros x x' E H; cbn [handle_changes] in E; [injection E as <-; exact H|].
  destruct w as [|c w]; [exact (IH _ _ E H)|]. unfold handle_change_forecasted in E.
  destruct (change_fc_new (c :: w) _) as [p|] eqn:C; [|discriminate]. cbn [bind] in E. apply change_ok_parsed in C.
  destruct (changes_add p (ta_changes x)) as [g|] eqn:G; [|discriminate]. cbn [bind] in E.
  apply IH in E; [exact E|]. destruct H as (H0 & H1 & H2 & H3). split; [exact H0|]. split; [exact H1|]. split; [exact H2|].
  exact (changes_add_ok _ _ _ G C H3).
Qed.

Lemma taf_ok_start : forall e raw x, taf_init e raw = Ok x -> taf_ok x.
Proof.
  intros e raw x E. unfold taf_init in E.
  destruct (time_new e None None None None None None); [|discriminate]. cbn [bind] in E. destruct (taf_split raw) as [body codes].
  destruct (common_new []) as [c|] eqn:C; [|discriminate]. cbn [bind] in E. apply common_new_ok in C.
  destruct (valid_from_taf None _); [|discriminate]. cbn [bind] in E. injection E as <-.
  split; [exact C|]. split; [constructor|]. split; constructor.
Qed.

Lemma taf_parsed_ok : forall e code y mo tr x, taf_parse e code y mo tr = Ok x -> taf_ok x.
Proof.
  intros e code y mo tr x E. unfold taf_parse in E. destruct (report_raw_code code) as [raw|]; [|discriminate]. cbn [bind] in E.
  destruct (taf_init e raw) as [x0|] eqn:E0; [|discriminate]. cbn [bind] in E. apply taf_ok_start in E0.
  unfold taf_parse_body in E. destruct (parse_section (taf_handlers e y mo) _ x0) as [[x1 un]|] eqn:E1; [|discriminate].
  cbn [bind] in E.
  apply (parse_section_keep _ taf_ok) in E1; [|exact (taf_ok_step e y mo)|exact E0].
  unfold parse_changes_forecasted in E. destruct (handle_changes _ _) as [x2|] eqn:E2; [|discriminate]. cbn [bind] in E.
  apply changes_ok_parsed in E2; [|exact E1].
  pose proof (collect_list _ (ta_changes x2)) as Cl. destruct (gl_collect (ta_changes x2)) as [l g]. cbn [snd] in Cl. cbv zeta in E.
  assert (X : x = tupd_unparsed (ta_unparsed x2 ++ flat_map cf_unparsed l) (tupd_changes g x2)).
  { destruct (ta_unparsed (tupd_unparsed _ _)) as [|u us] in E; [congruence|]. destruct tr; [discriminate|congruence]. }
  rewrite X. destruct E2 as (K0 & K1 & K2 & K3). split; [exact K0|]. split; [exact K1|]. split; [exact K2|].
  cbn [ta_changes tupd_unparsed tupd_changes]. rewrite Cl. exact K3.
Qed.

(** ** The specification *)

Lemma common_ok_lies : forall c, common_ok c -> common_lies c.
Proof.
  intros c ((A1 & A2 & A3) & (B1 & B2) & C & _).
  split; [repeat split; apply okv_lies; assumption|]. split; [split; apply okv_lies; assumption|].
  eapply Forall_impl; [|exact C]. intros k K. apply okv_lies. exact K.
Qed.

Theorem metar_numbers : forall e code y mo tr x, metar_parse e code y mo tr = Ok x -> metar_lies x.
Proof.
  intros e code y mo tr x E. apply metar_ok in E. destruct E as [(A & (B1 & B2) & (C1 & C2) & D & (F1 & F2) & G & _ & (H1 & H2)) T].
  split; [exact (common_ok_lies _ A)|]. split; [split; apply okv_lies; assumption|]. split; [split; apply okv_lies; assumption|].
  split; [eapply Forall_impl; [|exact D]; intros k [K1 K2]; split; apply okv_lies; assumption|].
  split; [split; apply okv_lies; assumption|]. split; [apply okv_lies; exact G|].
  split; [split; apply okv_lies; assumption|]. eapply Forall_impl; [|exact T]. intros p. apply common_ok_lies.
Qed.

Theorem taf_numbers : forall e code y mo tr x, taf_parse e code y mo tr = Ok x -> taf_lies x.
Proof.
  intros e code y mo tr x E. apply taf_parsed_ok in E. destruct E as (A & B & C & D).
  split; [exact (common_ok_lies _ A)|].
  split; [eapply Forall_impl; [|exact B]; intros k K; apply okv_lies; exact K|].
  split; [eapply Forall_impl; [|exact C]; intros k K; apply okv_lies; exact K|].
  eapply Forall_impl; [|exact D]. intros p. apply common_ok_lies.
Qed.
