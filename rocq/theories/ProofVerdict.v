(** * The verdicts on written groups (C71) *)
From Coq Require Import String Ascii.
From Coq Require Import List NArith ZArith QArith Bool Lia.
From Verif Require Import PyBase PyRegex AeroRegex PyFloat PyTime Utils Base MetarGroups Trend Metar Taf SpecNum SpecGroups SpecTime
  SpecText SpecWords SpecMetar SpecTafReport SpecTrend SpecKept SpecRules SpecCavok SpecVerdict
  ReprFacts GroupShapes ProofGroups ProofValues ProofValues2 ProofSlots ProofWx ProofFields ProofRules ProofCavok ProofFailures ProofProb Outcomes ProofAbsent ProofAbsentTaf
  StrFacts ProofMetarText ProofTafReport ProofTrendReport.
From Verif Require ProofKeptReport ProofRangeReport.
Import ListNotations.
Local Open Scope string_scope.
Local Open Scope nat_scope.
Local Open Scope list_scope.

(** ** Where the values come from *)

Lemma parse_groups_from : forall S (I : S -> Prop) (P : str -> Prop) (hs : list (handler S)) gs index un st st' un',
  (forall h g m st st', In h (skipn index hs) -> P g -> re_match (h_regexp h) g = Some m -> h_handle h m st = Ok st' -> I st -> I st') ->
  Forall P gs -> I st -> parse_groups hs gs index un st = Ok (st', un') -> I st'.
Proof.
  intros S I P hs gs. induction gs as [|g gs IH]; intros index un st st' un' Hk Hp Hi E; cbn [parse_groups] in E.
  - injection E as <- _. exact Hi.
  - assert (P0 := Forall_inv Hp). apply Forall_inv_tail in Hp.
    destruct (first_match (skipn index hs) 0 g) as [[[k h] m]|] eqn:F.
    + apply first_match_in in F. destruct F as (F1 & F2 & F3).
      destruct (h_handle h m st) as [st1|x] eqn:H; [|discriminate]. cbn [bind] in E.
      apply (IH (index + k) _ st1 _ _) in E; [exact E| |exact Hp|exact (Hk h g m st st1 F1 P0 F2 H Hi)].
      intros h' g' m' s s' Hin. apply Hk. exact (skipn_more _ index k hs h' Hin).
    + apply (IH index _ st _ _) in E; assumption.
Qed.
Definition unspaced (g : str) : Prop := ~ In 32%N g.
Lemma parse_section_from : forall S (I : S -> Prop) (hs : list (handler S)) sec st st' un',
  (forall h g m st st', In h hs -> unspaced g -> re_match (h_regexp h) g = Some m -> h_handle h m st = Ok st' -> I st -> I st') ->
  I st -> parse_section hs sec st = Ok (st', un') -> I st'.
Proof.
  intros S I hs sec st st' un' Hk. apply (parse_groups_from S I unspaced hs _ 0); [exact Hk|].
  rewrite Forall_forall. intros w. apply split_on_parts.
Qed.

Definition vis_made (r : regex) (v : visibility) : Prop :=
  exists g m, unspaced g /\ re_match r g = Some m /\ prevailing_new (Some m) = Ok v.
Definition cloud_made (c : cloud) : Prop :=
  exists g m, re_match r_CLOUD g = Some m /\ cloud_from_metar (Some m) = Ok c.
Definition made (r : regex) (c : common) : Prop :=
  (v_code (c_vis c) = None \/ vis_made r (c_vis c)) /\ Forall cloud_made (gl_list (c_clouds c)) /\ gl_n (c_clouds c) = 0.

Lemma made_wind : forall r m c c', handle_wind m c = Ok c' -> made r c -> made r c'.
Proof.
  intros r m c c' E H. unfold handle_wind in E. destruct (metar_wind_new (Some m)) as [w|]; [|discriminate].
  cbn [bind] in E.
  assert (K : c' = mk_common (concat_string (c_string c) (metar_wind_str w)) w (c_vis c) (c_weathers c) (c_clouds c)) by congruence.
  rewrite K. exact H.
Qed.
Lemma made_prevailing : forall r g m c c', unspaced g -> re_match r g = Some m ->
  handle_prevailing m c = Ok c' -> made r c -> made r c'.
Proof.
  intros r g m c c' U M E (A & B). unfold handle_prevailing in E. destruct (prevailing_new (Some m)) as [w|] eqn:W; [|discriminate].
  cbn [bind] in E.
  assert (K : c' = mk_common (concat_string (c_string c) (prevailing_str w)) (c_wind c) w (c_weathers c) (c_clouds c)) by congruence.
  rewrite K. split; [|exact B]. right. exists g, m. auto.
Qed.
Lemma made_weather : forall r m c c', handle_weather m c = Ok c' -> made r c -> made r c'.
Proof.
  intros r m c c' E H. unfold handle_weather in E. cbv zeta in E. destruct (gl_add _ _) as [l|] eqn:G; [|discriminate]. cbn [bind] in E.
  assert (K : c_vis c' = c_vis c /\ c_clouds c' = c_clouds c) by (injection E as <-; auto).
  unfold made. destruct K as (-> & ->). exact H.
Qed.
Lemma made_cloud : forall r g m c c', re_match r_CLOUD g = Some m -> handle_cloud m c = Ok c' -> made r c -> made r c'.
Proof.
  intros r g m c c' M E (A & B & C). unfold handle_cloud in E. destruct (cloud_from_metar (Some m)) as [k|] eqn:W; [|discriminate].
  cbn [bind] in E. destruct (gl_add k (c_clouds c)) as [l|] eqn:G; [|discriminate]. cbn [bind] in E.
  assert (K : c_vis c' = c_vis c /\ c_clouds c' = l) by (injection E as <-; auto).
  unfold made. destruct K as (-> & ->). split; [exact A|]. split.
  - apply (gl_add_forall _ _ _ _ _ G); [exists g, m; auto|exact B].
  - unfold gl_add in G. destruct (Nat.leb _ _); [discriminate|]. injection G as <-. exact C.
Qed.
Lemma common_new_made : forall r b c, common_new b = Ok c -> made r c.
Proof.
  intros r b c E. unfold common_new in E.
  destruct (metar_wind_new None) as [w|] eqn:W; [|discriminate]. cbn [bind] in E.
  destruct (prevailing_new None) as [v|] eqn:V; [|discriminate]. cbn [bind] in E.
  assert (K : c = mk_common b w v (gl_new 3) cloudlist_new) by congruence. rewrite K.
  vm_compute in V. injection V as <-. split; [left; reflexivity|]. split; [constructor|reflexivity].
Qed.

(** ** METAR *)

Lemma metar_made_step : forall e y mo h g m x x', In h (metar_handlers e y mo) -> unspaced g -> re_match (h_regexp h) g = Some m ->
  h_handle h m x = Ok x' -> made r_VISIBILITY (me_common x) -> made r_VISIBILITY (me_common x').
Proof.
  intros e y mo h g m x x' I U M E H. unfold metar_handlers in I. cbn [In] in I.
  assert (L : forall f, (forall c c', f m c = Ok c' -> made r_VISIBILITY c -> made r_VISIBILITY c') -> lift f m x = Ok x' ->
    made r_VISIBILITY (me_common x')).
  { intros f Hf Ef. unfold lift in Ef. destruct (f m (me_common x)) as [c|] eqn:Ec; [|discriminate]. cbn [bind] in Ef.
    assert (K : x' = upd_common c x) by congruence. rewrite K. exact (Hf _ _ Ec H). }
  assert (Same : forall x1, Ok x1 = Ok x' -> made r_VISIBILITY (me_common x1) -> made r_VISIBILITY (me_common x')).
  { intros x1 K O. assert (x' = x1) by congruence. subst x'. exact O. }
  repeat (destruct I as [<-|I]; [cbn [h_handle h_regexp] in E, M|]); try contradiction;
    try (apply (L _ (made_wind _ m) E));
    try (apply (L _ (fun c c' => made_prevailing _ _ m c c' U M) E));
    try (apply (L _ (made_weather _ m) E)); try (apply (L _ (fun c c' => made_cloud _ _ m c c' M) E)).
  all: unfold handle_type, handle_station, handle_modifier, handle_time, handle_recent_weather, handle_runway_state, handle_windshear,
      handle_wind_variation, handle_minimum_visibility, handle_runway_range, handle_temperatures, handle_pressure, handle_sea_state in E;
    cbv zeta in E; binds E; refine (Same _ E _); exact H.
Qed.

Lemma trend_made_step : forall h g m p p', In h trend_handlers -> unspaced g -> re_match (h_regexp h) g = Some m -> h_handle h m p = Ok p' ->
  made r_VISIBILITY (cp_common p) -> made r_VISIBILITY (cp_common p').
Proof.
  intros h g m p p' I U M E H. unfold trend_handlers in I. cbn [In] in I.
  assert (L : forall f, (forall c c', f m c = Ok c' -> made r_VISIBILITY c -> made r_VISIBILITY c') -> cp_lift f m p = Ok p' ->
    made r_VISIBILITY (cp_common p')).
  { intros f Hf Ef. unfold cp_lift in Ef. destruct (f m (cp_common p)) as [c|] eqn:Ec; [|discriminate]. cbn [bind] in Ef.
    assert (K : p' = cp_set_common c p) by congruence. rewrite K. exact (Hf _ _ Ec H). }
  repeat (destruct I as [<-|I]; [cbn [h_handle h_regexp] in E, M|]); try contradiction;
    try (apply (L _ (made_wind _ m) E));
    try (apply (L _ (fun c c' => made_prevailing _ _ m c c' U M) E));
    try (apply (L _ (made_weather _ m) E)); try (apply (L _ (fun c c' => made_cloud _ _ m c c' M) E));
    unfold handle_trend_indicator, handle_time_period in E; cbv zeta in E; binds E;
    (match type of E with Ok ?a = Ok _ => assert (K : p' = a) by congruence end); rewrite K; exact H.
Qed.

Definition trend_made (p : change_period) : Prop := made r_VISIBILITY (cp_common p).
Lemma trend_made_parsed : forall code t p, change_period_new code t = Ok p -> trend_made p.
Proof.
  intros code t p E. unfold change_period_new in E. cbv zeta in E.
  destruct (common_new []) as [c|] eqn:C; [|discriminate]. cbn [bind] in E. apply (common_new_made r_VISIBILITY) in C.
  destruct (trend_ind_new None t) as [i|]; [|discriminate]. cbn [bind] in E.
  destruct (parse_section trend_handlers _ _) as [[q un]|] eqn:P; [|discriminate]. cbn [bind] in E. injection E as <-.
  apply (parse_section_from _ trend_made) in P; [exact P|exact trend_made_step|exact C].
Qed.

Definition metar_made (x : metar) : Prop := made r_VISIBILITY (me_common x) /\ Forall trend_made (gl_list (me_trends x)).

Lemma trends_made_parsed : forall l x x', handle_trends l x = Ok x' -> metar_made x -> metar_made x'.
Proof.
  intros l. induction l as [|w l IH]; intros x x' E H; cbn [handle_trends] in E; [injection E as <-; auto|].
  destruct w as [|c w]; [exact (IH _ _ E H)|]. unfold handle_weather_trend in E.
  destruct (change_period_new (c :: w) _) as [p|] eqn:C; [|discriminate]. cbn [bind] in E. apply trend_made_parsed in C.
  destruct (gl_add p (me_trends x)) as [g|] eqn:G; [|discriminate]. cbn [bind] in E.
  apply IH in E; [exact E|]. split; [exact (proj1 H)|]. exact (gl_add_forall _ _ _ _ _ G C (proj2 H)).
Qed.

Lemma metar_made_start : forall e raw y mo x, metar_init e raw y mo = Ok x -> metar_made x.
Proof.
  intros e raw y mo x E. unfold metar_init in E.
  destruct (time_new e None None None None None None); [|discriminate]. cbn [bind] in E.
  destruct (common_new []) as [c|] eqn:C; [|discriminate]. cbn [bind] in E. apply (common_new_made r_VISIBILITY) in C.
  binds E. injection E as <-. split; [exact C|constructor].
Qed.

Lemma metar_made_parsed : forall e code y mo tr x, metar_parse e code y mo tr = Ok x -> metar_made x.
Proof.
  intros e code y mo tr x E. unfold metar_parse in E. destruct (report_raw_code code) as [raw|]; [|discriminate]. cbn [bind] in E.
  destruct (metar_init e raw y mo) as [x0|] eqn:E0; [|discriminate]. cbn [bind] in E. apply metar_made_start in E0.
  unfold parse_body in E. destruct (parse_section (metar_handlers e y mo) _ x0) as [[x1 un]|] eqn:E1; [|discriminate].
  cbn [bind] in E.
  assert (K : metar_made x1).
  { apply (parse_section_from _ metar_made) in E1; [exact E1| |exact E0].
    intros h g m s s' I U M Eh [K1 K2]. split; [exact (metar_made_step e y mo h g m s s' I U M Eh K1)|].
    rewrite (metar_handler_trends _ _ _ _ _ _ _ I Eh). exact K2. }
  unfold parse_weather_trend in E. destruct (handle_trends _ _) as [x2|] eqn:E2; [|discriminate]. cbn [bind] in E.
  apply trends_made_parsed in E2; [|exact K].
  pose proof (collect_list _ (me_trends x2)) as Cl. destruct (gl_collect (me_trends x2)) as [l g]. cbn [snd] in Cl. cbv zeta in E.
  assert (X : x = upd_unparsed (me_unparsed x2 ++ flat_map cp_unparsed l) (upd_trends g x2)).
  { destruct (me_unparsed (upd_unparsed _ _)) as [|u us] in E; [congruence|]. destruct tr; [discriminate|congruence]. }
  rewrite X. destruct E2 as [K1 K2]. split; [exact K1|]. cbn [me_trends upd_unparsed upd_trends].
  rewrite Cl. exact K2.
Qed.

(** ** TAF *)

Definition change_made (p : change_fc) : Prop := made r_VISIBILITY (cf_common p).
Definition taf_made (x : taf) : Prop := made r_T_VISIBILITY (ta_common x) /\ Forall change_made (gl_list (ta_changes x)).

Lemma change_made_step : forall h g m p p', In h change_handlers -> unspaced g -> re_match (h_regexp h) g = Some m -> h_handle h m p = Ok p' ->
  change_made p -> change_made p'.
Proof.
  intros h g m p p' I U M E H. unfold change_handlers in I. cbn [In] in I.
  assert (L : forall f, (forall c c', f m c = Ok c' -> made r_VISIBILITY c -> made r_VISIBILITY c') -> cf_lift f m p = Ok p' -> change_made p').
  { intros f Hf Ef. unfold cf_lift in Ef. destruct (f m (cf_common p)) as [c|] eqn:Ec; [|discriminate]. cbn [bind] in Ef.
    injection Ef as <-. exact (Hf _ _ Ec H). }
  repeat (destruct I as [<-|I]; [cbn [h_handle h_regexp] in E, M|]); try contradiction;
    try (apply (L _ (made_wind _ m) E));
    try (apply (L _ (fun c c' => made_prevailing _ _ m c c' U M) E));
    try (apply (L _ (made_weather _ m) E)); try (apply (L _ (fun c c' => made_cloud _ _ m c c' M) E));
    unfold handle_change_indicator, handle_change_valid in E; binds E; injection E as <-; exact H.
Qed.

Lemma change_made_parsed : forall code v p, change_fc_new code v = Ok p -> change_made p.
Proof.
  intros code v p E. unfold change_fc_new in E. cbv zeta in E.
  destruct (common_new []) as [c|] eqn:C; [|discriminate]. cbn [bind] in E. apply (common_new_made r_VISIBILITY) in C.
  cbn [taf_ind_new bind] in E.
  destruct (parse_section change_handlers _ _) as [[q un]|] eqn:P; [|discriminate]. cbn [bind] in E. injection E as <-.
  apply (parse_section_from _ change_made) in P; [exact P|exact change_made_step|exact C].
Qed.

Lemma pop_made : forall u rl temp a b, pop_changes u rl temp = Ok (a, b) -> Forall change_made rl -> Forall change_made temp ->
  Forall change_made a /\ Forall change_made b.
Proof.
  intros u rl. induction rl as [|l rl IH]; intros temp a b E H T; cbn [pop_changes] in E; [injection E as <- <-; auto|].
  inversion H as [|? ? Hl Hr]; subst. destruct (tc_code (cf_ind l)) as [c|] eqn:Ec; [|discriminate].
  destruct (_ || _); [exact (IH _ _ _ E Hr (Forall_cons _ Hl T))|].
  destruct (starts_with (py "FM") c) eqn:F; [|injection E as <- <-; split; [exact Hr|constructor; assumption]].
  unfold reset_until_period in E. binds E. injection E as <- <-. split; [exact Hr|]. constructor; [exact Hl|exact T].
Qed.

Lemma changes_add_made : forall p g g', changes_add p g = Ok g' -> change_made p -> Forall change_made (gl_list g) ->
  Forall change_made (gl_list g').
Proof.
  intros p g g' E Hp Hg. unfold changes_add in E. cbv zeta in E. destruct (_ && _); [|exact (gl_add_forall _ _ _ _ _ E Hp Hg)].
  destruct (pop_changes _ (rev (gl_list g)) []) as [[rl temp]|] eqn:P; [|discriminate]. cbn [bind] in E.
  apply pop_made in P; [|apply Forall_rev; exact Hg|constructor]. destruct P as [P1 P2].
  destruct (gl_add_all temp _) as [g1|] eqn:A; [|discriminate]. cbn [bind] in E.
  apply (add_all_kept _ change_made) in A; [|exact P2|cbn [gl_list]; apply Forall_rev; exact P1].
  exact (gl_add_forall _ _ _ _ _ E Hp A).
Qed.

Lemma taf_made_step : forall e y mo h g m x x', In h (taf_handlers e y mo) -> unspaced g -> re_match (h_regexp h) g = Some m ->
  h_handle h m x = Ok x' -> taf_made x -> taf_made x'.
Proof.
  intros e y mo h g m x x' I U M E H. unfold taf_handlers in I. cbn [In] in I.
  assert (L : forall f, (forall c c', f m c = Ok c' -> made r_T_VISIBILITY c -> made r_T_VISIBILITY c') -> tlift f m x = Ok x' -> taf_made x').
  { intros f Hf Ef. unfold tlift in Ef. destruct (f m (ta_common x)) as [c|] eqn:Ec; [|discriminate]. cbn [bind] in Ef.
    assert (K : x' = tupd_common c x) by congruence. rewrite K. destruct H as [H1 H2]. split; [exact (Hf _ _ Ec H1)|exact H2]. }
  assert (T : thandle_temperature m x = Ok x' -> taf_made x').
  { intros Et. unfold thandle_temperature in Et. destruct (taf_temp_new m _) as [t|] eqn:W; [|discriminate]. cbn [bind] in Et.
    destruct (opt_str_eqb _ _); (destruct (gl_add t _) as [l|] eqn:G; [|discriminate]; cbn [bind] in Et;
      match type of Et with Ok ?a = Ok _ => assert (K : x' = a) by congruence end; rewrite K; exact H). }
  repeat (destruct I as [<-|I]; [cbn [h_handle h_regexp] in E, M|]); try contradiction;
    try exact (T E);
    try (apply (L _ (made_wind _ m) E));
    try (apply (L _ (fun c c' => made_prevailing _ _ m c c' U M) E));
    try (apply (L _ (made_weather _ m) E)); try (apply (L _ (fun c c' => made_cloud _ _ m c c' M) E));
    unfold thandle_type, thandle_modifier, thandle_station, thandle_time, thandle_missing, thandle_valid, thandle_cancelled in E;
    cbv zeta in E; binds E;
    (match type of E with Ok ?a = Ok _ => assert (K : x' = a) by congruence end; rewrite K; exact H).
Qed.

Lemma changes_made_parsed : forall l x x', handle_changes l x = Ok x' -> taf_made x -> taf_made x'.
Proof.
  intros l. induction l as [|w l IH]; intros x x' E H; cbn [handle_changes] in E; [injection E as <-; exact H|].
  destruct w as [|c w]; [exact (IH _ _ E H)|]. unfold handle_change_forecasted in E.
  destruct (change_fc_new (c :: w) _) as [p|] eqn:C; [|discriminate]. cbn [bind] in E. apply change_made_parsed in C.
  destruct (changes_add p (ta_changes x)) as [g|] eqn:G; [|discriminate]. cbn [bind] in E.
  apply IH in E; [exact E|]. destruct H as (H0 & H1). split; [exact H0|]. exact (changes_add_made _ _ _ G C H1).
Qed.

Lemma taf_made_start : forall e raw x, taf_init e raw = Ok x -> taf_made x.
Proof.
  intros e raw x E. unfold taf_init in E.
  destruct (time_new e None None None None None None); [|discriminate]. cbn [bind] in E. destruct (taf_split raw) as [body codes].
  destruct (common_new []) as [c|] eqn:C; [|discriminate]. cbn [bind] in E. apply (common_new_made r_T_VISIBILITY) in C.
  destruct (valid_from_taf None _); [|discriminate]. cbn [bind] in E. injection E as <-.
  split; [exact C|constructor].
Qed.

Lemma taf_made_parsed : forall e code y mo tr x, taf_parse e code y mo tr = Ok x -> taf_made x.
Proof.
  intros e code y mo tr x E. unfold taf_parse in E. destruct (report_raw_code code) as [raw|]; [|discriminate]. cbn [bind] in E.
  destruct (taf_init e raw) as [x0|] eqn:E0; [|discriminate]. cbn [bind] in E. apply taf_made_start in E0.
  unfold taf_parse_body in E. destruct (parse_section (taf_handlers e y mo) _ x0) as [[x1 un]|] eqn:E1; [|discriminate].
  cbn [bind] in E.
  apply (parse_section_from _ taf_made) in E1; [|exact (taf_made_step e y mo)|exact E0].
  unfold parse_changes_forecasted in E. destruct (handle_changes _ _) as [x2|] eqn:E2; [|discriminate]. cbn [bind] in E.
  apply changes_made_parsed in E2; [|exact E1].
  pose proof (collect_list _ (ta_changes x2)) as Cl. destruct (gl_collect (ta_changes x2)) as [l g]. cbn [snd] in Cl. cbv zeta in E.
  assert (X : x = tupd_unparsed (ta_unparsed x2 ++ flat_map cf_unparsed l) (tupd_changes g x2)).
  { destruct (ta_unparsed (tupd_unparsed _ _)) as [|u us] in E; [congruence|]. destruct tr; [discriminate|congruence]. }
  rewrite X. destruct E2 as (K0 & K3). split; [exact K0|].
  cbn [ta_changes tupd_unparsed tupd_changes]. rewrite Cl. exact K3.
Qed.

(** ** The written groups *)

Lemma blanked_same : forall a b, unspaced a -> unspaced b -> blanked a = blanked b -> a = b.
Proof.
  intros a. induction a as [|c a IH]; intros [|d b] Ha Hb E; cbn [blanked map] in E; try discriminate; [reflexivity|].
  assert (E1 : (if (c =? 95)%N then 32%N else c) = (if (d =? 95)%N then 32%N else d)) by congruence.
  assert (E2 : blanked a = blanked b) by (unfold blanked; congruence).
  rewrite (IH b (fun I => Ha (or_intror I)) (fun I => Hb (or_intror I)) E2). f_equal.
  destruct (c =? 95)%N eqn:C; destruct (d =? 95)%N eqn:D; try exact E1.
  - apply N.eqb_eq in C, D. congruence.
  - exfalso. apply Hb. left. congruence.
  - exfalso. apply Ha. left. congruence.
Qed.
Lemma blanked_plain : forall a b, unspaced b -> blanked a = b -> a = b.
Proof.
  intros a. induction a as [|c a IH]; intros [|d b] Hb E; cbn [blanked map] in E; try discriminate; [reflexivity|].
  assert (E1 : (if (c =? 95)%N then 32%N else c) = d) by congruence.
  assert (E2 : blanked a = b) by (unfold blanked; congruence).
  rewrite (IH b (fun I => Hb (or_intror I)) E2). f_equal.
  destruct (c =? 95)%N; [|exact E1]. exfalso. apply Hb. left. congruence.
Qed.

Lemma word_unspaced : forall w, word w -> unspaced w.
Proof.
  intros w [_ H] I. rewrite Forall_forall in H. apply (H _ I). reflexivity.
Qed.
Lemma digits_unspaced : forall k n, unspaced (digits k n).
Proof.
  intros k n I. assert (D := digits_are k n). rewrite Forall_forall in D. specialize (D _ I). unfold is_dig in D. lia.
Qed.
Lemma unspaced_app : forall a b, unspaced a -> unspaced b -> unspaced (a ++ b).
Proof. intros a b A B I. apply in_app_or in I. destruct I; auto. Qed.
Lemma lit_unspaced : forall s, forallb (fun c => negb (c =? 32)%N) s = true -> unspaced s.
Proof. intros s H I. rewrite forallb_forall in H. specialize (H _ I). discriminate H. Qed.

Lemma vis_unspaced : forall g, vis_wf g -> unspaced (vis_code g).
Proof.
  intros g H. destruct (two_words g) eqn:T.
  - destruct g as [n d|d| |l [[two i]|] [[a b]|]|l two n]; try discriminate T. cbn [vis_code opt]. unfold one_or_two.
    apply unspaced_app; [destruct l as [[|]|]; apply lit_unspaced; reflexivity|].
    apply unspaced_app; [apply digits_unspaced|]. apply unspaced_app; [apply lit_unspaced; reflexivity|].
    apply unspaced_app; [|apply lit_unspaced; reflexivity]. apply unspaced_app; [apply digits_unspaced|].
    apply unspaced_app; [apply lit_unspaced; reflexivity|apply digits_unspaced].
  - apply word_unspaced. apply (vis_ordinary g H T).
Qed.

Lemma shown_vis : forall r o v, r = r_VISIBILITY \/ (r = r_T_VISIBILITY /\ opt_all vis_given o) ->
  v_code v = None \/ vis_made r v -> opt_all vis_wf o -> holds vis_is no_vis o v -> shows_vis o v.
Proof.
  intros r [g|] v R M W H; cbn [holds opt_all shows_vis] in *; [|exact (proj1 (proj2 H))]. split; [exact W|].
  destruct H as (Hc & _). destruct M as [M|(s & m & U & M & E)]; [congruence|].
  assert (S : s = vis_code g).
  { assert (K := ProofKeptReport.vis_code m v E). rewrite (re_match_string _ _ _ M) in K.
    assert (K2 := vis_group_code g W). rewrite ProofKeptReport.code_blanked in K2.
    apply blanked_same; [exact U|exact (vis_unspaced g W)|]. congruence. }
  rewrite S in M. destruct R as [->|[-> G]]; [rewrite M; exact E|].
  destruct (r_VISIBILITY_decodes g W) as (m0 & w & Em & Ew & _).
  destruct (vis_captures g W) as (m2 & Em2 & Es & Hk). rewrite Em in Em2. injection Em2 as <-.
  destruct (tvis_captures g W G) as (m1 & Em1 & Es1 & Hk1). rewrite M in Em1. injection Em1 as <-.
  rewrite Em, <- E. unfold prevailing_new.
  rewrite Es, Es1, (Hk "vis"), (Hk "integer"), (Hk "fraction"), (Hk "units"), (Hk "dir"), (Hk "cavok"),
    (Hk1 "vis"), (Hk1 "integer"), (Hk1 "fraction"), (Hk1 "units"), (Hk1 "dir"), (Hk1 "cavok") by (cbn; intuition). reflexivity.
Qed.

Lemma shown_clouds : forall gs l, Forall cloud_made l -> Forall cloud_wf gs -> Forall2 cloud_is gs l -> shows_clouds gs l.
Proof.
  intros gs l M W H. unfold shows_clouds. induction H as [|g c gs l H0 H IH]; [constructor|].
  assert (M0 := Forall_inv M). assert (W0 := Forall_inv W). apply Forall_inv_tail in M. apply Forall_inv_tail in W.
  constructor; [|exact (IH M W)]. split; [exact W0|]. destruct M0 as (s & m & Em & E). destruct H0 as (Hc & _).
  assert (S : s = cloud_code g).
  { assert (K := ProofKeptReport.cloud_code m c E). rewrite (re_match_string _ _ _ Em) in K.
    apply blanked_plain; [|congruence]. apply word_unspaced. exact (proj1 (proj1 (cloud_plain g W0))). }
  rewrite <- S, Em. exact E.
Qed.

Lemma verdicts : forall r c vis ws gs,
  r = r_VISIBILITY \/ (r = r_T_VISIBILITY /\ opt_all vis_given vis) -> made r c ->
  opt_all vis_wf vis -> Forall cloud_wf gs -> holds vis_is no_vis vis (c_vis c) ->
  Forall2 weather_is ws (gl_list (c_weathers c)) -> Forall2 cloud_is gs (gl_list (c_clouds c)) ->
  judged vis ws gs c.
Proof.
  intros r c vis ws gs R (M1 & M2 & M3) Wv Wc Hv Hw Hc.
  assert (Sv := shown_vis r vis (c_vis c) R M1 Wv Hv). assert (Sc := shown_clouds gs _ M2 Wc Hc).
  split; [exact (flight_rules_coded vis gs _ _ Sv Sc)|]. intro same.
  rewrite (cavok_exact same c vis gs Sv Sc), M3. cbn [skipn]. unfold cavok_written.
  assert (K : gl_list (c_weathers c) = [] <-> ws = []).
  { split; intro K; rewrite K in Hw; inversion Hw; reflexivity. }
  rewrite K. tauto.
Qed.

Lemma wx_verdicts : forall r c g,
  r = r_VISIBILITY \/ (r = r_T_VISIBILITY /\ opt_all vis_given (x_vis g)) -> made r c -> wx_wf g -> wx_holds g c ->
  judged (x_vis g) (x_weathers g) (x_clouds g) c.
Proof.
  intros r c g R M (_ & Wv & _ & Wc) (_ & Hv & Hw & Hc). apply (verdicts r c _ _ _ R M); auto; [|exact (proj1 Wc)].
  destruct (x_vis g); [exact (proj1 Wv)|exact I].
Qed.

Lemma metar_verdicts : forall e code y mo tr x y' mo' g, metar_parse e code y mo tr = Ok x -> metar_wf y' mo' g -> metar_holds y' mo' g x ->
  judged (g_vis g) (g_weathers g) (g_clouds g) (me_common x).
Proof.
  intros e code y mo tr x y' mo' g E W H. destruct (metar_made_parsed _ _ _ _ _ _ E) as [M _].
  destruct W as (_ & _ & _ & _ & _ & _ & _ & _ & _ & Wv & _ & _ & _ & Wc & _).
  destruct H as (_ & _ & _ & _ & _ & _ & Hv & _ & _ & Hw & Hc & _).
  apply (verdicts r_VISIBILITY _ _ _ _ (or_introl eq_refl) M); auto; [|exact (proj1 Wc)].
  destruct (g_vis g); [exact (proj1 Wv)|exact I].
Qed.

Theorem metar_judged : forall e y mo g rmk tr code,
  clock_wf e -> metar_wf y mo g -> not_last g -> remark_wf rmk -> shows (metar_words g ++ rmk) code ->
  exists x, metar_parse e code (Some y) (Some mo) tr = Ok x
    /\ judged (g_vis g) (g_weathers g) (g_clouds g) (me_common x).
Proof.
  intros e y mo g rmk tr code H1 H2 H3 H4 H5.
  destruct (metar_round_trip e y mo g rmk tr code H1 H2 H3 H4 H5) as (x & E & H & _). exists x. split; [exact E|].
  exact (metar_verdicts _ _ _ _ _ _ _ _ _ E H2 H).
Qed.

Theorem trends_judged : forall e y mo g ts rmk tr code te,
  clock_wf e -> metar_wf y mo g -> not_last g -> remark_wf rmk ->
  two_hours (issue_of y mo g) te -> trends_wf (issue_of y mo g) ts ->
  shows (metar_words g ++ flat_map trend_text ts ++ rmk) code ->
  exists x, metar_parse e code (Some y) (Some mo) tr = Ok x
    /\ judged (g_vis g) (g_weathers g) (g_clouds g) (me_common x)
    /\ Forall2 (fun t p => judged (x_vis (n_wx t)) (x_weathers (n_wx t)) (x_clouds (n_wx t)) (cp_common p)) ts (gl_list (me_trends x)).
Proof.
  intros e y mo g ts rmk tr code te H1 H2 H3 H4 H5 H6 H7.
  destruct (trend_round_trip e y mo g ts rmk tr code te H1 H2 H3 H4 H5 H6 H7) as (x & E & H & T & _). exists x. split; [exact E|].
  split; [exact (metar_verdicts _ _ _ _ _ _ _ _ _ E H2 H)|]. destruct (metar_made_parsed _ _ _ _ _ _ E) as [_ M].
  destruct H6 as [W _]. clear - T M W. induction T as [|t p ts ps H T IH]; [constructor|].
  assert (M0 := Forall_inv M). assert (W0 := Forall_inv W). apply Forall_inv_tail in M. apply Forall_inv_tail in W.
  constructor; [|exact (IH W M)].
  apply (wx_verdicts r_VISIBILITY _ _ (or_introl eq_refl) M0); [exact (proj1 (proj2 W0))|].
  destruct H as (_ & _ & _ & _ & _ & _ & _ & _ & H). exact H.
Qed.

Theorem taf_judged : forall e y mo g tr code, clock_wf e -> taf_wf y mo g -> shows (taf_words g) code ->
  exists x, taf_parse e code (Some y) (Some mo) tr = Ok x
    /\ judged (x_vis (h_body g)) (x_weathers (h_body g)) (x_clouds (h_body g)) (ta_common x)
    /\ Forall2 (fun h p => judged (x_vis (h_wx h)) (x_weathers (h_wx h)) (x_clouds (h_wx h)) (cf_common p))
         (h_changes g) (gl_list (ta_changes x)).
Proof.
  intros e y mo g tr code H1 H2 H3.
  destruct (taf_round_trip e y mo g tr code H1 H2 H3) as (x & E & H & _). exists x. split; [exact E|].
  destruct (taf_made_parsed _ _ _ _ _ _ E) as [M0 M].
  destruct H as (_ & _ & _ & _ & _ & _ & _ & Hb & _ & _ & Hc).
  destruct H2 as (_ & _ & _ & _ & _ & _ & _ & (Wb & Wg & _) & _ & _ & _ & _ & Wc).
  split; [exact (wx_verdicts r_T_VISIBILITY _ _ (or_intror (conj eq_refl Wg)) M0 Wb Hb)|].
  assert (W : Forall (fun h => wx_wf (h_wx h)) (h_changes g)).
  { destruct (h_valid g); [|rewrite Wc; constructor]. destruct Wc as (s & _ & Wc). eapply Forall_impl; [|exact Wc].
    intros h K. exact (proj1 (proj2 K)). }
  clear - Hc M W. revert M W Hc. generalize (gl_list (ta_changes x)) as cs. generalize (h_changes g) as gs.
  generalize (t_dt (va_from (ta_valid x))), (t_dt (va_until (ta_valid x))). intros s u gs.
  induction gs as [|h gs IH]; intros [|c cs] M W H; cbn [changes_are] in H; try contradiction; [constructor|].
  destruct H as (H & _ & Hr). assert (M0 := Forall_inv M). assert (W0 := Forall_inv W). apply Forall_inv_tail in M. apply Forall_inv_tail in W.
  constructor; [|exact (IH cs M W Hr)].
  apply (wx_verdicts r_VISIBILITY _ _ (or_introl eq_refl) M0 W0). exact (proj2 (proj2 (proj2 H))).
Qed.
