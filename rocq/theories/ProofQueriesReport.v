(** * Asking a METAR or a TAF: proofs for C65 *)
From Coq Require Import String Ascii.
From Coq Require Import List NArith ZArith Bool Lia.
From Verif Require Import PyBase PyRegex PyFloat AeroRegex Base MetarGroups Trend Metar Taf AsDict Json Queries
  SpecQueries ProofLists ProofAbsent ProofProb ProofRangeReport ProofDict ProofDictReport ProofJsonReport ProofQueries.
Import ListNotations.
Local Open Scope nat_scope.
Local Open Scope list_scope.

(** ** METAR *)

Definition trend_rel (p p' : change_period) : Prop := exists c, p' = cp_set_common c p /\ alike true (cp_common p) c.
Definition trend_rest (p : change_period) : Prop := fresh (cp_common p).

Lemma trend_snd : forall same q p, on_trend same q p
  = (fst (on_period same (cp_code p) (change_period_str p) (c_string (cp_common p)) q (cp_common p)),
     cp_set_common (snd (on_period same (cp_code p) (change_period_str p) (c_string (cp_common p)) q (cp_common p))) p).
Proof. intros same q p. unfold on_trend. destruct (on_period _ _ _ _ _ _). reflexivity. Qed.

Lemma trend_rel_ask : forall same q p p', trend_rest p -> trend_rel p p' -> trend_rel p (snd (on_trend same q p')).
Proof.
  intros same q p p' R (c & -> & A). rewrite trend_snd. cbn [snd]. eexists. split.
  - reflexivity.
  - cbn [cp_code cp_common cp_set_common]. apply period_alike; [exact R|exact A|reflexivity].
Qed.

Lemma trend_rel_answer : forall same q p p', trend_rest p -> trend_rel p p' -> steady_period q = true \/ trend_rest p' ->
  fst (on_trend same q p') = fst (on_trend same q p).
Proof.
  intros same q p p' R (c & -> & A) S. rewrite !trend_snd. cbn [fst].
  assert (T : change_period_str (cp_set_common c p) = change_period_str p).
  { unfold change_period_str. cbn [cp_common cp_set_common]. rewrite (al_string _ _ _ A eq_refl). reflexivity. }
  rewrite T. cbn [cp_code cp_common cp_set_common] in *. apply period_answer with (b := true); [exact A|].
  destruct S as [S|S]; [left; exact S|right]. rewrite (proj2 R). exact (proj2 S).
Qed.

Lemma trend_rest_ask : forall same q p, trend_rest p -> fst (on_trend same q p) <> ACavok (Ok false) -> trend_rest (snd (on_trend same q p)).
Proof. intros same q p R N. rewrite trend_snd in *. cbn [fst snd] in *. exact (period_fresh _ _ _ _ _ _ R N). Qed.

Lemma trend_rest_dict : forall same p, trend_rest p -> trend_rest (snd (on_trend same PDict p)).
Proof.
  intros same p R. apply trend_rest_ask; [exact R|]. rewrite trend_snd. cbn [fst on_period].
  destruct (forecast_dict _ _). cbn [fst]. intros H. discriminate H.
Qed.

Record metar_rest (x : metar) : Prop := {
  mr_common : fresh (me_common x); mr_rvr : gl_n (me_rvr x) = 0; mr_ws : gl_n (me_ws x) = 0;
  mr_trends : gl_n (me_trends x) = 0; mr_items : Forall trend_rest (gl_list (me_trends x)) }.

Definition metar_rel (x y : metar) : Prop := exists c g, y = upd_common c (upd_trends g x)
  /\ alike true (me_common x) c /\ listed trend_rel (me_trends x) g.

Lemma trend_refl : forall l, Forall2 trend_rel l l.
Proof.
  intros l. induction l as [|p l IH]; constructor; [|exact IH].
  exists (cp_common p). split; [destruct p; reflexivity|apply alike_refl].
Qed.

Lemma metar_refl : forall x, metar_rel x x.
Proof.
  intros x. exists (me_common x), (me_trends x). split; [destruct x; reflexivity|]. split; [apply alike_refl|].
  constructor; [reflexivity|reflexivity|apply trend_refl].
Qed.

Lemma mlike_trends : forall x c g g', upd_trends g' (upd_common c (upd_trends g x)) = upd_common c (upd_trends g' x).
Proof. intros. reflexivity. Qed.
Lemma mlike_common : forall x c c' g, upd_common c' (upd_common c (upd_trends g x)) = upd_common c' (upd_trends g x).
Proof. intros. reflexivity. Qed.

Lemma metar_rel_ask : forall e same q x y, metar_rest x -> metar_rel x y -> metar_rel x (snd (on_metar e same q y)).
Proof.
  intros e same q x y R (c & g & -> & A & G). pose proof R as [R1 R2 R3 R4 R5].
  assert (D : metar_rel x (upd_trends (ask_items (on_trend same PDict) (me_trends (upd_common c (upd_trends g x)))) (upd_common c (upd_trends g x)))).
  { rewrite mlike_trends. exists c. eexists. split; [reflexivity|]. split; [exact A|]. cbn [me_trends upd_common upd_trends].
    exact (items_listed _ _ _ (trend_rel_ask same) _ _ R5 G). }
  destruct q; cbn [on_metar].
  - exists c, g. split; [reflexivity|]. split; assumption.
  - exact D.
  - exact D.
  - pose proof (attrs_alike same true q _ _ R1 A) as K. cbn [me_common upd_common]. destruct (on_attrs same q c) as [a c']. cbn [snd] in *.
    rewrite mlike_common. exists c', g. split; [reflexivity|]. split; assumption.
  - cbn [me_rvr upd_common upd_trends]. rewrite (gl_collect_fresh _ R2). cbn [snd]. exists c, g. split; [reflexivity|]. split; assumption.
  - cbn [me_ws upd_common upd_trends]. rewrite (gl_collect_fresh _ R3). cbn [snd]. exists c, g. split; [reflexivity|]. split; assumption.
  - cbn [me_trends upd_common upd_trends]. rewrite gl_collect_fresh by (rewrite (li_n _ _ _ G); exact R4). cbn [snd]. rewrite mlike_trends.
    exists c, g. split; [reflexivity|]. split; assumption.
  - cbn [me_trends upd_common upd_trends]. pose proof (item_listed _ _ _ (trend_rel_ask same) q i _ _ R5 G) as K.
    destruct (ask_item (on_trend same q) i g) as [a g']. cbn [snd] in *. rewrite mlike_trends. exists c, g'.
    split; [reflexivity|]. split; assumption.
Qed.

Lemma metar_rest_ask : forall e same q y, metar_rest y -> fst (on_metar e same q y) <> ACavok (Ok false) ->
  metar_rest (snd (on_metar e same q y)).
Proof.
  intros e same q y R N. pose proof R as [R1 R2 R3 R4 R5].
  assert (D : metar_rest (upd_trends (ask_items (on_trend same PDict) (me_trends y)) y)).
  { constructor; try assumption. cbn [me_trends upd_trends]. exact (items_rest _ _ (trend_rest_dict same) _ R5). }
  destruct q; cbn [on_metar] in *.
  - exact R.
  - exact D.
  - exact D.
  - pose proof (attrs_fresh same q _ R1) as K. destruct (on_attrs same q (me_common y)) as [a c]. constructor; try assumption. exact (K N).
  - rewrite (gl_collect_fresh _ R2) in *. constructor; assumption.
  - rewrite (gl_collect_fresh _ R3) in *. constructor; assumption.
  - rewrite (gl_collect_fresh _ R4) in *. constructor; assumption.
  - pose proof (item_rest _ _ (trend_rest_ask same) q i _ R5) as K.
    assert (Gn : gl_n (snd (ask_item (on_trend same q) i (me_trends y))) = gl_n (me_trends y)).
    { unfold ask_item. destruct (nth_error _ i) as [p|]; [|reflexivity]. destruct (on_trend same q p). reflexivity. }
    destruct (ask_item (on_trend same q) i (me_trends y)) as [a g]. cbn [fst snd] in *. constructor; try assumption.
    + cbn [me_trends upd_trends]. rewrite Gn. exact R4.
    + exact (K N).
Qed.

(** What rests and is alike is the same. *)
Lemma metar_rest_eq : forall x y, metar_rest x -> metar_rel x y -> metar_rest y -> y = x.
Proof.
  intros x y [R1 R2 R3 R4 R5] (c & g & -> & A & [Gn Gm Gi]) [S1 S2 S3 S4 S5]. cbn [me_common me_trends upd_common upd_trends] in *.
  assert (C : c = me_common x) by (apply (alike_true _ _ A); rewrite (proj2 S1), (proj2 R1); reflexivity).
  assert (G : gl_list g = gl_list (me_trends x)).
  { clear - Gi R5 S5. revert R5 S5. induction Gi as [|p p' l l' P H IH]; intros R S; [reflexivity|].
    rewrite (IH (Forall_inv_tail R) (Forall_inv_tail S)). f_equal. destruct P as (c & -> & A).
    rewrite (alike_true _ _ A) by (rewrite (proj2 (Forall_inv S : fresh c)), (proj2 (Forall_inv R)); reflexivity). destruct p; reflexivity. }
  rewrite C. destruct g as [n mx l]. cbn in Gn, Gm, G. rewrite Gn, Gm, G.
  destruct x as [? ? ? ? ? ? ? ? ? ? ? ? ? ? ? ? ? [? ? ?] ?]. reflexivity.
Qed.

Lemma metar_dict_alike : forall e x c g, alike true (me_common x) c ->
  list_dict change_period_dict g = list_dict change_period_dict (me_trends x) ->
  metar_dict e (upd_common c (upd_trends g x)) = metar_dict e x.
Proof.
  intros e x c g A G. unfold metar_dict.
  cbn [me_rvr me_common me_ws me_trends me_raw me_sections me_unparsed me_type me_station me_time me_modifier me_wvar me_minvis
       me_temps me_press me_recent me_sea me_rwy upd_common upd_trends].
  destruct A as [A1 A2 A3 A4 A5 A6]. rewrite G, A2, A3, A4. unfold flight_rules. rewrite A3, A6.
  assert (K : list_dict cloud_dict (c_clouds c) = list_dict cloud_dict (c_clouds (me_common x))) by (unfold list_dict; rewrite A6; reflexivity).
  rewrite K. reflexivity.
Qed.

Lemma metar_answer : forall e same q x y, metar_rest x -> metar_rel x y -> steady_metar x q = true \/ metar_rest y ->
  fst (on_metar e same q y) = fst (on_metar e same q x).
Proof.
  intros e same q x y R L [S|S]; [|rewrite (metar_rest_eq _ _ R L S); reflexivity].
  destruct L as (c & g & -> & A & G). pose proof R as [R1 R2 R3 R4 R5].
  assert (D : match gl_list (me_trends x) with [] => true | _ => false end = true ->
    metar_dict e (upd_common c (upd_trends g x)) = metar_dict e x).
  { intros E. apply metar_dict_alike; [exact A|]. destruct G as [_ _ Gi]. unfold list_dict.
    destruct (gl_list (me_trends x)); [|discriminate E]. inversion Gi. reflexivity. }
  destruct q; cbn [on_metar steady_metar] in *.
  - cbn [fst]. unfold metar_str. cbn [me_common upd_common]. rewrite (al_string _ _ _ A eq_refl). reflexivity.
  - cbn [fst]. rewrite (D S). reflexivity.
  - cbn [fst]. unfold metar_json. rewrite (D S). reflexivity.
  - pose proof (attrs_answer same true q _ _ A (or_introl S)) as K. cbn [me_common upd_common].
    destruct (on_attrs same q c), (on_attrs same q (me_common x)). exact K.
  - cbn [me_rvr upd_common upd_trends]. destruct (gl_collect (me_rvr x)). reflexivity.
  - cbn [me_ws upd_common upd_trends]. destruct (gl_collect (me_ws x)). reflexivity.
  - cbn [me_trends upd_common upd_trends]. rewrite (gl_collect_fresh _ R4), gl_collect_fresh by (rewrite (li_n _ _ _ G); exact R4).
    cbn [fst]. f_equal. destruct G as [_ _ Gi]. clear - Gi. induction Gi as [|p p' l l' P H IH]; [reflexivity|]. cbn [map].
    rewrite IH. destruct P as (c & -> & _). reflexivity.
  - pose proof (item_answer _ _ _ (trend_rel_answer same) q i _ _ R5 G (or_introl S)) as K. cbn [me_trends upd_common upd_trends].
    destruct (ask_item (on_trend same q) i g), (ask_item (on_trend same q) i (me_trends x)). exact K.
Qed.

(** ** Accepted METARs rest *)

Definition body_rest (x : metar) : Prop := fresh (me_common x) /\ gl_n (me_rvr x) = 0 /\ gl_n (me_ws x) = 0.

Lemma body_rest_step : forall e y mo h (g : str) m x x', In h (metar_handlers e y mo) -> re_match (h_regexp h) g = Some m ->
  h_handle h m x = Ok x' -> body_rest x -> body_rest x'.
Proof.
  intros e y mo h g m x x' I _ E (H1 & H2 & H3). unfold metar_handlers in I. cbn [In] in I.
  assert (L : forall f, (forall c c', f m c = Ok c' -> fresh c -> fresh c') -> lift f m x = Ok x' -> body_rest x').
  { intros f Hf Ef. unfold lift in Ef. destruct (f m (me_common x)) as [c|] eqn:Ec; [|discriminate Ef]. cbn [bind] in Ef.
    match type of Ef with Ok ?a = Ok _ => assert (K : x' = a) by congruence end. rewrite K.
    split; [exact (Hf _ _ Ec H1)|]. split; assumption. }
  assert (V : handle_runway_range m x = Ok x' -> body_rest x').
  { intros Er. unfold handle_runway_range in Er. destruct (runway_range_new (Some m)) as [r|]; [|discriminate Er]. cbn [bind] in Er.
    destruct (gl_add r (me_rvr x)) as [l|] eqn:G; [|discriminate Er]. cbn [bind] in Er. apply fresh_add in G.
    match type of Er with Ok ?a = Ok _ => assert (K : x' = a) by congruence end. rewrite K.
    split; [exact H1|]. split; [cbn; rewrite G; exact H2|exact H3]. }
  assert (W : handle_windshear m x = Ok x' -> body_rest x').
  { intros Er. unfold handle_windshear in Er. cbv zeta in Er.
    destruct (gl_add _ (me_ws x)) as [l|] eqn:Gw; [|discriminate Er]. cbn [bind] in Er. apply fresh_add in Gw.
    match type of Er with Ok ?a = Ok _ => assert (K : x' = a) by congruence end. rewrite K.
    split; [exact H1|]. split; [exact H2|cbn; rewrite Gw; exact H3]. }
  repeat (destruct I as [<-|I]; [cbn [h_handle h_regexp] in E|]); try contradiction;
    try (apply (L _ (fresh_wind m) E)); try (apply (L _ (fresh_prevailing m) E));
    try (apply (L _ (fresh_weather m) E)); try (apply (L _ (fresh_cloud m) E)); try exact (V E); try exact (W E);
    unfold handle_type, handle_station, handle_time, handle_modifier, handle_wind_variation, handle_minimum_visibility,
      handle_temperatures, handle_pressure, handle_recent_weather, handle_sea_state, handle_runway_state in E; cbv zeta in E; binds E;
    (match type of E with Ok ?a = Ok _ => assert (K : x' = a) by congruence end; rewrite K; split; [exact H1|]; split; assumption).
Qed.

Lemma body_rest_trends : forall l x x', handle_trends l x = Ok x' -> body_rest x -> body_rest x'.
Proof.
  intros l. induction l as [|w l IH]; intros x x' E T; cbn [handle_trends] in E; [injection E as <-; auto|].
  destruct w as [|c w]; [exact (IH _ _ E T)|]. unfold handle_weather_trend in E.
  destruct (change_period_new (c :: w) _) as [p|] eqn:C; [|discriminate E]. cbn [bind] in E.
  destruct (gl_add p (me_trends x)) as [g|] eqn:G; [|discriminate E]. cbn [bind] in E.
  apply IH in E; [exact E|exact T].
Qed.

Lemma metar_rests : forall e code y mo tr x, metar_parse e code y mo tr = Ok x -> metar_rest x.
Proof.
  intros e code y mo tr x E. pose proof (metar_fresh _ _ _ _ _ _ E) as T.
  unfold metar_parse in E. destruct (report_raw_code code) as [raw|]; [|discriminate E]. cbn [bind] in E.
  destruct (metar_init e raw y mo) as [x0|] eqn:E0; [|discriminate E]. cbn [bind] in E.
  assert (T0 : body_rest x0).
  { unfold metar_init in E0. destruct (time_new e None None None None None None); [|discriminate E0]. cbn [bind] in E0.
    destruct (common_new []) as [c|] eqn:C; [|discriminate E0]. cbn [bind] in E0. binds E0.
    injection E0 as <-. split; [exact (common_new_fresh _ _ C)|]. split; reflexivity. }
  unfold parse_body in E. destruct (parse_section (metar_handlers e y mo) _ x0) as [[x1 un]|] eqn:E1; [|discriminate E].
  cbn [bind] in E. apply (parse_section_keep _ body_rest) in E1; [|exact (body_rest_step e y mo)|exact T0].
  unfold parse_weather_trend in E. destruct (handle_trends _ _) as [x2|] eqn:E2; [|discriminate E]. cbn [bind] in E.
  apply body_rest_trends in E2; [|exact E1].
  rewrite gl_collect_spec in E. cbv zeta in E.
  assert (X : exists un', x = upd_unparsed un' (upd_trends (mk_gl 0 (gl_max (me_trends x2)) (gl_list (me_trends x2))) x2)).
  { eexists. destruct (me_unparsed (upd_unparsed _ _)) as [|u us] in E; [symmetry; injection E; intros H; exact H|].
    destruct tr; [discriminate E|symmetry; injection E; intros H; exact H]. }
  destruct X as (un' & X). rewrite X in *. destruct E2 as (K1 & K2 & K3).
  constructor; [exact K1|exact K2|exact K3|reflexivity|exact T].
Qed.

(** ** TAF *)

Definition change_rel (p p' : change_fc) : Prop := exists c, p' = cf_set_common c p /\ alike false (cf_common p) c.

Lemma change_snd : forall same q p, on_change same q p
  = (fst (on_period same (cf_code p) (change_fc_str p) (change_fc_str p) q (cf_common p)),
     cf_set_common (snd (on_period same (cf_code p) (change_fc_str p) (change_fc_str p) q (cf_common p))) p).
Proof. intros same q p. unfold on_change. destruct (on_period _ _ _ _ _ _). reflexivity. Qed.

Lemma change_rel_ask : forall same q p p', change_fresh p -> change_rel p p' -> change_rel p (snd (on_change same q p')).
Proof.
  intros same q p p' R (c & -> & A). rewrite change_snd. cbn [snd]. eexists. split.
  - reflexivity.
  - cbn [cf_code cf_common cf_set_common]. apply period_alike; [exact R|exact A|intros H; discriminate H].
Qed.

Lemma change_rel_answer : forall same q p p', change_fresh p -> change_rel p p' -> steady_period q = true \/ change_fresh p' ->
  fst (on_change same q p') = fst (on_change same q p).
Proof.
  intros same q p p' R (c & -> & A) S. rewrite !change_snd. cbn [fst].
  change (change_fc_str (cf_set_common c p)) with (change_fc_str p).
  cbn [cf_code cf_common cf_set_common] in *. apply period_answer with (b := false); [exact A|].
  destruct S as [S|S]; [left; exact S|right]. rewrite (proj2 R). exact (proj2 S).
Qed.

Lemma change_rest_ask : forall same q p, change_fresh p -> fst (on_change same q p) <> ACavok (Ok false) -> change_fresh (snd (on_change same q p)).
Proof. intros same q p R N. rewrite change_snd in *. cbn [fst snd] in *. exact (period_fresh _ _ _ _ _ _ R N). Qed.

Lemma change_rest_dict : forall same p, change_fresh p -> change_fresh (snd (on_change same PDict p)).
Proof.
  intros same p R. apply change_rest_ask; [exact R|]. rewrite change_snd. cbn [fst on_period].
  destruct (forecast_dict _ _). cbn [fst]. intros H. discriminate H.
Qed.

Record taf_rest (x : taf) : Prop := {
  tr_common : fresh (ta_common x); tr_max : gl_n (ta_max x) = 0; tr_min : gl_n (ta_min x) = 0;
  tr_changes : gl_n (ta_changes x) = 0; tr_items : Forall change_fresh (gl_list (ta_changes x)) }.

Definition taf_rel (x y : taf) : Prop := exists c g, y = tupd_common c (tupd_changes g x)
  /\ alike true (ta_common x) c /\ listed change_rel (ta_changes x) g.

Lemma change_refl : forall l, Forall2 change_rel l l.
Proof.
  intros l. induction l as [|p l IH]; constructor; [|exact IH].
  exists (cf_common p). split; [destruct p; reflexivity|apply alike_refl].
Qed.

Lemma taf_refl : forall x, taf_rel x x.
Proof.
  intros x. exists (ta_common x), (ta_changes x). split; [destruct x; reflexivity|]. split; [apply alike_refl|].
  constructor; [reflexivity|reflexivity|apply change_refl].
Qed.

Lemma tlike_changes : forall x c g g', tupd_changes g' (tupd_common c (tupd_changes g x)) = tupd_common c (tupd_changes g' x).
Proof. intros. reflexivity. Qed.
Lemma tlike_common : forall x c c' g, tupd_common c' (tupd_common c (tupd_changes g x)) = tupd_common c' (tupd_changes g x).
Proof. intros. reflexivity. Qed.

Lemma taf_rel_ask : forall e same q x y, taf_rest x -> taf_rel x y -> taf_rel x (snd (on_taf e same q y)).
Proof.
  intros e same q x y R (c & g & -> & A & G). pose proof R as [R1 R2 R3 R4 R5].
  assert (D : taf_rel x (tupd_changes (ask_items (on_change same PDict) (ta_changes (tupd_common c (tupd_changes g x)))) (tupd_common c (tupd_changes g x)))).
  { rewrite tlike_changes. exists c. eexists. split; [reflexivity|]. split; [exact A|]. cbn [ta_changes tupd_common tupd_changes].
    exact (items_listed _ _ _ (change_rel_ask same) _ _ R5 G). }
  destruct q; cbn [on_taf].
  - exists c, g. split; [reflexivity|]. split; assumption.
  - exact D.
  - exact D.
  - pose proof (attrs_alike same true q _ _ R1 A) as K. cbn [ta_common tupd_common]. destruct (on_attrs same q c) as [a c']. cbn [snd] in *.
    rewrite tlike_common. exists c', g. split; [reflexivity|]. split; assumption.
  - cbn [ta_max tupd_common tupd_changes]. rewrite (gl_collect_fresh _ R2). cbn [snd]. exists c, g. split; [reflexivity|]. split; assumption.
  - cbn [ta_min tupd_common tupd_changes]. rewrite (gl_collect_fresh _ R3). cbn [snd]. exists c, g. split; [reflexivity|]. split; assumption.
  - cbn [ta_changes tupd_common tupd_changes]. rewrite gl_collect_fresh by (rewrite (li_n _ _ _ G); exact R4). cbn [snd]. rewrite tlike_changes.
    exists c, g. split; [reflexivity|]. split; assumption.
  - cbn [ta_changes tupd_common tupd_changes]. pose proof (item_listed _ _ _ (change_rel_ask same) q i _ _ R5 G) as K.
    destruct (ask_item (on_change same q) i g) as [a g']. cbn [snd] in *. rewrite tlike_changes. exists c, g'.
    split; [reflexivity|]. split; assumption.
Qed.

Lemma taf_rest_ask : forall e same q y, taf_rest y -> fst (on_taf e same q y) <> ACavok (Ok false) ->
  taf_rest (snd (on_taf e same q y)).
Proof.
  intros e same q y R N. pose proof R as [R1 R2 R3 R4 R5].
  assert (D : taf_rest (tupd_changes (ask_items (on_change same PDict) (ta_changes y)) y)).
  { constructor; try assumption. cbn [ta_changes tupd_changes]. exact (items_rest _ _ (change_rest_dict same) _ R5). }
  destruct q; cbn [on_taf] in *.
  - exact R.
  - exact D.
  - exact D.
  - pose proof (attrs_fresh same q _ R1) as K. destruct (on_attrs same q (ta_common y)) as [a c]. constructor; try assumption. exact (K N).
  - rewrite (gl_collect_fresh _ R2) in *. constructor; assumption.
  - rewrite (gl_collect_fresh _ R3) in *. constructor; assumption.
  - rewrite (gl_collect_fresh _ R4) in *. constructor; assumption.
  - pose proof (item_rest _ _ (change_rest_ask same) q i _ R5) as K.
    assert (Gn : gl_n (snd (ask_item (on_change same q) i (ta_changes y))) = gl_n (ta_changes y)).
    { unfold ask_item. destruct (nth_error _ i) as [p|]; [|reflexivity]. destruct (on_change same q p). reflexivity. }
    destruct (ask_item (on_change same q) i (ta_changes y)) as [a g]. cbn [fst snd] in *. constructor; try assumption.
    + cbn [ta_changes tupd_changes]. rewrite Gn. exact R4.
    + exact (K N).
Qed.

Lemma taf_dict_alike : forall e x c g, alike true (ta_common x) c ->
  list_dict change_fc_dict g = list_dict change_fc_dict (ta_changes x) ->
  taf_dict e (tupd_common c (tupd_changes g x)) = taf_dict e x.
Proof.
  intros e x c g A G. unfold taf_dict.
  cbn [ta_common ta_changes ta_raw ta_sections ta_unparsed ta_type ta_station ta_time ta_modifier ta_valid ta_missing ta_cancelled
       ta_max ta_min tupd_common tupd_changes].
  destruct A as [A1 A2 A3 A4 A5 A6]. rewrite G, A2, A3, A4.
  assert (K : list_dict cloud_dict (c_clouds c) = list_dict cloud_dict (c_clouds (ta_common x))) by (unfold list_dict; rewrite A6; reflexivity).
  rewrite K. reflexivity.
Qed.

Lemma change_dicts : forall l l', Forall2 change_rel l l' -> Forall change_fresh l -> Forall change_fresh l' ->
  map change_fc_dict l' = map change_fc_dict l.
Proof.
  intros l l' H. induction H as [|p p' l l' P H IH]; intros R S; [reflexivity|]. cbn [map].
  rewrite (IH (Forall_inv_tail R) (Forall_inv_tail S)). f_equal. destruct P as (c & -> & A). unfold change_fc_dict.
  cbn [cf_code cf_common cf_set_common].
  assert (N : gl_n (c_clouds c) = gl_n (c_clouds (cf_common p))).
  { pose proof (Forall_inv S) as S1. pose proof (Forall_inv R) as R1. rewrite (proj2 R1). exact (proj2 S1). }
  rewrite (alike_same _ _ _ A N). apply forecast_same.
Qed.

Lemma taf_answer : forall e same q x y, taf_rest x -> taf_rel x y -> steady_taf x q = true \/ taf_rest y ->
  fst (on_taf e same q y) = fst (on_taf e same q x).
Proof.
  intros e same q x y R (c & g & -> & A & G) S. pose proof R as [R1 R2 R3 R4 R5].
  assert (D : match gl_list (ta_changes x) with [] => true | _ => false end = true \/ taf_rest (tupd_common c (tupd_changes g x)) ->
    taf_dict e (tupd_common c (tupd_changes g x)) = taf_dict e x).
  { intros E. apply taf_dict_alike; [exact A|]. destruct G as [_ _ Gi]. unfold list_dict. destruct E as [E|E].
    - destruct (gl_list (ta_changes x)); [|discriminate E]. inversion Gi. reflexivity.
    - rewrite (change_dicts _ _ Gi R5 (tr_items _ E)). reflexivity. }
  destruct q; cbn [on_taf steady_taf] in *.
  - cbn [fst]. unfold taf_str. cbn [ta_common tupd_common]. rewrite (al_string _ _ _ A eq_refl). reflexivity.
  - cbn [fst]. rewrite (D S). reflexivity.
  - cbn [fst]. unfold taf_json. rewrite (D S). reflexivity.
  - cbn [ta_common tupd_common]. assert (K : fst (on_attrs same q c) = fst (on_attrs same q (ta_common x))).
    { apply (attrs_answer same true q _ _ A). destruct S as [S|[S _ _ _ _]]; [left; exact S|right]. rewrite (proj2 R1). exact (proj2 S). }
    destruct (on_attrs same q c), (on_attrs same q (ta_common x)). exact K.
  - cbn [ta_max tupd_common tupd_changes]. destruct (gl_collect (ta_max x)). reflexivity.
  - cbn [ta_min tupd_common tupd_changes]. destruct (gl_collect (ta_min x)). reflexivity.
  - cbn [ta_changes tupd_common tupd_changes]. rewrite (gl_collect_fresh _ R4), gl_collect_fresh by (rewrite (li_n _ _ _ G); exact R4).
    cbn [fst]. f_equal. destruct G as [_ _ Gi]. clear - Gi. induction Gi as [|p p' l l' P H IH]; [reflexivity|]. cbn [map].
    rewrite IH. destruct P as (c & -> & _). reflexivity.
  - cbn [ta_changes tupd_common tupd_changes].
    assert (K : fst (ask_item (on_change same q) i g) = fst (ask_item (on_change same q) i (ta_changes x))).
    { apply (item_answer _ _ _ (change_rel_answer same) q i _ _ R5 G). destruct S as [S|[_ _ _ _ S]]; [left; exact S|right; exact S]. }
    destruct (ask_item (on_change same q) i g), (ask_item (on_change same q) i (ta_changes x)). exact K.
Qed.

(** Accepted TAFs rest. *)
Definition tbody_rest (x : taf) : Prop := fresh (ta_common x) /\ gl_n (ta_max x) = 0 /\ gl_n (ta_min x) = 0.

Lemma tbody_rest_step : forall e y mo h (g : str) m x x', In h (taf_handlers e y mo) -> re_match (h_regexp h) g = Some m ->
  h_handle h m x = Ok x' -> tbody_rest x -> tbody_rest x'.
Proof.
  intros e y mo h g m x x' I _ E (H1 & H2 & H3). unfold taf_handlers in I. cbn [In] in I.
  assert (L : forall f, (forall c c', f m c = Ok c' -> fresh c -> fresh c') -> tlift f m x = Ok x' -> tbody_rest x').
  { intros f Hf Ef. unfold tlift in Ef. destruct (f m (ta_common x)) as [c|] eqn:Ec; [|discriminate Ef]. cbn [bind] in Ef.
    match type of Ef with Ok ?a = Ok _ => assert (K : x' = a) by congruence end. rewrite K.
    split; [exact (Hf _ _ Ec H1)|]. split; assumption. }
  assert (T : thandle_temperature m x = Ok x' -> tbody_rest x').
  { intros Et. unfold thandle_temperature in Et. destruct (taf_temp_new m _) as [t|] eqn:W; [|discriminate Et]. cbn [bind] in Et.
    destruct (opt_str_eqb _ _); (destruct (gl_add t _) as [l|] eqn:G; [|discriminate Et]; cbn [bind] in Et; apply fresh_add in G;
      match type of Et with Ok ?a = Ok _ => assert (K : x' = a) by congruence end; rewrite K);
      (split; [exact H1|]); split; cbn; try assumption; rewrite G; assumption. }
  repeat (destruct I as [<-|I]; [cbn [h_handle h_regexp] in E|]); try contradiction;
    try (apply (L _ (fresh_wind m) E)); try (apply (L _ (fresh_prevailing m) E));
    try (apply (L _ (fresh_weather m) E)); try (apply (L _ (fresh_cloud m) E)); try exact (T E);
    unfold thandle_type, thandle_modifier, thandle_station, thandle_time, thandle_missing, thandle_valid, thandle_cancelled in E;
    cbv zeta in E; binds E;
    (match type of E with Ok ?a = Ok _ => assert (K : x' = a) by congruence end; rewrite K; split; [exact H1|]; split; assumption).
Qed.

Lemma tbody_rest_changes : forall l x x', handle_changes l x = Ok x' -> tbody_rest x -> tbody_rest x'.
Proof.
  intros l. induction l as [|w l IH]; intros x x' E T; cbn [handle_changes] in E; [injection E as <-; auto|].
  destruct w as [|c w]; [exact (IH _ _ E T)|]. unfold handle_change_forecasted in E.
  destruct (change_fc_new (c :: w) _) as [p|] eqn:C; [|discriminate E]. cbn [bind] in E.
  destruct (changes_add p (ta_changes x)) as [g|] eqn:G; [|discriminate E]. cbn [bind] in E.
  apply IH in E; [exact E|exact T].
Qed.

Lemma taf_rests : forall e code y mo tr x, taf_parse e code y mo tr = Ok x -> taf_rest x.
Proof.
  intros e code y mo tr x E. destruct (taf_fresh_parsed _ _ _ _ _ _ E) as (_ & _ & T).
  unfold taf_parse in E. destruct (report_raw_code code) as [raw|]; [|discriminate E]. cbn [bind] in E.
  destruct (taf_init e raw) as [x0|] eqn:E0; [|discriminate E]. cbn [bind] in E.
  assert (T0 : tbody_rest x0).
  { unfold taf_init in E0. destruct (time_new e None None None None None None); [|discriminate E0]. cbn [bind] in E0.
    destruct (taf_split raw) as [body codes]. destruct (common_new []) as [c|] eqn:C; [|discriminate E0]. cbn [bind] in E0.
    destruct (valid_from_taf None _); [|discriminate E0]. cbn [bind] in E0. injection E0 as <-.
    split; [exact (common_new_fresh _ _ C)|]. split; reflexivity. }
  unfold taf_parse_body in E. destruct (parse_section (taf_handlers e y mo) _ x0) as [[x1 un]|] eqn:E1; [|discriminate E].
  cbn [bind] in E. apply (parse_section_keep _ tbody_rest) in E1; [|exact (tbody_rest_step e y mo)|exact T0].
  unfold parse_changes_forecasted in E. destruct (handle_changes _ _) as [x2|] eqn:E2; [|discriminate E]. cbn [bind] in E.
  apply tbody_rest_changes in E2; [|exact E1].
  rewrite gl_collect_spec in E. cbv zeta in E.
  assert (X : exists un', x = tupd_unparsed un' (tupd_changes (mk_gl 0 (gl_max (ta_changes x2)) (gl_list (ta_changes x2))) x2)).
  { eexists. destruct (ta_unparsed (tupd_unparsed _ _)) as [|u us] in E; [symmetry; injection E; intros H; exact H|].
    destruct tr; [discriminate E|symmetry; injection E; intros H; exact H]. }
  destruct X as (un' & X). rewrite X in *. destruct E2 as (K1 & K2 & K3).
  constructor; [exact K1|exact K2|exact K3|reflexivity|exact T].
Qed.

(** ** The dictionary but for the trends or changes *)

Ltac each_key k := repeat (match goal with |- context [str_eqb k ?w] => destruct (str_eqb k w); [reflexivity|] end).

Lemma metar_dict_body : forall e x y d, metar_rel x y -> metar_dict e x = Ok d ->
  exists d', metar_dict e y = Ok d' /\ forall k, k <> py "weather_trends" -> assoc k d' = assoc k d.
Proof.
  intros e x y d (c & g & -> & [A1 A2 A3 A4 A5 A6] & [Gn Gm Gi]) E. unfold metar_dict in *.
  cbn [me_rvr me_common me_ws me_trends me_raw me_sections me_unparsed me_type me_station me_time me_modifier me_wvar me_minvis
       me_temps me_press me_recent me_sea me_rwy upd_common upd_trends].
  rewrite A2, A3, A4. unfold flight_rules in *. rewrite A3, A6.
  assert (K : list_dict cloud_dict (c_clouds c) = list_dict cloud_dict (c_clouds (me_common x))) by (unfold list_dict; rewrite A6; reflexivity).
  rewrite K. destruct (list_dict rvr_dict (me_rvr x)) as [d1|]; [|discriminate E]. cbn [bind] in *.
  destruct (list_dict weather_dict _) as [d2|]; [|discriminate E]. cbn [bind] in *.
  destruct (list_dict cloud_dict _) as [d3|]; [|discriminate E]. cbn [bind] in *.
  destruct (list_dict ws_dict _) as [d4|]; [|discriminate E]. cbn [bind] in *.
  rewrite !list_dict_spec in *. replace (length (gl_list g)) with (length (gl_list (me_trends x))) by (clear - Gi; induction Gi; cbn; congruence).
  destruct (Nat.leb _ 10); [|discriminate E]. cbn [bind] in *. eexists. split; [reflexivity|].
  match type of E with Ok ?a = Ok _ => assert (H : d = a) by congruence end. rewrite H. clear E H. intros k N.
  unfold report_dict. rewrite !dupdate_new by (lazy; reflexivity). cbn [app assoc].
  destruct (str_eqb k (py "weather_trends")) eqn:W; [apply str_eqb_eq in W; contradiction|]. each_key k. reflexivity.
Qed.

Lemma taf_dict_body : forall e x y d, taf_rel x y -> taf_dict e x = Ok d ->
  exists d', taf_dict e y = Ok d' /\ forall k, k <> py "changes_forecasted" -> assoc k d' = assoc k d.
Proof.
  intros e x y d (c & g & -> & [A1 A2 A3 A4 A5 A6] & [Gn Gm Gi]) E. unfold taf_dict in *.
  cbn [ta_common ta_changes ta_raw ta_sections ta_unparsed ta_type ta_station ta_time ta_modifier ta_valid ta_missing ta_cancelled
       ta_max ta_min tupd_common tupd_changes].
  rewrite A2, A3, A4.
  assert (K : list_dict cloud_dict (c_clouds c) = list_dict cloud_dict (c_clouds (ta_common x))) by (unfold list_dict; rewrite A6; reflexivity).
  rewrite K. destruct (list_dict weather_dict _) as [d2|]; [|discriminate E]. cbn [bind] in *.
  destruct (list_dict cloud_dict _) as [d3|]; [|discriminate E]. cbn [bind] in *.
  destruct (list_dict taf_temp_dict (ta_max x)) as [d4|]; [|discriminate E]. cbn [bind] in *.
  destruct (list_dict taf_temp_dict (ta_min x)) as [d5|]; [|discriminate E]. cbn [bind] in *.
  rewrite !list_dict_spec in *. replace (length (gl_list g)) with (length (gl_list (ta_changes x))) by (clear - Gi; induction Gi; cbn; congruence).
  destruct (Nat.leb _ 10); [|discriminate E]. cbn [bind] in *. eexists. split; [reflexivity|].
  match type of E with Ok ?a = Ok _ => assert (H : d = a) by congruence end. rewrite H. clear E H. intros k N.
  unfold report_dict. rewrite !dupdate_new by (lazy; reflexivity). cbn [app assoc].
  destruct (str_eqb k (py "changes_forecasted")) eqn:W; [apply str_eqb_eq in W; contradiction|]. each_key k. reflexivity.
Qed.

(** ** The statements *)

Lemma metar_repeats : forall e code y mo tr same x qs, metar_parse e code y mo tr = Ok x ->
  never_no (fst (in_turn (on_metar e same) qs x)) ->
  repeats (on_metar e same) x qs /\ snd (in_turn (on_metar e same) qs x) = x.
Proof.
  intros e code y mo tr same x qs E N. apply metar_rests in E.
  destruct (turns_same (on_metar e same) metar_rel metar_rest (steady_metar x) x (fun q z => metar_rel_ask e same q x z E)
    (fun q z => metar_answer e same q x z E) (metar_rest_ask e same) qs x (metar_refl x) E N) as [A B].
  split; [exact A|]. apply (metar_rest_eq _ _ E); [|exact B].
  exact (turns_rel (on_metar e same) metar_rel x (fun q z => metar_rel_ask e same q x z E) qs x (metar_refl x)).
Qed.

Lemma metar_steady : forall e code y mo tr same x qs q, metar_parse e code y mo tr = Ok x -> steady_metar x q = true ->
  fst (on_metar e same q (snd (in_turn (on_metar e same) qs x))) = fst (on_metar e same q x).
Proof.
  intros e code y mo tr same x qs q E S. apply metar_rests in E.
  exact (turns_steady (on_metar e same) metar_rel metar_rest (steady_metar x) x (metar_refl x)
    (fun q z => metar_rel_ask e same q x z E) (fun q z => metar_answer e same q x z E) qs q S).
Qed.

Lemma metar_body_kept : forall e code y mo tr same x qs d, metar_parse e code y mo tr = Ok x ->
  fst (on_metar e same MDict x) = ADict (Ok d) ->
  exists d', fst (on_metar e same MDict (snd (in_turn (on_metar e same) qs x))) = ADict (Ok d')
    /\ forall k, k <> py "weather_trends" -> assoc k d' = assoc k d.
Proof.
  intros e code y mo tr same x qs d E D. apply metar_rests in E. cbn [on_metar fst] in *. injection D as D.
  destruct (metar_dict_body e x _ d
    (turns_rel (on_metar e same) metar_rel x (fun q z => metar_rel_ask e same q x z E) qs x (metar_refl x)) D) as (d' & D' & K).
  exists d'. rewrite D'. split; [reflexivity|exact K].
Qed.

Lemma taf_repeats : forall e code y mo tr same x qs, taf_parse e code y mo tr = Ok x ->
  never_no (fst (in_turn (on_taf e same) qs x)) -> repeats (on_taf e same) x qs.
Proof.
  intros e code y mo tr same x qs E N. apply taf_rests in E.
  exact (proj1 (turns_same (on_taf e same) taf_rel taf_rest (steady_taf x) x (fun q z => taf_rel_ask e same q x z E)
    (fun q z => taf_answer e same q x z E) (taf_rest_ask e same) qs x (taf_refl x) E N)).
Qed.

Lemma taf_steady : forall e code y mo tr same x qs q, taf_parse e code y mo tr = Ok x -> steady_taf x q = true ->
  fst (on_taf e same q (snd (in_turn (on_taf e same) qs x))) = fst (on_taf e same q x).
Proof.
  intros e code y mo tr same x qs q E S. apply taf_rests in E.
  exact (turns_steady (on_taf e same) taf_rel taf_rest (steady_taf x) x (taf_refl x)
    (fun q z => taf_rel_ask e same q x z E) (fun q z => taf_answer e same q x z E) qs q S).
Qed.

Lemma taf_body_kept : forall e code y mo tr same x qs d, taf_parse e code y mo tr = Ok x ->
  fst (on_taf e same TDict x) = ADict (Ok d) ->
  exists d', fst (on_taf e same TDict (snd (in_turn (on_taf e same) qs x))) = ADict (Ok d')
    /\ forall k, k <> py "changes_forecasted" -> assoc k d' = assoc k d.
Proof.
  intros e code y mo tr same x qs d E D. apply taf_rests in E. cbn [on_taf fst] in *. injection D as D.
  destruct (taf_dict_body e x _ d
    (turns_rel (on_taf e same) taf_rel x (fun q z => taf_rel_ask e same q x z E) qs x (taf_refl x)) D) as (d' & D' & K).
  exists d'. rewrite D'. split; [reflexivity|exact K].
Qed.
