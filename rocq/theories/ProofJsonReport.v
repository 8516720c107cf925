(** * The to_json of a report (C59) *)
From Coq Require Import String Ascii.
From Coq Require Import List NArith ZArith QArith Bool Lia.
From Verif Require Import PyBase PyRegex AeroRegex PyFloat PyTime Utils Base MetarGroups Trend Metar Taf AsDict Json ReprFacts SpecJson
  ProofProb Outcomes ProofAbsent ProofAbsentTaf ProofRange ProofRangeReport ProofJson.
Import ListNotations.
Local Open Scope string_scope.
Local Open Scope nat_scope.
Local Open Scope list_scope.

(** ** Lists short enough for the labels *)

Definition few {A} (g : grouplist A) : Prop := length (gl_list g) <= gl_max g <= 10.

Lemma few_add : forall A (x : A) g g', gl_add x g = Ok g' -> few g -> few g'.
Proof.
  intros A x g g' E [H1 H2]. unfold gl_add in E. destruct (Nat.leb (gl_max g) (length (gl_list g))) eqn:L; [discriminate E|].
  apply Nat.leb_gt in L. injection E as <-. split; cbn [gl_list gl_max]; [rewrite app_length; cbn [length]; lia|exact H2].
Qed.

Lemma few_add_all : forall A (l : list A) g g', gl_add_all l g = Ok g' -> few g -> few g'.
Proof.
  induction l as [|x l IH]; intros g g' E H; cbn [gl_add_all] in E; [injection E as <-; exact H|].
  destruct (gl_add x g) as [g1|] eqn:A1; [|discriminate E]. cbn [bind] in E. exact (IH _ _ E (few_add _ _ _ _ A1 H)).
Qed.

Definition common_few (c : common) : Prop := few (c_weathers c) /\ few (c_clouds c).

Lemma few_wind : forall m c c', handle_wind m c = Ok c' -> common_few c -> common_few c'.
Proof.
  intros m c c' E H. unfold handle_wind in E. binds E.
  match type of E with Ok ?a = Ok _ => assert (K : c' = a) by congruence end. rewrite K. exact H.
Qed.
Lemma few_prevailing : forall m c c', handle_prevailing m c = Ok c' -> common_few c -> common_few c'.
Proof.
  intros m c c' E H. unfold handle_prevailing in E. binds E.
  match type of E with Ok ?a = Ok _ => assert (K : c' = a) by congruence end. rewrite K. exact H.
Qed.
Lemma few_weather : forall m c c', handle_weather m c = Ok c' -> common_few c -> common_few c'.
Proof.
  intros m c c' E [H1 H2]. unfold handle_weather in E. cbv zeta in E. destruct (gl_add _ _) as [l|] eqn:G; [|discriminate E].
  cbn [bind] in E. apply few_add in G; [|exact H1].
  match type of E with Ok ?a = Ok _ => assert (K : c' = a) by congruence end. rewrite K. split; [exact G|exact H2].
Qed.
Lemma few_cloud : forall m c c', handle_cloud m c = Ok c' -> common_few c -> common_few c'.
Proof.
  intros m c c' E [H1 H2]. unfold handle_cloud in E. destruct (cloud_from_metar _) as [k|]; [|discriminate E]. cbn [bind] in E.
  destruct (gl_add _ _) as [l|] eqn:G; [|discriminate E].
  cbn [bind] in E. apply few_add in G; [|exact H2].
  match type of E with Ok ?a = Ok _ => assert (K : c' = a) by congruence end. rewrite K. split; [exact H1|exact G].
Qed.
Lemma common_new_few : forall b c, common_new b = Ok c -> common_few c.
Proof.
  intros b c E. unfold common_new in E.
  destruct (metar_wind_new None) as [w|]; [|discriminate E]. cbn [bind] in E.
  destruct (prevailing_new None) as [v|]; [|discriminate E]. cbn [bind] in E.
  match type of E with Ok ?a = Ok _ => assert (K : c = a) by congruence end. rewrite K.
  split; split; cbn; lia.
Qed.

Definition metar_few (x : metar) : Prop :=
  common_few (me_common x) /\ few (me_rvr x) /\ few (me_ws x) /\ few (me_trends x).

Lemma metar_few_step : forall e y mo h m x x', In h (metar_handlers e y mo) -> h_handle h m x = Ok x' -> metar_few x -> metar_few x'.
Proof.
  intros e y mo h m x x' I E H. unfold metar_handlers in I. cbn [In] in I.
  assert (L : forall f, (forall c c', f m c = Ok c' -> common_few c -> common_few c') -> lift f m x = Ok x' -> metar_few x').
  { intros f Hf Ef. unfold lift in Ef. destruct (f m (me_common x)) as [c|] eqn:Ec; [|discriminate Ef]. cbn [bind] in Ef.
    assert (K : x' = upd_common c x) by congruence. rewrite K. destruct H as [H1 H2]. split; [exact (Hf _ _ Ec H1)|exact H2]. }
  destruct H as (H0 & H1 & H2 & H3).
  assert (R : handle_runway_range m x = Ok x' -> metar_few x').
  { intro Er. unfold handle_runway_range in Er. destruct (runway_range_new (Some m)) as [v|]; [|discriminate Er]. cbn [bind] in Er.
    destruct (gl_add v (me_rvr x)) as [l|] eqn:G; [|discriminate Er]. cbn [bind] in Er. apply few_add in G; [|exact H1].
    match type of Er with Ok ?a = Ok _ => assert (K : x' = a) by congruence end. rewrite K. unfold metar_few. cbn. auto. }
  assert (W : handle_windshear m x = Ok x' -> metar_few x').
  { intro Er. unfold handle_windshear in Er. cbv zeta in Er.
    destruct (gl_add _ (me_ws x)) as [l|] eqn:G; [|discriminate Er]. cbn [bind] in Er. apply few_add in G; [|exact H2].
    match type of Er with Ok ?a = Ok _ => assert (K : x' = a) by congruence end. rewrite K. unfold metar_few. cbn. auto. }
  repeat (destruct I as [<-|I]; [cbn [h_handle h_regexp] in E|]); try contradiction; try exact (R E); try exact (W E);
    try (apply (L _ (few_wind m) E)); try (apply (L _ (few_prevailing m) E));
    try (apply (L _ (few_weather m) E)); try (apply (L _ (few_cloud m) E));
    unfold handle_type, handle_station, handle_modifier, handle_time, handle_wind_variation, handle_minimum_visibility, handle_temperatures,
      handle_pressure, handle_recent_weather, handle_sea_state, handle_runway_state in E; cbv zeta in E; binds E;
    (match type of E with Ok ?a = Ok _ => assert (K : x' = a) by congruence end; rewrite K; unfold metar_few; cbn; auto).
Qed.

Lemma metar_few_trends : forall l x x', handle_trends l x = Ok x' -> metar_few x -> metar_few x'.
Proof.
  intros l. induction l as [|w l IH]; intros x x' E H; cbn [handle_trends] in E; [injection E as <-; exact H|].
  destruct w as [|c w]; [exact (IH _ _ E H)|]. unfold handle_weather_trend in E.
  destruct (change_period_new (c :: w) _) as [p|]; [|discriminate E]. cbn [bind] in E.
  destruct (gl_add p (me_trends x)) as [g|] eqn:G; [|discriminate E]. cbn [bind] in E. destruct H as (H0 & H1 & H2 & H3).
  apply few_add in G; [|exact H3]. apply IH in E; [exact E|]. unfold metar_few. cbn. auto.
Qed.

Lemma collect_few : forall A (g : grouplist A), few g -> few (snd (gl_collect g)).
Proof.
  intros A g. unfold gl_collect. generalize (Datatypes.S (length (gl_list g))). intro n. revert g.
  induction n as [|n IH]; intros g H; cbn [gl_collect_fuel]; [exact H|].
  unfold gl_next. destruct (Nat.leb _ _); cbn [snd]; [exact H|].
  destruct (nth_error _ _); [|exact H]. specialize (IH (mk_gl (Datatypes.S (gl_n g)) (gl_max g) (gl_list g))).
  destruct (gl_collect_fuel n _) as [l g2]. exact (IH H).
Qed.

Lemma metar_short : forall e code y mo tr x, metar_parse e code y mo tr = Ok x -> metar_few x.
Proof.
  intros e code y mo tr x E. unfold metar_parse in E. destruct (report_raw_code code) as [raw|]; [|discriminate E]. cbn [bind] in E.
  destruct (metar_init e raw y mo) as [x0|] eqn:E0; [|discriminate E]. cbn [bind] in E.
  assert (F0 : metar_few x0).
  { unfold metar_init in E0. destruct (time_new e None None None None None None); [|discriminate E0]. cbn [bind] in E0.
    destruct (common_new []) as [c|] eqn:C; [|discriminate E0]. cbn [bind] in E0. apply common_new_few in C.
    binds E0. injection E0 as <-. split; [exact C|]. split; [|split]; split; cbn; lia. }
  unfold parse_body in E. destruct (parse_section (metar_handlers e y mo) _ x0) as [[x1 un]|] eqn:E1; [|discriminate E].
  cbn [bind] in E.
  apply (parse_section_keep _ metar_few) in E1; [|intros h g m s s' I _; apply (metar_few_step e y mo h m s s' I)|exact F0].
  unfold parse_weather_trend in E. destruct (handle_trends _ _) as [x2|] eqn:E2; [|discriminate E]. cbn [bind] in E.
  apply metar_few_trends in E2; [|exact E1].
  pose proof (collect_few _ (me_trends x2)) as Cl. destruct (gl_collect (me_trends x2)) as [l g]. cbn [snd] in Cl. cbv zeta in E.
  assert (X : x = upd_unparsed (me_unparsed x2 ++ flat_map cp_unparsed l) (upd_trends g x2)).
  { destruct (me_unparsed (upd_unparsed _ _)) as [|u us] in E; [congruence|]. destruct tr; [discriminate E|congruence]. }
  rewrite X. destruct E2 as (K0 & K1 & K2 & K3). unfold metar_few. cbn. auto.
Qed.

Definition taf_few (x : taf) : Prop :=
  common_few (ta_common x) /\ few (ta_max x) /\ few (ta_min x) /\ few (ta_changes x).

Lemma taf_few_step : forall e y mo h m x x', In h (taf_handlers e y mo) -> h_handle h m x = Ok x' -> taf_few x -> taf_few x'.
Proof.
  intros e y mo h m x x' I E H. unfold taf_handlers in I. cbn [In] in I.
  assert (L : forall f, (forall c c', f m c = Ok c' -> common_few c -> common_few c') -> tlift f m x = Ok x' -> taf_few x').
  { intros f Hf Ef. unfold tlift in Ef. destruct (f m (ta_common x)) as [c|] eqn:Ec; [|discriminate Ef]. cbn [bind] in Ef.
    assert (K : x' = tupd_common c x) by congruence. rewrite K. destruct H as [H1 H2]. split; [exact (Hf _ _ Ec H1)|exact H2]. }
  destruct H as (H0 & H1 & H2 & H3).
  assert (T : thandle_temperature m x = Ok x' -> taf_few x').
  { intros Et. unfold thandle_temperature in Et. destruct (taf_temp_new m _) as [t|]; [|discriminate Et]. cbn [bind] in Et.
    destruct (opt_str_eqb _ _); (destruct (gl_add t _) as [l|] eqn:G; [|discriminate Et]; cbn [bind] in Et;
      match type of Et with Ok ?a = Ok _ => assert (K : x' = a) by congruence end; rewrite K; unfold taf_few; cbn;
      pose proof (few_add _ _ _ _ G) as Q; auto). }
  repeat (destruct I as [<-|I]; [cbn [h_handle h_regexp] in E|]); try contradiction; try exact (T E);
    try (apply (L _ (few_wind m) E)); try (apply (L _ (few_prevailing m) E));
    try (apply (L _ (few_weather m) E)); try (apply (L _ (few_cloud m) E));
    unfold thandle_type, thandle_modifier, thandle_station, thandle_time, thandle_missing, thandle_valid, thandle_cancelled in E;
    cbv zeta in E; binds E;
    (match type of E with Ok ?a = Ok _ => assert (K : x' = a) by congruence end; rewrite K; unfold taf_few; cbn; auto).
Qed.

Lemma pop_length : forall u rl temp a b, pop_changes u rl temp = Ok (a, b) -> length a <= length rl.
Proof.
  intros u rl. induction rl as [|l rl IH]; intros temp a b E; cbn [pop_changes] in E; [injection E as <- <-; auto|].
  destruct (tc_code (cf_ind l)) as [c|]; [|discriminate E]. cbn [length].
  destruct (_ || _); [specialize (IH _ _ _ E); lia|].
  destruct (starts_with (py "FM") c); [|injection E as <- <-; lia].
  binds E. injection E as <- <-. lia.
Qed.

Lemma changes_few : forall p g g', changes_add p g = Ok g' -> few g -> few g'.
Proof.
  intros p g g' E H. unfold changes_add in E. cbv zeta in E. destruct (_ && _); [|exact (few_add _ _ _ _ E H)].
  destruct (pop_changes _ (rev (gl_list g)) []) as [[rl temp]|] eqn:P; [|discriminate E]. cbn [bind] in E.
  apply pop_length in P. rewrite rev_length in P.
  destruct (gl_add_all temp _) as [g1|] eqn:A; [|discriminate E]. cbn [bind] in E.
  apply few_add_all in A; [exact (few_add _ _ _ _ E A)|]. destruct H as [H1 H2]. split; cbn [gl_list gl_max]; [rewrite rev_length; lia|exact H2].
Qed.

Lemma taf_few_changes : forall l x x', handle_changes l x = Ok x' -> taf_few x -> taf_few x'.
Proof.
  intros l. induction l as [|w l IH]; intros x x' E H; cbn [handle_changes] in E; [injection E as <-; exact H|].
  destruct w as [|c w]; [exact (IH _ _ E H)|]. unfold handle_change_forecasted in E.
  destruct (change_fc_new (c :: w) _) as [p|]; [|discriminate E]. cbn [bind] in E.
  destruct (changes_add p (ta_changes x)) as [g|] eqn:G; [|discriminate E]. cbn [bind] in E. destruct H as (H0 & H1 & H2 & H3).
  apply changes_few in G; [|exact H3]. apply IH in E; [exact E|]. unfold taf_few. cbn. auto.
Qed.

Lemma taf_short : forall e code y mo tr x, taf_parse e code y mo tr = Ok x -> taf_few x.
Proof.
  intros e code y mo tr x E. unfold taf_parse in E. destruct (report_raw_code code) as [raw|]; [|discriminate E]. cbn [bind] in E.
  destruct (taf_init e raw) as [x0|] eqn:E0; [|discriminate E]. cbn [bind] in E.
  assert (F0 : taf_few x0).
  { unfold taf_init in E0. destruct (time_new e None None None None None None); [|discriminate E0]. cbn [bind] in E0.
    destruct (taf_split raw) as [body codes].
    destruct (common_new []) as [c|] eqn:C; [|discriminate E0]. cbn [bind] in E0. apply common_new_few in C.
    destruct (valid_from_taf None _); [|discriminate E0]. cbn [bind] in E0. injection E0 as <-.
    split; [exact C|]. split; [|split]; split; cbn; lia. }
  unfold taf_parse_body in E. destruct (parse_section (taf_handlers e y mo) _ x0) as [[x1 un]|] eqn:E1; [|discriminate E].
  cbn [bind] in E.
  apply (parse_section_keep _ taf_few) in E1; [|intros h g m s s' I _; apply (taf_few_step e y mo h m s s' I)|exact F0].
  unfold parse_changes_forecasted in E. destruct (handle_changes _ _) as [x2|] eqn:E2; [|discriminate E]. cbn [bind] in E.
  apply taf_few_changes in E2; [|exact E1].
  pose proof (collect_few _ (ta_changes x2)) as Cl. destruct (gl_collect (ta_changes x2)) as [l g]. cbn [snd] in Cl. cbv zeta in E.
  assert (X : x = tupd_unparsed (ta_unparsed x2 ++ flat_map cf_unparsed l) (tupd_changes g x2)).
  { destruct (ta_unparsed (tupd_unparsed _ _)) as [|u us] in E; [congruence|]. destruct tr; [discriminate E|congruence]. }
  rewrite X. destruct E2 as (K0 & K1 & K2 & K3). unfold taf_few. cbn. auto.
Qed.

(** ** Readable dictionaries *)

Definition entries (d : dict) : Prop := Forall (fun kv => ascii_key (fst kv) /\ good (snd kv)) d.
Definition readable (d : dict) : Prop := NoDup (map fst d) /\ entries d.

Lemma readable_good : forall d, readable d -> good (VDict d).
Proof. intros d [H1 H2]. constructor; assumption. Qed.

Lemma dset_keys : forall k v d k', In k' (map fst (dset k v d)) -> k' = k \/ In k' (map fst d).
Proof.
  intros k v d k'. induction d as [|[a b] d IH]; cbn [dset map fst In]; [intros [H|[]]; auto|].
  destruct (str_eqb k a); cbn [map fst In]; intros [H|H]; auto. destruct (IH H); auto.
Qed.

Lemma dset_readable : forall k v d, ascii_key k -> good v -> readable d -> readable (dset k v d).
Proof.
  intros k v d Hk Hv [Nd En]. split.
  - clear En. induction d as [|[a b] d IH]; cbn [dset]; [constructor; [intros []|constructor]|].
    cbn [map fst] in Nd. inversion Nd as [|? ? Na Nd']; subst. destruct (str_eqb k a) eqn:E; cbn [map fst].
    + apply str_eqb_eq in E. subst a. constructor; assumption.
    + constructor; [|exact (IH Nd')]. intro H. apply dset_keys in H. destruct H as [->|H]; [|exact (Na H)].
      assert (str_eqb k k = true) by (apply str_eqb_eq; reflexivity). congruence.
  - clear Nd. induction d as [|[a b] d IH]; cbn [dset]; [constructor; [auto|constructor]|].
    inversion En as [|? ? Ha En']; subst. destruct (str_eqb k a); (constructor; [auto|]); [exact En'|exact (IH En')].
Qed.

Lemma dupdate_readable : forall u d, readable d -> entries u -> readable (dupdate d u).
Proof.
  unfold dupdate. induction u as [|[k v] u IH]; intros d Hd Hu; [exact Hd|]. inversion Hu as [|? ? [Hk Hv] Hu']; subst.
  cbn [fold_left fst snd]. apply IH; [|exact Hu']. apply dset_readable; assumption.
Qed.

Lemma vopt_good : forall s, good (vopt s).
Proof. intros [s|]; constructor. Qed.
Lemma vflo_good : forall lo hi v, okv lo hi v -> good (vflo v).
Proof. intros lo hi [x|] H; [|constructor]. constructor. destruct (H x eq_refl) as [P _]. exact P. Qed.

(** Keys are literals: distinct and ASCII by computation. *)
Fixpoint distinct (l : list str) : bool := match l with [] => true | a :: r => negb (existsb (str_eqb a) r) && distinct r end.
Lemma distinct_ok : forall l, distinct l = true -> NoDup l.
Proof.
  induction l as [|a l IH]; intro H; [constructor|]. cbn [distinct] in H. apply andb_true_iff in H. destruct H as [H1 H2].
  constructor; [|exact (IH H2)]. intro K. apply negb_true_iff in H1.
  assert (existsb (str_eqb a) l = true); [|congruence]. apply existsb_exists. exists a. split; [exact K|apply str_eqb_eq; reflexivity].
Qed.

Ltac key := repeat (constructor; [vm_compute; reflexivity|]); constructor.
Ltac lit_entries := repeat (constructor; [split; [key|cbn [snd]]|]); try apply Forall_nil.
Ltac lit_dict := split; [apply distinct_ok; lazy; reflexivity|lit_entries].

Lemma group_entries : forall c, entries (group_dict c).
Proof. intro c. lit_entries. apply vopt_good. Qed.

Lemma distance_good : forall lo hi v, okv lo hi v -> good (VDict (distance_dict v)).
Proof. intros lo hi v H. apply readable_good. lit_dict; [constructor|exact (vflo_good _ _ _ H)]. Qed.
Lemma pressure_good : forall lo hi v, okv lo hi v -> good (VDict (pressure_dict v)).
Proof. intros lo hi v H. apply readable_good. lit_dict; [constructor|exact (vflo_good _ _ _ H)]. Qed.
Lemma temperature_readable : forall lo hi v, okv lo hi v -> readable (temperature_dict v).
Proof. intros lo hi v H. lit_dict; [constructor|exact (vflo_good _ _ _ H)]. Qed.
Lemma temperature_good : forall lo hi v, okv lo hi v -> good (VDict (temperature_dict v)).
Proof. intros lo hi v H. apply readable_good. exact (temperature_readable _ _ _ H). Qed.
Lemma direction_good : forall lo hi d, okv lo hi (dir_value d) -> good (VDict (direction_dict d)).
Proof.
  intros lo hi d H. apply readable_good. lit_dict; [apply vopt_good|constructor|constructor|exact (vflo_good _ _ _ H)].
Qed.
Lemma speed_good : forall lo hi v, okv lo hi v -> good (VDict (speed_dict v)).
Proof. intros lo hi v H. apply readable_good. lit_dict; [constructor|exact (vflo_good _ _ _ H)]. Qed.

Lemma wind_good : forall w, wind_ok w -> good (VDict (wind_dict w)).
Proof.
  intros w (A & B & C). apply readable_good. unfold wind_dict. apply dupdate_readable; [|apply group_entries].
  apply dupdate_readable; [|lit_entries; exact (speed_good _ _ _ C)].
  lit_dict; [exact (direction_good _ _ _ A)|exact (speed_good _ _ _ B)].
Qed.
Lemma wvar_good : forall w, wvar_ok w -> good (VDict (wvar_dict w)).
Proof.
  intros w (A & B). apply readable_good. unfold wvar_dict. apply dupdate_readable; [|apply group_entries].
  lit_dict; [exact (direction_good _ _ _ A)|exact (direction_good _ _ _ B)].
Qed.
Lemma vis_readable : forall hi v, vis_ok hi v -> readable (vis_dict v).
Proof.
  intros hi v (A & B). unfold vis_dict. apply dupdate_readable; [lit_dict; exact (direction_good _ _ _ B)|].
  apply dupdate_readable; [|apply group_entries]. lit_dict. exact (distance_good _ _ _ A).
Qed.
Lemma prevailing_good : forall hi v, vis_ok hi v -> good (VDict (prevailing_dict v)).
Proof.
  intros hi v H. apply readable_good. unfold prevailing_dict. apply dupdate_readable; [exact (vis_readable _ _ H)|].
  lit_entries. constructor.
Qed.
Lemma cloud_good : forall c, cloud_ok c -> readable (cloud_dict c).
Proof.
  intros c H. unfold cloud_dict. apply dupdate_readable; [|apply group_entries].
  lit_dict; [apply vopt_good|apply vopt_good|constructor|exact (vflo_good _ _ _ H)|apply vopt_good].
Qed.
Lemma weather_good : forall w, readable (weather_dict w).
Proof. intro w. unfold weather_dict. apply dupdate_readable; [|apply group_entries]. lit_dict; apply vopt_good. Qed.
Lemma recent_good : forall w, good (VDict (recent_dict w)).
Proof. intro w. apply readable_good. unfold recent_dict. apply dupdate_readable; [|apply group_entries]. lit_dict; apply vopt_good. Qed.
Lemma rvr_good : forall r, rvr_ok r -> readable (rvr_dict r).
Proof.
  intros r (A & B). unfold rvr_dict. apply dupdate_readable; [|apply group_entries].
  lit_dict; [apply vopt_good|apply vopt_good|exact (distance_good _ _ _ A)|apply vopt_good|exact (distance_good _ _ _ B)|apply vopt_good].
Qed.
Lemma temps_good : forall t, temps_ok t -> good (VDict (temps_dict t)).
Proof.
  intros t (A & B). apply readable_good. unfold temps_dict. apply dupdate_readable; [|apply group_entries].
  lit_dict; [exact (temperature_good _ _ _ A)|exact (temperature_good _ _ _ B)].
Qed.
Lemma ws_good : forall w, readable (ws_dict w).
Proof. intro w. unfold ws_dict. apply dupdate_readable; [|apply group_entries]. lit_dict; [constructor|apply vopt_good]. Qed.
Lemma sea_good : forall s, sea_ok s -> good (VDict (sea_dict s)).
Proof.
  intros s (A & B). apply readable_good. unfold sea_dict. apply dupdate_readable; [|apply group_entries].
  lit_dict; [apply vopt_good|exact (temperature_good _ _ _ A)|exact (distance_good _ _ _ B)].
Qed.
Lemma rs_good : forall r, good (VDict (rs_dict r)).
Proof.
  intro r. apply readable_good. unfold rs_dict. apply dupdate_readable; [|apply group_entries].
  lit_dict; first [apply vopt_good|constructor].
Qed.
Lemma type_good : forall t, good (VDict (type_dict t)).
Proof. intro t. apply readable_good. unfold type_dict. apply dupdate_readable; [|apply group_entries]. lit_dict. apply vopt_good. Qed.
Lemma modifier_readable : forall m, readable (modifier_dict m).
Proof. intro m. unfold modifier_dict. apply dupdate_readable; [|apply group_entries]. lit_dict. apply vopt_good. Qed.
Lemma station_good : forall e s, good (VDict (station_dict e s)).
Proof.
  intros e s. apply readable_good. unfold station_dict. apply dupdate_readable; [|apply group_entries]. lit_dict; apply vopt_good.
Qed.
Lemma time_readable : forall t, readable (time_dict t).
Proof. intro t. unfold time_dict. apply dupdate_readable; [|apply group_entries]. lit_dict. constructor. Qed.
Lemma time_good : forall t, good (VDict (time_dict t)).
Proof. intro t. apply readable_good, time_readable. Qed.

Lemma list_from_good : forall l i d, Forall readable l -> readable d -> length l + i <= 10 ->
  exists d', list_dict_from i l d = Ok d' /\ readable d'.
Proof.
  induction l as [|x l IH]; intros i d Hl Hd L; cbn [list_dict_from]; [exists d; auto|].
  inversion Hl as [|? ? Hx Hl']; subst. cbn [length] in L.
  destruct (nth_error labels i) as [k|] eqn:E.
  - apply IH; [exact Hl'| |lia]. apply dset_readable; [|exact (readable_good _ Hx)|exact Hd].
    assert (A : Forall ascii_key labels) by (unfold labels; repeat (constructor; [key|]); constructor).
    rewrite Forall_forall in A. apply A. exact (nth_error_In _ _ E).
  - apply nth_error_None in E. change (length labels) with 10 in E. lia.
Qed.

Lemma list_good : forall A (f : A -> dict) g, few g -> Forall (fun x => readable (f x)) (gl_list g) ->
  exists d, list_dict f g = Ok d /\ good (VDict d).
Proof.
  intros A f g [F1 F2] H. unfold list_dict.
  destruct (list_from_good (map f (gl_list g)) 0 []) as (d & E & R).
  - apply Forall_map. exact H.
  - split; constructor.
  - rewrite map_length. lia.
  - exists d. split; [exact E|exact (readable_good _ R)].
Qed.

Lemma collected : forall A (g : grouplist A), incl (fst (gl_collect g)) (gl_list g).
Proof.
  intros A g. unfold gl_collect. generalize (Datatypes.S (length (gl_list g))). intro n. revert g.
  induction n as [|n IH]; intros g; cbn [gl_collect_fuel]; [intros ? []|].
  unfold gl_next. destruct (Nat.leb _ _); cbn [fst]; [intros ? []|].
  destruct (nth_error _ _) as [z|] eqn:E; [|intros ? []]. specialize (IH (mk_gl (Datatypes.S (gl_n g)) (gl_max g) (gl_list g))).
  destruct (gl_collect_fuel n _) as [l g2]. cbn [fst gl_list] in *. intros a [<-|H]; [exact (nth_error_In _ _ E)|exact (IH a H)].
Qed.

Lemma forecast_readable : forall code c, common_ok c -> readable (fst (forecast_dict code c)).
Proof.
  intros code c (A & B & C). unfold forecast_dict.
  pose proof (collected _ (c_clouds c)) as Cc.
  destruct (gl_collect (c_weathers c)) as [ws gw]. destruct (gl_collect (c_clouds c)) as [cs gc]. cbn [fst] in *.
  apply dupdate_readable; [|apply group_entries].
  lit_dict; [exact (wind_good _ A)|exact (prevailing_good _ _ B)| | |apply vopt_good].
  - constructor. apply Forall_map. apply Forall_forall. intros w _. apply readable_good, weather_good.
  - constructor. apply Forall_map. apply Forall_forall. intros k Hk. rewrite Forall_forall in C.
    apply readable_good, cloud_good, C, Cc, Hk.
Qed.

Lemma strings_good : forall l, good (VList (map VStr l)).
Proof. intro l. constructor. apply Forall_map. apply Forall_forall. constructor. Qed.

Lemma report_readable : forall e raw se un ty st t, readable (report_dict e raw se un ty st t).
Proof.
  intros. lit_dict; [constructor|apply strings_good|apply strings_good|apply type_good|apply station_good|apply time_good].
Qed.

Theorem metar_to_json : forall e code y mo tr x, metar_parse e code y mo tr = Ok x ->
  exists d t, metar_dict e x = Ok d /\ metar_json e x = Ok t /\ faithful d t.
Proof.
  intros e code y mo tr x P. destruct (metar_short _ _ _ _ _ _ P) as ((F1 & F2) & F3 & F4 & F5).
  destruct (metar_ok _ _ _ _ _ _ P) as [(A & B & C & D & G & H & _ & K) T]. clear P.
  assert (A' := A). destruct A' as (A1 & A2 & A3 & _).
  destruct (list_good _ rvr_dict _ F3) as (rvr & E1 & G1); [eapply Forall_impl; [|exact D]; exact rvr_good|].
  destruct (list_good _ weather_dict _ F1) as (wea & E2 & G2); [apply Forall_forall; intros w _; apply weather_good|].
  destruct (list_good _ cloud_dict _ F2) as (clo & E3 & G3); [eapply Forall_impl; [|exact A3]; exact cloud_good|].
  destruct (list_good _ ws_dict _ F4) as (ws & E4 & G4); [apply Forall_forall; intros w _; apply ws_good|].
  destruct (list_good _ change_period_dict _ F5) as (trd & E5 & G5).
  { eapply Forall_impl; [|exact T]. intros p Hp. exact (forecast_readable _ _ Hp). }
  assert (R : exists d, metar_dict e x = Ok d /\ readable d).
  { unfold metar_dict. rewrite E1, E2, E3, E4, E5. cbn [bind]. eexists. split; [reflexivity|].
    apply dupdate_readable; [apply report_readable|].
    lit_entries; first [assumption|apply vopt_good|idtac].
    - apply readable_good, modifier_readable.
    - exact (wind_good _ A1).
    - exact (wvar_good _ B).
    - exact (prevailing_good _ _ A2).
    - exact (readable_good _ (vis_readable _ _ C)).
    - exact (temps_good _ G).
    - exact (pressure_good _ _ _ H).
    - apply recent_good.
    - exact (sea_good _ K).
    - apply rs_good.
    - constructor. }
  destruct R as (d & E & R). exists d, (dumps (VDict d)). split; [exact E|]. unfold metar_json. rewrite E. split; [reflexivity|].
  apply dumps_faithful. exact (readable_good _ R).
Qed.

Theorem taf_to_json : forall e code y mo tr x, taf_parse e code y mo tr = Ok x ->
  exists d t, taf_dict e x = Ok d /\ taf_json e x = Ok t /\ faithful d t.
Proof.
  intros e code y mo tr x P. destruct (taf_short _ _ _ _ _ _ P) as ((F1 & F2) & F3 & F4 & F5).
  destruct (taf_parsed_ok _ _ _ _ _ _ P) as (A & B & C & D). clear P.
  destruct A as (A1 & A2 & A3 & _).
  assert (Tt : forall t, ttemp_ok t -> readable (taf_temp_dict t)).
  { intros t Ht. unfold taf_temp_dict. apply dupdate_readable; [|apply time_readable].
    apply dupdate_readable; [exact (temperature_readable _ _ _ Ht)|apply group_entries]. }
  destruct (list_good _ weather_dict _ F1) as (wea & E2 & G2); [apply Forall_forall; intros w _; apply weather_good|].
  destruct (list_good _ cloud_dict _ F2) as (clo & E3 & G3); [eapply Forall_impl; [|exact A3]; exact cloud_good|].
  destruct (list_good _ taf_temp_dict _ F3) as (mx & E4 & G4); [eapply Forall_impl; [|exact B]; exact Tt|].
  destruct (list_good _ taf_temp_dict _ F4) as (mn & E5 & G5); [eapply Forall_impl; [|exact C]; exact Tt|].
  destruct (list_good _ change_fc_dict _ F5) as (ch & E6 & G6).
  { eapply Forall_impl; [|exact D]. intros p Hp. exact (forecast_readable _ _ Hp). }
  assert (R : exists d, taf_dict e x = Ok d /\ readable d).
  { unfold taf_dict. rewrite E2, E3, E4, E5, E6. cbn [bind]. eexists. split; [reflexivity|].
    apply dupdate_readable; [apply report_readable|].
    lit_entries; first [assumption|idtac].
    - apply readable_good, modifier_readable.
    - apply readable_good. unfold missing_dict. apply dupdate_readable; [lit_dict; constructor|apply modifier_readable].
    - apply readable_good. unfold valid_dict. apply dupdate_readable; [|apply group_entries]. lit_dict; apply time_good.
    - apply readable_good. unfold cancelled_dict. apply dupdate_readable; [|apply group_entries]. lit_dict. constructor.
    - exact (wind_good _ A1).
    - exact (prevailing_good _ _ A2). }
  destruct R as (d & E & R). exists d, (dumps (VDict d)). split; [exact E|]. unfold taf_json. rewrite E. split; [reflexivity|].
  apply dumps_faithful. exact (readable_good _ R).
Qed.
