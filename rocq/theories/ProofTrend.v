(** * Proofs: the trends of a METAR (C56) *)
From Coq Require Import String Ascii.
From Coq Require Import List NArith ZArith Bool Lia.
From Verif Require Import PyBase PyRegex AeroRegex PyFloat PyTime Utils Base MetarGroups Trend Metar Taf SpecNum SpecGroups SpecTime
  SpecText SpecTaf SpecWords SpecMetar SpecTafReport SpecTrend SymRegex TimeFacts StrFacts ProofGroups ProofGroups2 ProofValues
  ProofTime ProofText TextFacts ProofSections ProofTafText ProofWords GroupShapes ProofSlots Dispatch ProofFields ProofMetar
  ProofMetarText ProofWx TafShapes ProofTafChange.
Import ListNotations.
Local Open Scope string_scope.
Local Open Scope nat_scope.
Local Open Scope list_scope.

(** ** The words *)

(** A word inside a trend. *)
Definition trend_word (w : str) : Prop := inner w /\ ~ In 95%N w.

Definition time_sym (p : period_kind) (h : N) : list sym :=
  map (fun c => [c]) (period_prefix p) ++ upto2 2 4 h ++ sym60.
Definition time_shapes := Eval vm_compute in
  flat_map (fun p => map (fun h => time_sym p h) [0; 20]%N) [PFrom; PUntil; PAt].

Lemma time_shaped : forall p h mi, (h <= 24)%N -> (mi <= 59)%N -> shaped time_shapes (period_code p h mi).
Proof.
  intros p h mi Hh Hm. exists (time_sym p h). split.
  - apply has_shape_in. unfold time_sym, upto2. destruct p, (h <? 10 * 2)%N; vm_compute; reflexivity.
  - unfold period_code, time_sym. apply inst_app; [destruct p; apply inst_lit|]. apply inst_app; auto with inst.
Qed.

Definition inner_b (y : list sym) : bool :=
  negb (is_nil y) && forallb (forallb printed) y && negb (existsb (fun p => may_start p y) section_words).
Lemma inner_inst : forall s y, inst s y -> inner_b y = true -> trend_word s.
Proof.
  intros s y Hi H. unfold inner_b in H. rewrite !andb_true_iff, !negb_true_iff in H. destruct H as ((H1 & H2) & H3).
  assert (P : Forall (fun c => printed c = true) s).
  { rewrite forallb_forall in H2. clear -Hi H2. induction Hi as [|c k s y Hc Hi IH]; constructor.
    - specialize (H2 k (or_introl eq_refl)). rewrite forallb_forall in H2. exact (H2 c Hc).
    - apply IH. intros x Hx. apply H2. right. exact Hx. }
  assert (N0 : forall c, printed c = false -> ~ In c s).
  { intros c Hc K. rewrite Forall_forall in P. rewrite (P c K) in Hc. discriminate. }
  unfold trend_word, inner, word. conjs.
  - destruct Hi; [discriminate H1|discriminate].
  - eapply Forall_impl; [|exact P]. intros c Hc K. unfold printed in Hc. unfold blank in K. rewrite K in Hc. discriminate.
  - apply N0. reflexivity.
  - apply N0. reflexivity.
  - unfold begins_any. destruct (existsb (fun kw => starts_with kw s) section_words) eqn:E; [|reflexivity].
    apply existsb_exists in E. destruct E as (p & Hp & E). apply (may_start_ok _ _ _ Hi) in E.
    rewrite <- not_true_iff_false in H3. destruct H3. apply existsb_exists. exists p. auto.
  - apply N0. reflexivity.
Qed.

Lemma time_word_ok : forall p h mi, (h <= 24)%N -> (mi <= 59)%N ->
  trend_word (period_code p h mi) /\ forallb is_digit (period_code p h mi) = false.
Proof.
  intros p h mi Hh Hm. pose proof (time_shaped p h mi Hh Hm) as S. split; [|apply (shaped_letters _ _ S); computed].
  destruct S as (y & Hy & Hi). apply (inner_inst _ _ Hi).
  assert (Q : forallb inner_b time_shapes = true) by computed. rewrite forallb_forall in Q. exact (Q y Hy).
Qed.

Lemma ordinary_trend_word : forall w, ordinary w -> trend_word w.
Proof. intros w H. split; [apply ordinary_inner; exact H|apply H]. Qed.

(** Two hours from the report on. *)
Lemma clock_range : forall t e hm u, real_time t -> two_hours t e -> clock_at t hm u ->
  (fst hm <= 24)%N /\ (snd hm <= 59)%N.
Proof.
  intros t e hm u R [He Hy] ((k & Hk & Hu) & Hh & Hm).
  destruct (TimeFacts.between 120 k t e u R He Hy Hk Hu) as [(_ & Ruh & Rum) _]. lia.
Qed.

Lemma times_ok : forall t e l, real_time t -> two_hours t e -> Forall (fun x => exists u, clock_at t (snd x) u) l ->
  Forall (fun x => trend_word (time_word x) /\ forallb is_digit (time_word x) = false) l.
Proof.
  intros t e l R Te H. eapply Forall_impl; [|exact H]. intros [p [h mi]] (u & Hu). cbn [snd] in Hu.
  destruct (clock_range t e _ u R Te Hu) as [K1 K2]. unfold time_word. cbn [fst snd] in *. apply time_word_ok; assumption.
Qed.

Definition kind_word (g : trend_g) : str := code_of (trend_name (n_kind g)).
Definition rest_words (g : trend_g) : list str := flat_map m_words (trend_toks g).
Lemma text_eq : forall g, trend_text g = kind_word g :: rest_words g.
Proof. reflexivity. Qed.

Lemma rest_ok : forall t e g, real_time t -> two_hours t e -> trend_wf t g -> Forall trend_word (rest_words g).
Proof.
  intros t e g R Te ((H1 & _) & H2 & _). unfold rest_words, trend_toks. rewrite flat_map_app. apply Forall_app. split.
  - pose proof (times_ok t e _ R Te H1) as F. induction F as [|x l [Hx _] F IH]; [constructor|].
    cbn [map flat_map m_words app]. constructor; [exact Hx|]. apply IH. inversion H1; subst; assumption.
  - eapply Forall_impl; [|exact (wx_words_ordinary _ H2)]. exact ordinary_trend_word.
Qed.

Lemma kind_facts : forall k, let w := code_of (trend_name k) in
  word w /\ ~ In 32%N w /\ ~ In 61%N w /\ ~ In 124%N w /\ ~ In 95%N w /\ forallb is_digit w = false
  /\ begins_any trend_words w = true.
Proof.
  intro k. cbv zeta. conjs; [split| | | | | |]; destruct k; try discriminate; try reflexivity;
    try (repeat constructor; discriminate); cbn; intuition discriminate.
Qed.

Lemma text_words : forall t e g, real_time t -> two_hours t e -> trend_wf t g ->
  Forall (fun w => word w /\ ~ In 61%N w /\ ~ In 124%N w /\ ~ In 95%N w) (trend_text g).
Proof.
  intros t e g R Te H. rewrite text_eq. constructor.
  - destruct (kind_facts (n_kind g)) as (K1 & K2 & K3 & K4 & K5 & _). auto.
  - eapply Forall_impl; [|exact (rest_ok t e g R Te H)]. intros w [(K1 & K2 & K3 & _) K4]. auto.
Qed.

(** The groups of a trend as the dispatch loop sees them. *)
Lemma trend_sanitized : forall t e g, real_time t -> two_hours t e -> trend_wf t g ->
  sanitize_visibility (sentence (trend_text g))
  = sentence (kind_word g :: map time_word (n_times g) ++ wx_groups (n_wx g))
  /\ split_on 32%N (sentence (kind_word g :: map time_word (n_times g) ++ wx_groups (n_wx g)))
  = kind_word g :: map time_word (n_times g) ++ wx_groups (n_wx g).
Proof.
  intros t e g R Te H. pose proof H as ((H1 & _ & L1) & H2 & H3 & _).
  destruct (kind_facts (n_kind g)) as (K1 & _). pose proof (times_ok t e _ R Te H1) as F.
  assert (G : kind_word g :: map time_word (n_times g) ++ wx_groups (n_wx g)
    = map m_joined (MWord (kind_word g) :: trend_toks g)).
  { cbn [map m_joined]. unfold trend_toks. rewrite map_app, map_map, (wx_joined _ H2). reflexivity. }
  assert (A : Forall flat_tok (trend_toks g)).
  { unfold trend_toks. apply Forall_app. split.
    - apply Forall_map. eapply Forall_impl; [|exact F]. intros x [[[K _] _] _]. exact K.
    - eapply Forall_impl; [|exact (wx_ordinary _ H2)]. intros x K. apply K. }
  rewrite G. split.
  - apply (vis_joined (kind_word g) (trend_toks g)).
    + exact K1.
    + exact A.
    + unfold trend_toks. rewrite <- (app_nil_r (wx_toks (n_wx g))). apply wx_unmixed; [exact H2| |constructor].
      apply Forall_map. eapply Forall_impl; [|exact F]. intros x K. apply K.
    + destruct (trend_toks g) as [|x l]; [reflexivity|]. rewrite (ProofMetarText.last_default _ _ _ (MWord [])). exact H3.
    + unfold trend_toks. rewrite filter_app, app_length. pose proof (wx_mixed (n_wx g)).
      rewrite (filter_zero _ _ (map _ _)); [lia|]. apply Forall_map. apply Forall_forall. reflexivity.
  - apply split_sentence_ink; [discriminate|]. apply joined_ink. constructor; [exact K1|].
    eapply Forall_impl; [|exact A]. intros [w|two n a b|wy v] K; [exact K|exact I|destruct K].
Qed.

(** ** The slots of a trend *)

Definition trend_wind := [r_TREND_TIME_PERIOD; r_TREND_TIME_PERIOD].
Definition trend_vis := trend_wind ++ [r_WIND].
Definition trend_weather := trend_vis ++ [r_VISIBILITY].
Definition trend_cloud := trend_weather ++ [r_WEATHER].

Lemma nwind_free : forall g r, wind_wf g -> In r trend_wind -> re_match r (wind_code g) = None.
Proof. intros g r H. apply (free_none _ _ _ (wind_shaped g H)). computed. Qed.
Lemma nvis_free : forall g r, vis_wf g -> In r trend_vis -> re_match r (vis_code g) = None.
Proof. intros g r H. apply (free_none _ _ _ (vis_shaped g H)). computed. Qed.
Lemma nweather_free : forall g r, weather_wf g -> weather_code g <> [] -> In r trend_weather ->
  re_match r (weather_code g) = None.
Proof. intros g r H Hn. apply (free_none _ _ _ (weather_shaped g H Hn)). computed. Qed.
Lemma ncloud_free : forall g r, cloud_wf g -> In r trend_cloud -> re_match r (cloud_code g) = None.
Proof. intros g r H. apply (free_none _ _ _ (cloud_shaped g H)). computed. Qed.

Ltac nslots_in := cbv [between trend_handlers firstn skipn Nat.sub map h_regexp trend_wind trend_vis trend_weather trend_cloud app In];
  let r := fresh "r" in intro r; intuition.
Notation hs := trend_handlers.
Lemma in_n_wind : forall r, In r (between hs 1 3) -> In r trend_wind. Proof. nslots_in. Qed.
Lemma in_n_vis : forall r, In r (between hs 1 4) -> In r trend_vis. Proof. nslots_in. Qed.
Lemma in_n_weather : forall r, In r (between hs 1 5) -> In r trend_weather. Proof. nslots_in. Qed.
Lemma in_n_cloud : forall r, In r (between hs 1 8) -> In r trend_cloud. Proof. nslots_in. Qed.

Lemma trend_wx : forall g i x, wx_wf g -> 1 <= i <= 3 -> calm (cp_common x) ->
  exists c, wx_holds g c /\ parse_groups trend_handlers (wx_groups g ++ []) i [] x = Ok (cp_set_common c x, []).
Proof.
  intros g i x (Hwi & Hvi & (Hwx & Lwx) & (Hcl & Lcl)) Hi C.
  destruct (wx_phase cp_common cp_set_common) with (hs := trend_handlers) (rw := r_WIND) (rv := r_VISIBILITY) (lo := 1) (pw := 3)
    (g := g) (i := i) (rest := @nil str) (x := x) as (i8 & c8 & I8 & V8 & P8).
  { intros []; reflexivity. } { reflexivity. } { reflexivity. } { lia. } { reflexivity. } { reflexivity. } { slot. } { slot. }
  { eapply opt_all_impl; [|exact Hwi]. intros w [Hw1 Hw2]. split; [|exact (r_WIND_decodes w Hw1)].
    apply passes_between. intros r Hr. apply (nwind_free w r Hw1). exact (in_n_wind r Hr). }
  { eapply opt_all_impl; [|exact Hvi]. intros w [Hw1 Hw2]. split; [|exact (r_VISIBILITY_decodes w Hw1)].
    apply passes_between. intros r Hr. apply (nvis_free w r Hw1). exact (in_n_vis r Hr). }
  { destruct (x_vis g) as [w|].
    - eapply Forall_impl; [|exact Hwx]. intros w' [Hw1 _]. split; [exact Hw1|]. intros j h Hj. lia.
    - eapply Forall_impl; [|exact Hwx]. intros w' [Hw1 Hw2]. split; [exact Hw1|].
      apply passes_between. intros r Hr. apply (nweather_free w' r Hw1 Hw2). exact (in_n_weather r Hr). }
  { exact Lwx. }
  { eapply Forall_impl; [|exact Hcl]. intros w Hw. split; [exact Hw|].
    apply passes_between. intros r Hr. apply (ncloud_free w r Hw). exact (in_n_cloud r Hr). }
  { exact Lcl. } { exact C. }
  exists c8. split; [exact V8|]. rewrite P8. reflexivity.
Qed.

(** ** The indicator and its times *)

Lemma kind_new : forall k t e, real_time t -> two_hours t e ->
  exists m i, re_match r_CHANGE_INDICATOR (code_of (trend_name k)) = Some m /\ trend_ind_new (Some m) t = Ok i
    /\ ti_code i = Some (code_of (trend_name k)) /\ ti_trans i = Some (py (snd (trend_name k)))
    /\ t_dt (ti_init i) = t /\ t_dt (ti_end i) = e /\ t_dt (ti_from i) = t /\ t_dt (ti_until i) = e /\ ti_at i = None.
Proof.
  intros k t e R [He Hy].
  assert (D : exists m, re_match r_CHANGE_INDICATOR (code_of (trend_name k)) = Some m
    /\ change_indicator_new (Some m) = Ok (Some (code_of (trend_name k)), Some (py (snd (trend_name k))))).
  { destruct k; (eexists; split; [vm_compute; reflexivity|vm_compute; reflexivity]). }
  destruct D as (m & Em & D). exists m. unfold trend_ind_new. rewrite D. cbn [bind fst snd].
  unfold dt_add_hours. change (2 * 60)%Z with (Z.of_nat 120). rewrite (dt_add_minutes_later _ _ _ He R Hy). cbn [bind].
  eexists. split; [exact Em|]. split; [reflexivity|]. conjs; reflexivity.
Qed.

(** What the indicator holds after the times of [l]. *)
Definition times_held (t e : datetime) (l : list (period_kind * (N * N))) (i : trend_ind) : Prop :=
  let giv k := option_map snd (find (fun x => kind_eqb k (fst x)) l) in
  (match giv PFrom with Some hm => clock_at t hm (t_dt (ti_from i)) | None => t_dt (ti_from i) = t end)
  /\ (match giv PUntil with Some hm => clock_at t hm (t_dt (ti_until i)) | None => t_dt (ti_until i) = e end)
  /\ (match giv PAt, ti_at i with
      | Some hm, Some a => clock_at t hm (t_dt a)
      | None, None => True
      | _, _ => False
      end).

Definition known (t e : datetime) (i : trend_ind) (c : str) (tr : option str) : Prop :=
  ti_code i = Some c /\ ti_trans i = tr /\ t_dt (ti_init i) = t /\ t_dt (ti_end i) = e.

Lemma add_time : forall t e i c tr p hm, real_time t -> two_hours t e -> known t e i c tr -> (exists u, clock_at t hm u) ->
  exists m i' u, re_match r_TREND_TIME_PERIOD (time_word (p, hm)) = Some m /\ add_period m i = Ok i'
    /\ known t e i' (c ++ py " " ++ time_word (p, hm)) tr /\ clock_at t hm u /\ period_set p u i i'.
Proof.
  intros t e i c tr p [h mi] R [He Hy] (K1 & K2 & K3 & K4) (u & Hu).
  pose proof Hu as ((k & Hk & Hm) & Hh & Hmi). cbn [fst snd] in Hh, Hmi.
  destruct (add_period_ok i c e u k p h mi K1 K4) as (m & i' & Em & E & Q1 & Q2 & Q3 & Q4 & Q5);
    try (rewrite K3); try assumption.
  exists m, i', u. split; [exact Em|]. split; [exact E|]. split; [|split; [exact Hu|exact Q5]].
  split; [exact Q1|]. split; [congruence|]. split; congruence.
Qed.

Definition cp_ind_of (i : trend_ind) (s : str) (out : list str) (p : change_period) : change_period :=
  mk_cp (cp_code p) (cp_time p) (set_string s (cp_common p)) i (cp_unparsed p) (cp_out p ++ out).

Lemma times_parse : forall t e l x c tr rest, real_time t -> two_hours t e ->
  Forall (fun x => exists u, clock_at t (snd x) u) l -> NoDup (map fst l) -> length l <= 2 ->
  known t e (cp_ind x) c tr -> times_held t e [] (cp_ind x) ->
  exists i s out, parse_groups trend_handlers (map time_word l ++ rest) 1 [] x
      = parse_groups trend_handlers rest (1 + length l) [] (cp_ind_of i s out x)
    /\ known t e i (sentence (c :: map time_word l)) tr /\ times_held t e l i /\ length out = length l.
Proof.
  intros t e l x c tr rest R Te H D L K (T1 & T2 & T3). cbn [find option_map] in T1, T2, T3.
  destruct l as [|[p hm] [|[p2 hm2] [|]]]; [| | |cbn [length] in L; lia].
  - exists (cp_ind x), (c_string (cp_common x)), []. cbn [map app length Nat.add]. split; [|split; [exact K|split; [|reflexivity]]].
    + f_equal. destruct x as [x1 x2 [] x4 x5 x6]. unfold cp_ind_of, set_string. cbn. rewrite app_nil_r. reflexivity.
    + split; [exact T1|]. split; [exact T2|exact T3].
  - pose proof (Forall_inv H) as Hy. cbn [snd] in Hy.
    destruct (add_time t e (cp_ind x) c tr p hm R Te K Hy) as (m & i' & u & Em & E & K' & Hu & P).
    cbn [map app]. rewrite (parse_at trend_handlers 1 1 _ _ (mk_handler r_TREND_TIME_PERIOD handle_time_period) m);
      [|lia|intros j hh Hj; lia|reflexivity|exact Em].
    cbn [h_handle]. unfold handle_time_period. rewrite E. cbn [bind].
    eexists i', _, _. split; [reflexivity|]. split; [exact K'|]. split; [|reflexivity].
    unfold times_held. cbn [find fst option_map snd]. destruct p; cbn [kind_eqb option_map snd period_set] in *.
    + destruct P as (P1 & P2 & P3). rewrite P1, P2, P3. split; [exact Hu|]. split; [exact T2|exact T3].
    + destruct P as (P1 & P2 & P3). rewrite P1, P2, P3. split; [exact T1|]. split; [exact Hu|exact T3].
    + destruct P as ((a & P1 & P0) & P2 & P3). rewrite P1, P2, P3, P0. split; [exact T1|]. split; [exact T2|exact Hu].
  - pose proof (Forall_inv H) as Hy. pose proof (Forall_inv (Forall_inv_tail H)) as Hy2. cbn [snd] in Hy, Hy2.
    destruct (add_time t e (cp_ind x) c tr p hm R Te K Hy) as (m & i' & u & Em & E & K' & Hu & P).
    destruct (add_time t e i' _ tr p2 hm2 R Te K' Hy2) as (m2 & i2 & u2 & Em2 & E2 & K2 & Hu2 & P2).
    cbn [map app]. rewrite (parse_at trend_handlers 1 1 _ _ (mk_handler r_TREND_TIME_PERIOD handle_time_period) m);
      [|lia|intros j hh Hj; lia|reflexivity|exact Em].
    cbn [h_handle]. unfold handle_time_period at 1. rewrite E. cbn [bind].
    rewrite (parse_at trend_handlers 2 2 _ _ (mk_handler r_TREND_TIME_PERIOD handle_time_period) m2);
      [|lia|intros j hh Hj; lia|reflexivity|exact Em2].
    cbn [h_handle]. unfold handle_time_period at 1. cbn [cp_ind]. rewrite E2. cbn [bind].
    eexists i2, _, [_; _]. split; [|split; [|split; [|reflexivity]]].
    + unfold cp_ind_of. cbn [length Nat.add]. cbn [cp_code cp_time cp_common cp_unparsed cp_out].
      unfold set_string at 1. cbn [c_string c_wind c_vis c_weathers c_clouds]. rewrite <- app_assoc. reflexivity.
    + replace (sentence (c :: [time_word (p, hm); time_word (p2, hm2)]))
        with ((c ++ py " " ++ time_word (p, hm)) ++ py " " ++ time_word (p2, hm2)); [exact K2|].
      unfold sentence. cbn [join]. rewrite <- !app_assoc. reflexivity.
    + assert (N : p <> p2).
      { intro Ep. rewrite Ep in D. inversion D as [|a b Ha _]. apply Ha. left. reflexivity. }
      unfold times_held. cbn [find fst option_map snd]. clear - T1 T2 T3 P P2 N Hu Hu2.
      destruct p, p2; try congruence; cbn [kind_eqb option_map snd period_set] in *;
        repeat match goal with
        | H : _ /\ _ |- _ => destruct H
        | H : exists _, _ |- _ => destruct H
        end; subst;
        repeat match goal with
        | H : ti_from _ = _ |- _ => rewrite H
        | H : ti_until _ = _ |- _ => rewrite H
        | H : ti_at _ = _ |- _ => rewrite H
        end; auto.
Qed.

(** ** One trend *)

Lemma trend_parse : forall t e g, real_time t -> two_hours t e -> trend_wf t g ->
  exists p, change_period_new (sentence (trend_text g)) t = Ok p /\ trend_is t e g p
    /\ length (cp_out p) = length (n_times g).
Proof.
  intros t e g R Te H. pose proof H as ((H1 & D1 & L1) & H2 & _).
  destruct (trend_sanitized t e g R Te H) as [S1 S2].
  unfold change_period_new. rewrite (replace_absent (py "_") (py " ") 95%N); [|left; reflexivity|].
  2:{ apply sentence_no; [discriminate|]. eapply Forall_impl; [|exact (text_words t e g R Te H)]. intros w K. apply K. }
  destruct (common_calm []) as (c0 & -> & C0). cbn [bind].
  unfold trend_ind_new at 1. cbn [change_indicator_new bind]. unfold dt_add_hours. change (2 * 60)%Z with (Z.of_nat 120).
  rewrite (dt_add_minutes_later _ _ _ (proj1 Te) R (proj2 Te)). cbn [bind]. rewrite S1. unfold parse_section. rewrite S2.
  set (x0 := mk_cp _ _ _ _ _ _).
  destruct (kind_new (n_kind g) t e R Te) as (m & i & Em & Ei & I1 & I2 & I3 & I4 & I5 & I6 & I7).
  rewrite (parse_at trend_handlers 0 0 _ _ (mk_handler r_CHANGE_INDICATOR handle_trend_indicator) m);
    [|lia|intros j hh Hj; lia|reflexivity|exact Em].
  cbn [h_handle]. unfold handle_trend_indicator. change (t_dt (cp_time x0)) with t. rewrite Ei. cbn [bind].
  set (x1 := mk_cp _ _ _ i _ _).
  destruct (times_parse t e (n_times g) x1 (code_of (trend_name (n_kind g))) (Some (py (snd (trend_name (n_kind g)))))
    (wx_groups (n_wx g)) R Te H1 D1 L1) as (i2 & s & out & P & (K1 & K2 & K3 & K4) & (T1 & T2 & T3) & Lo).
  { unfold known, x1. cbn [cp_ind]. auto. }
  { unfold times_held, x1. cbn [cp_ind find option_map]. rewrite I7. auto. }
  rewrite P. set (x2 := cp_ind_of i2 s out x1).
  destruct (trend_wx (n_wx g) (1 + length (n_times g)) x2 H2 ltac:(lia)) as (c & Hc & P2).
  { exact C0. }
  rewrite app_nil_r in P2. rewrite P2. cbn [bind]. eexists. split; [reflexivity|]. split; [|exact Lo].
  unfold trend_is. cbn [cp_set_common cp_ind_of x2 x1 x0 cp_code cp_unparsed cp_ind cp_common app]. conjs.
  - reflexivity.
  - reflexivity.
  - exact K1.
  - exact K2.
  - exact K3.
  - exact K4.
  - exact T1.
  - exact T2.
  - exact T3.
  - exact Hc.
Qed.
