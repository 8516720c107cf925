(** * The year and month given only date a report (C67): proof *)
From Coq Require Import String Ascii.
From Coq Require Import List NArith ZArith Bool Lia.
From Verif Require Import PyBase PyRegex AeroRegex PyFloat PyTime Utils Base MetarGroups Trend Metar Taf SpecNum SpecTime SpecMetar
  SpecFailures SpecDated StrFacts RegexPaths Captures Outcomes OutTime OutMetar OutReport ProofClock ProofLists ProofProb ProofTime.
Import ListNotations.
Local Open Scope string_scope.
Local Open Scope nat_scope.
Local Open Scope list_scope.

(** ** Two runs side by side *)

Lemma parse_groups_rel : forall S (R : S -> S -> Prop) (hs hs' : list (handler S)),
  Forall2 (fun h h' => h_regexp h = h_regexp h' /\ forall g m s s' t t', re_match (h_regexp h) g = Some m -> R s s' ->
    h_handle h m s = Ok t -> h_handle h' m s' = Ok t' -> R t t') hs hs' ->
  forall gs i un s s' r r', R s s' -> parse_groups hs gs i un s = Ok r -> parse_groups hs' gs i un s' = Ok r' ->
  R (fst r) (fst r') /\ snd r = snd r'.
Proof.
  intros S R hs hs' F gs. induction gs as [|g gs IH]; intros i un s s' r r' Rs E E'; cbn [parse_groups] in E, E'.
  - injection E as <-. injection E' as <-. split; [exact Rs|reflexivity].
  - cbv zeta in E, E'.
    assert (K : forall n l l', Forall2 (fun h h' => h_regexp h = h_regexp h' /\ forall g m s s' t t', re_match (h_regexp h) g = Some m -> R s s' ->
         h_handle h m s = Ok t -> h_handle h' m s' = Ok t' -> R t t') l l' ->
       match first_match l n g, first_match l' n g with
       | Some (k, h, m), Some (k', h', m') => k = k' /\ m = m' /\ re_match (h_regexp h) g = Some m /\
           (forall s s' t t', R s s' -> h_handle h m s = Ok t -> h_handle h' m s' = Ok t' -> R t t')
       | None, None => True
       | _, _ => False end).
    { intros n l l' Fl. revert n. induction Fl as [|h h' l l' [Er H] Fl IHl]; intros n; cbn [first_match]; [exact I|].
      rewrite <- Er. destruct (re_match (h_regexp h) g) as [m|] eqn:M; [|apply IHl].
      split; [reflexivity|]. split; [reflexivity|]. split; [exact M|]. intros a a' t t'. exact (H g m a a' t t' M). }
    assert (Fs : Forall2 (fun h h' => h_regexp h = h_regexp h' /\ forall g m s s' t t', re_match (h_regexp h) g = Some m -> R s s' ->
         h_handle h m s = Ok t -> h_handle h' m s' = Ok t' -> R t t') (skipn i hs) (skipn i hs')).
    { clear - F. revert i. induction F as [|h h' l l' H F IH]; intros [|i]; cbn [skipn]; [constructor|constructor|constructor; assumption|apply IH]. }
    specialize (K 0 _ _ Fs). destruct (first_match (skipn i hs) 0 g) as [[[k h] m]|], (first_match (skipn i hs') 0 g) as [[[k' h'] m']|]; try contradiction.
    + destruct K as (<- & <- & M & H). destruct (h_handle h m s) as [t|] eqn:T; cbn [bind] in E; [|discriminate E].
      destruct (h_handle h' m s') as [t'|] eqn:T'; cbn [bind] in E'; [|discriminate E']. exact (IH _ _ _ _ _ _ (H _ _ _ _ Rs T T') E E').
    + exact (IH _ _ _ _ _ _ Rs E E').
Qed.

Ltac steps E := repeat match type of E with bind ?r _ = Ok _ => let Q := fresh "Q" in destruct r eqn:Q; cbn [bind] in E; [|discriminate E] end.

(** ** Times *)

Lemma add_parts : forall t k u, dt_add_minutes t k = Ok u ->
  dt_hour u = ((dt_minutes t + k) mod 1440 / 60)%Z /\ dt_minute u = ((dt_minutes t + k) mod 1440 mod 60)%Z.
Proof.
  intros t k u. unfold dt_add_minutes. generalize (dt_minutes t + k)%Z. intros n. cbv zeta.
  generalize ((1 <=? n / 1440) && (n / 1440 <=? max_ordinal))%Z. intros b. destruct b; [|discriminate].
  generalize (ord2ymd (n / 1440)). intros [[y mo] d] E. injection E as <-. split; reflexivity.
Qed.

Lemma minutes_mod : forall t k, ((dt_minutes t + k) mod 1440 = (dt_hour t * 60 + dt_minute t + k) mod 1440)%Z.
Proof.
  intros t k. unfold dt_minutes. generalize (ymd2ord (dt_year t) (dt_month t) (dt_day t)). intros o.
  replace (o * 1440 + dt_hour t * 60 + dt_minute t + k)%Z with (dt_hour t * 60 + dt_minute t + k + o * 1440)%Z by lia. apply Z_mod_plus_full.
Qed.

Lemma add_clock : forall t t' k u u', dt_hour t = dt_hour t' -> dt_minute t = dt_minute t' ->
  dt_add_minutes t k = Ok u -> dt_add_minutes t' k = Ok u' -> dt_hour u = dt_hour u' /\ dt_minute u = dt_minute u'.
Proof.
  intros t t' k u u' H M E E'. apply add_parts in E. apply add_parts in E'. rewrite minutes_mod in E, E'. rewrite <- H, <- M in E'.
  destruct E as [E1 E2], E' as [E1' E2']. split; congruence.
Qed.

Lemma hours_clock : forall t t' k u u', dt_hour t = dt_hour t' -> dt_minute t = dt_minute t' ->
  dt_add_hours t k = Ok u -> dt_add_hours t' k = Ok u' -> dt_hour u = dt_hour u' /\ dt_minute u = dt_minute u'.
Proof. intros t t' k u u' H M. unfold dt_add_hours. exact (add_clock t t' (k * 60) u u' H M). Qed.
Lemma days_clock : forall t t' k u u', dt_hour t = dt_hour t' -> dt_minute t = dt_minute t' ->
  dt_add_days t k = Ok u -> dt_add_days t' k = Ok u' -> dt_hour u = dt_hour u' /\ dt_minute u = dt_minute u'.
Proof. intros t t' k u u' H M. unfold dt_add_days. exact (add_clock t t' (k * 1440) u u' H M). Qed.

Lemma time_dhm : forall e g m y mo y' mo' t t', re_match r_TIME g = Some m -> real_month e y mo -> real_month e y' mo' ->
  time_from_metar e (Some m) y mo = Ok t -> time_from_metar e (Some m) y' mo' = Ok t' -> dhm t = dhm t'.
Proof.
  intros e g m y mo y' mo' t t' M R R'. destruct (time_match g m M) as (x & a & b & c & C & X & Ga & Gb & Gc & A & B & M6 & Es).
  destruct (day_value a A) as [La (d & Ra & Bd)]. destruct (min_value c M6) as [Lc (mi & Rc & Bm)].
  assert (K : forall h, b = py "24" \/ (hour_text b /\ length b = 2 /\ reads b h /\ (h <= 23)%N) ->
    forall y mo t, real_month e y mo -> time_from_metar e (Some m) y mo = Ok t ->
    dhm t = (group_code (Some g), Z.of_N d, Z.of_N h, Z.of_N mi)).
  { intros h Hb y0 mo0 t0 [Hy Hm] E. unfold time_from_metar, time_new in E. rewrite Ga, Gb, Gc, Es in E. cbn [opt_default] in E.
    cbv zeta in E. set (y1 := opt_default (now_year e) y0) in *. set (mo1 := opt_default (now_month e) mo0) in *.
    remember (Z.to_N y1) as y2 eqn:Ey. remember (Z.to_N mo1) as mo2 eqn:Emo.
    assert (E1 : y1 = Z.of_N y2) by lia. assert (E2 : mo1 = Z.of_N mo2) by lia. clearbody y1 mo1. subst y1 mo1. clear Ey Emo.
    rewrite Z_str_year, Z_pad_month in E by lia. destruct Hb as [->|(Hb & Lb & Rb & Bh)].
    - rewrite (strptime_any24 y2 mo2 a c) in E by (assumption || lia). discriminate E.
    - rewrite (strptime_any y2 mo2 a b c d h mi) in E by (assumption || lia).
      destruct (valid_date (Z.of_N y2) (Z.of_N mo2) (Z.of_N d)); [|discriminate E]. cbn [bind] in E. injection E as <-. reflexivity. }
  intros E E'. destruct B as [B|B].
  - destruct (hour_value b B) as [Lb (h & Rb & Bh)].
    assert (Z : b = py "24" \/ (hour_text b /\ length b = 2 /\ reads b h /\ (h <= 23)%N)) by (right; auto).
    rewrite (K h Z _ _ _ R E), (K h Z _ _ _ R' E'). reflexivity.
  - rewrite (K 0%N (or_introl B) _ _ _ R E), (K 0%N (or_introl B) _ _ _ R' E'). reflexivity.
Qed.

Lemma groups_set : forall s c, groups_of (set_string s c) = groups_of c.
Proof. reflexivity. Qed.

(** The handlers shared by all reports. *)
Lemma shared_rel : forall f m c c' d d', In f [handle_wind; handle_prevailing; handle_weather; handle_cloud] ->
  groups_of c = groups_of c' -> f m c = Ok d -> f m c' = Ok d' -> groups_of d = groups_of d'.
Proof.
  intros f m c c' d d' I H E E'. unfold groups_of in *. cbn [In] in I. injection H as H1 H2 H3 H4.
  destruct I as [<-|[<-|[<-|[<-|[]]]]]; unfold handle_wind, handle_prevailing, handle_weather, handle_cloud in E, E';
    cbv zeta in E, E'; try rewrite H3 in E; try rewrite H4 in E; steps E; steps E'; injection E as <-; injection E' as <-;
    cbn [c_wind c_vis c_weathers c_clouds]; congruence.
Qed.

(** ** Trends *)

Lemma hm_at : forall t t', dt_hour t = dt_hour t' -> dt_minute t = dt_minute t' -> hm (time_at t) = hm (time_at t').
Proof. intros t t' H M. unfold hm. cbn [time_at t_code t_dt]. rewrite H, M. reflexivity. Qed.

Lemma hm_parts : forall t t', hm t = hm t' -> t_code t = t_code t' /\ dt_hour (t_dt t) = dt_hour (t_dt t') /\ dt_minute (t_dt t) = dt_minute (t_dt t').
Proof. intros t t' H. unfold hm in H. injection H as H1 H2 H3. auto. Qed.

Definition undated_ind (i : trend_ind) :=
  (ti_code i, ti_trans i, hm (ti_init i), hm (ti_end i), hm (ti_from i), hm (ti_until i), option_map hm (ti_at i)).

Local Opaque dt_add_minutes dt_add_hours dt_add_days.
Lemma ind_rel : forall m t t' i i', dt_hour t = dt_hour t' -> dt_minute t = dt_minute t' ->
  trend_ind_new m t = Ok i -> trend_ind_new m t' = Ok i' -> undated_ind i = undated_ind i'.
Proof.
  intros m t t' i i' H M E E'. unfold trend_ind_new in E, E'. destruct (change_indicator_new m) as [ct|]; cbn [bind] in E, E'; [|discriminate E].
  destruct (dt_add_hours t 2) as [u|] eqn:U; cbn [bind] in E; [|discriminate E].
  destruct (dt_add_hours t' 2) as [u'|] eqn:U'; cbn [bind] in E'; [|discriminate E'].
  injection E as <-. injection E' as <-. unfold undated_ind. cbn [ti_code ti_trans ti_init ti_end ti_from ti_until ti_at option_map].
  destruct (hours_clock _ _ _ _ _ H M U U') as [A B]. rewrite (hm_at t t' H M), (hm_at u u' A B). reflexivity.
Qed.

Lemma period_rel : forall i i' h mi t t', undated_ind i = undated_ind i' -> period_time i h mi = Ok t -> period_time i' h mi = Ok t' ->
  dt_hour t = dt_hour t' /\ dt_minute t = dt_minute t'.
Proof.
  intros i i' h mi t t' H E E'. unfold undated_ind in H. rewrite !pair_equal_spec in H. destruct H as ((((((_ & _) & Hi) & He) & _) & _) & _).
  destruct (hm_parts _ _ Hi) as (_ & I2 & I3).
  destruct (hm_parts _ _ He) as (_ & E2 & E3).
  unfold period_time in E, E'.
  destruct (dt_add_hours (t_dt (ti_init i)) 1) as [u|] eqn:U; cbn [bind] in E; [|discriminate E].
  destruct (dt_add_hours (t_dt (ti_init i')) 1) as [u'|] eqn:U'; cbn [bind] in E'; [|discriminate E'].
  destruct (hours_clock _ _ _ _ _ I2 I3 U U') as [A B]. rewrite <- I2, <- A, <- I3, <- B, <- E3 in E'.
  destruct (h =? dt_hour (t_dt (ti_init i)))%Z; [exact (add_clock _ _ _ _ _ I2 I3 E E')|].
  destruct (h =? dt_hour u)%Z; [exact (add_clock _ _ _ _ _ A B E E')|]. exact (add_clock _ _ _ _ _ E2 E3 E E').
Qed.

Lemma add_rel : forall m i i' j j', undated_ind i = undated_ind i' -> add_period m i = Ok j -> add_period m i' = Ok j' ->
  undated_ind j = undated_ind j'.
Proof.
  intros m i i' j j' H E E'. unfold add_period in E, E'. pose proof H as H0. unfold undated_ind in H0. rewrite !pair_equal_spec in H0.
  destruct H0 as ((((((H1 & H2) & Hi) & He) & Hf) & Hu) & Ha). rewrite <- H1 in E'. destruct (ti_code i) as [c|]; [|discriminate E]. cbv zeta in E, E'.
  destruct (int_of_opt (group m "hour")) as [h|]; cbn [bind] in E, E'; [|discriminate E].
  destruct (int_of_opt (group m "min")) as [mi|]; cbn [bind] in E, E'; [|discriminate E].
  destruct (period_time i h mi) as [t|] eqn:T; cbn [bind] in E; [|discriminate E].
  destruct (period_time i' h mi) as [t'|] eqn:T'; cbn [bind] in E'; [|discriminate E'].
  destruct (period_rel _ _ _ _ _ _ H T T') as [A B].
  assert (X : hm (time_at_code (m_string m) t) = hm (time_at_code (m_string m) t')) by (unfold hm; cbn [time_at_code t_code t_dt]; rewrite A, B; reflexivity).
  destruct (opt_str_eqb (group m "prefix") (py "FM")); [|destruct (opt_str_eqb (group m "prefix") (py "TL"))];
    injection E as <-; injection E' as <-; unfold undated_ind; cbn [ti_code ti_trans ti_init ti_end ti_from ti_until ti_at option_map];
    rewrite ?pair_equal_spec; repeat split; congruence.
Qed.

Definition trend_like (p p' : change_period) : Prop := undated_trend p = undated_trend p'.

Lemma trend_step : forall h, In h trend_handlers -> forall m s s' t t', trend_like s s' ->
  h_handle h m s = Ok t -> h_handle h m s' = Ok t' -> trend_like t t'.
Proof.
  intros h I m s s' t t' H E E'. unfold trend_like, undated_trend in *. fold (undated_ind (cp_ind s)) in H. fold (undated_ind (cp_ind s')) in H.
  fold (undated_ind (cp_ind t)). fold (undated_ind (cp_ind t')).
  rewrite !pair_equal_spec in H. destruct H as (((((H1 & H2) & H3) & H4) & H5) & H6).
  assert (L : forall f, In f [handle_wind; handle_prevailing; handle_weather; handle_cloud] -> cp_lift f m s = Ok t -> cp_lift f m s' = Ok t' ->
    (cp_code t, hm (cp_time t), groups_of (cp_common t), cp_unparsed t, length (cp_out t), undated_ind (cp_ind t))
    = (cp_code t', hm (cp_time t'), groups_of (cp_common t'), cp_unparsed t', length (cp_out t'), undated_ind (cp_ind t'))).
  { intros f If F F'. unfold cp_lift in F, F'. destruct (f m (cp_common s)) as [c|] eqn:C; cbn [bind] in F; [|discriminate F].
    destruct (f m (cp_common s')) as [c'|] eqn:C'; cbn [bind] in F'; [|discriminate F']. injection F as <-. injection F' as <-.
    cbn [cp_set_common cp_code cp_time cp_common cp_unparsed cp_out cp_ind]. rewrite !pair_equal_spec.
    repeat split; try assumption. exact (shared_rel f m _ _ _ _ If H3 C C'). }
  unfold trend_handlers in I. cbn [In] in I.
  repeat (destruct I as [<-|I]; [cbn [h_handle] in E, E'|]); try contradiction;
    try (match type of E with cp_lift ?f _ _ = _ => apply (L f); [cbn [In]; tauto|exact E|exact E'] end).
  - unfold handle_trend_indicator in E, E'. destruct (trend_ind_new (Some m) (t_dt (cp_time s))) as [i|] eqn:J; cbn [bind] in E; [|discriminate E].
    destruct (trend_ind_new (Some m) (t_dt (cp_time s'))) as [i'|] eqn:J'; cbn [bind] in E'; [|discriminate E'].
    injection E as <-. injection E' as <-. cbn [cp_code cp_time cp_common cp_unparsed cp_out cp_ind]. rewrite !pair_equal_spec.
    destruct (hm_parts _ _ H2) as (_ & A & B). repeat split; try assumption. exact (ind_rel _ _ _ _ _ A B J J').
  - unfold handle_time_period in E, E'. cbv zeta in E, E'. destruct (add_period m (cp_ind s)) as [i|] eqn:J; cbn [bind] in E; [|discriminate E].
    destruct (add_period m (cp_ind s')) as [i'|] eqn:J'; cbn [bind] in E'; [|discriminate E'].
    injection E as <-. injection E' as <-. cbn [cp_code cp_time cp_common cp_unparsed cp_out cp_ind]. rewrite !pair_equal_spec, !app_length, H5.
    repeat split; try assumption. exact (add_rel _ _ _ _ _ H6 J J').
  - unfold handle_time_period in E, E'. cbv zeta in E, E'. destruct (add_period m (cp_ind s)) as [i|] eqn:J; cbn [bind] in E; [|discriminate E].
    destruct (add_period m (cp_ind s')) as [i'|] eqn:J'; cbn [bind] in E'; [|discriminate E'].
    injection E as <-. injection E' as <-. cbn [cp_code cp_time cp_common cp_unparsed cp_out cp_ind]. rewrite !pair_equal_spec, !app_length, H5.
    repeat split; try assumption. exact (add_rel _ _ _ _ _ H6 J J').
Qed.

Lemma same_handlers : forall S (R : S -> S -> Prop) (hs : list (handler S)),
  (forall h, In h hs -> forall m s s' t t', R s s' -> h_handle h m s = Ok t -> h_handle h m s' = Ok t' -> R t t') ->
  Forall2 (fun h h' => h_regexp h = h_regexp h' /\ forall g m s s' t t', re_match (h_regexp h) g = Some m -> R s s' ->
    h_handle h m s = Ok t -> h_handle h' m s' = Ok t' -> R t t') hs hs.
Proof.
  intros S R hs. induction hs as [|h hs IH]; intros H; [constructor|]. constructor.
  - split; [reflexivity|]. intros g m s s' t t' _. apply (H h (or_introl eq_refl)).
  - apply IH. intros k I. exact (H k (or_intror I)).
Qed.

Lemma trend_rel : forall w t t' p p', dt_hour t = dt_hour t' -> dt_minute t = dt_minute t' ->
  change_period_new w t = Ok p -> change_period_new w t' = Ok p' -> trend_like p p'.
Proof.
  intros w t t' p p' H M E E'. unfold change_period_new in E, E'. cbv zeta in E, E'.
  destruct (common_new []) as [c|]; cbn [bind] in E, E'; [|discriminate E].
  destruct (trend_ind_new None t) as [i|] eqn:J; cbn [bind] in E; [|discriminate E].
  destruct (trend_ind_new None t') as [i'|] eqn:J'; cbn [bind] in E'; [|discriminate E'].
  destruct (parse_section _ _ _) as [[q un]|] eqn:P in E; cbn [bind] in E; [|discriminate E].
  destruct (parse_section _ _ _) as [[q' un']|] eqn:P' in E'; cbn [bind] in E'; [|discriminate E'].
  injection E as <-. injection E' as <-.
  assert (X : trend_like (mk_cp (Some (replace (py "_") (py " ") w)) (time_at t) c i [] []) (mk_cp (Some (replace (py "_") (py " ") w)) (time_at t') c i' [] [])).
  { unfold trend_like, undated_trend. cbn [cp_code cp_time cp_common cp_unparsed cp_out cp_ind]. fold (undated_ind i). fold (undated_ind i').
    rewrite (hm_at t t' H M), (ind_rel _ _ _ _ _ H M J J'). reflexivity. }
  destruct (parse_groups_rel _ trend_like _ _ (same_handlers _ _ _ trend_step) _ _ _ _ _ _ _ X P P') as [A B]. cbn [fst snd] in A, B. clear X P P'.
  unfold trend_like, undated_trend in *. cbn [cp_code cp_time cp_common cp_unparsed cp_out cp_ind].
  rewrite !pair_equal_spec in A |- *. destruct A as (((((H1 & H2) & H3) & H4) & H5) & H6). rewrite H4, B. tauto.
Qed.

(** ** METAR *)

Definition metar_like (x x' : metar) : Prop := undated x = undated x'.

Lemma list_add : forall A B (f : A -> B) a a' g g' h h', f a = f a' -> undated_list f g = undated_list f g' ->
  gl_add a g = Ok h -> gl_add a' g' = Ok h' -> undated_list f h = undated_list f h'.
Proof.
  intros A B f a a' g g' h h' Ha H E E'. unfold undated_list in *. rewrite !pair_equal_spec in *. destruct H as ((H1 & H2) & H3).
  unfold gl_add in E, E'. destruct (Nat.leb _ _) in E; [discriminate E|]. destruct (Nat.leb _ _) in E'; [discriminate E'|].
  injection E as <-. injection E' as <-. cbn [gl_n gl_max gl_list]. rewrite !map_app, H3. cbn [map]. rewrite Ha. auto.
Qed.

Lemma same_dhm : forall t t', dhm t = dhm t' -> t_code t = t_code t' /\ dt_day (t_dt t) = dt_day (t_dt t')
  /\ dt_hour (t_dt t) = dt_hour (t_dt t') /\ dt_minute (t_dt t) = dt_minute (t_dt t').
Proof. intros t t' H. unfold dhm in H. injection H as H1 H2 H3 H4. auto. Qed.

Lemma like_parts : forall x x', metar_like x x' ->
  me_raw x = me_raw x' /\ me_sections x = me_sections x' /\ me_unparsed x = me_unparsed x' /\ me_type x = me_type x'
  /\ me_station x = me_station x' /\ dhm (me_time x) = dhm (me_time x') /\ me_modifier x = me_modifier x'
  /\ groups_of (me_common x) = groups_of (me_common x') /\ me_wvar x = me_wvar x' /\ me_minvis x = me_minvis x' /\ me_rvr x = me_rvr x'
  /\ me_temps x = me_temps x' /\ me_press x = me_press x' /\ me_recent x = me_recent x' /\ me_ws x = me_ws x'
  /\ me_sea x = me_sea x' /\ me_rwy x = me_rwy x' /\ undated_list undated_trend (me_trends x) = undated_list undated_trend (me_trends x')
  /\ length (me_out x) = length (me_out x').
Proof. intros x x' H. unfold metar_like, undated in H. rewrite !pair_equal_spec in H. tauto. Qed.

Ltac parts H := destruct (like_parts _ _ H) as (R1 & R2 & R3 & R4 & R5 & R6 & R7 & R8 & R9 & R10 & R11 & R12 & R13 & R14 & R15 & R16 & R17 & R18 & R19); clear H.

Lemma pair_eq : forall A B (a a' : A) (b b' : B), a = a' -> b = b' -> (a, b) = (a', b').
Proof. intros A B a a' b b' -> ->. reflexivity. Qed.
Ltac same := repeat first [assumption|apply pair_eq]; try reflexivity; try congruence.

Lemma metar_step_like : forall e y mo y' mo', real_month e y mo -> real_month e y' mo' ->
  Forall2 (fun h h' => h_regexp h = h_regexp h' /\ forall g m s s' t t', re_match (h_regexp h) g = Some m -> metar_like s s' ->
    h_handle h m s = Ok t -> h_handle h' m s' = Ok t' -> metar_like t t') (metar_handlers e y mo) (metar_handlers e y' mo').
Proof.
  intros e y mo y' mo' Y Y'.
  assert (L : forall f, In f [handle_wind; handle_prevailing; handle_weather; handle_cloud] -> forall m s s' t t', metar_like s s' ->
    lift f m s = Ok t -> lift f m s' = Ok t' -> metar_like t t').
  { intros f If m s s' t t' H F F'. unfold lift in F, F'. destruct (f m (me_common s)) as [c|] eqn:C; cbn [bind] in F; [|discriminate F].
    destruct (f m (me_common s')) as [c'|] eqn:C'; cbn [bind] in F'; [|discriminate F']. injection F as <-. injection F' as <-. parts H.
    pose proof (shared_rel f m _ _ _ _ If R8 C C') as N. clear C C'.
    unfold metar_like, undated, upd_common. cbn [me_raw me_sections me_unparsed me_type me_station me_time me_modifier me_common me_wvar me_minvis me_rvr
      me_temps me_press me_recent me_ws me_sea me_rwy me_trends me_out]. same. }
  unfold metar_handlers.
  repeat match goal with
  | |- Forall2 _ (mk_handler _ (lift ?f) :: _) _ =>
      constructor; [split; [reflexivity|cbn [h_handle h_regexp]; intros g m s s' t t' _ H E E'; exact (L f ltac:(cbn [In]; tauto) m s s' t t' H E E')]|]
  | |- Forall2 _ (mk_handler r_TIME _ :: _) _ =>
      constructor; [split; [reflexivity|cbn [h_handle h_regexp]; intros g m s s' t t' M H E E';
        unfold handle_time in E, E'; destruct (time_from_metar e (Some m) y mo) as [v|] eqn:V; cbn [bind] in E; [|discriminate E];
        destruct (time_from_metar e (Some m) y' mo') as [v'|] eqn:V'; cbn [bind] in E'; [|discriminate E'];
        pose proof (time_dhm _ _ _ _ _ _ _ _ _ M Y Y' V V') as N; injection E as <-; injection E' as <-; parts H;
        unfold metar_like, undated, out_string, upd_common, upd_time, add_string;
        cbn [me_raw me_sections me_unparsed me_type me_station me_time me_modifier me_common me_wvar me_minvis me_rvr
          me_temps me_press me_recent me_ws me_sea me_rwy me_trends me_out]; rewrite !groups_set; clear L Y Y'; same]|]
  | |- Forall2 _ (mk_handler _ _ :: _) _ =>
      constructor; [split; [reflexivity|cbn [h_handle h_regexp]; intros g m s s' t t' _ H E E'; parts H;
        unfold handle_type, handle_station, handle_modifier, handle_wind_variation, handle_minimum_visibility,
          handle_runway_range, handle_temperatures, handle_pressure, handle_recent_weather, handle_windshear, handle_sea_state,
          handle_runway_state in E, E'; cbv zeta in E, E'; try rewrite R11 in E; try rewrite R15 in E; steps E; steps E';
        injection E as <-; injection E' as <-;
        unfold metar_like, undated, out_string, upd_common, add_string, upd_type, upd_station, upd_modifier, upd_wvar, upd_minvis, upd_rvr, upd_temps,
          upd_press, upd_recent, upd_ws, upd_sea, upd_rwy;
        cbn [me_raw me_sections me_unparsed me_type me_station me_time me_modifier me_common me_wvar me_minvis me_rvr
          me_temps me_press me_recent me_ws me_sea me_rwy me_trends me_out]; rewrite !groups_set; clear L Y Y'; same]|]
  | |- Forall2 _ [] _ => constructor
  end.
Qed.

Lemma default_dhm : forall e y mo t, real_month e y mo -> time_from_metar e None y mo = Ok t -> dhm t = (None, 1%Z, 0%Z, 0%Z).
Proof.
  intros e y mo t [Hy Hm] E. unfold time_from_metar in E. pose proof (no_code_time _ _ _ _ E) as N.
  destruct (default_first e y mo Hy Hm) as (u & U & D). rewrite U in E. injection E as <-. unfold dhm. rewrite N, D. reflexivity.
Qed.

Lemma metar_init_like : forall e raw y mo y' mo' x x', real_month e y mo -> real_month e y' mo' ->
  metar_init e raw y mo = Ok x -> metar_init e raw y' mo' = Ok x' -> metar_like x x'.
Proof.
  intros e raw y mo y' mo' x x' Y Y' E E'. unfold metar_init in E, E'.
  destruct (time_new e None None None None None None) as [t0|]; cbn [bind] in E, E'; [|discriminate E].
  destruct (common_new []) as [c|]; cbn [bind] in E, E'; [|discriminate E].
  destruct (time_from_metar e None y mo) as [t|] eqn:T; cbn [bind] in E; [|discriminate E].
  destruct (time_from_metar e None y' mo') as [t'|] eqn:T'; cbn [bind] in E'; [|discriminate E'].
  destruct (wind_variation_new None) as [a1|]; cbn [bind] in E, E'; [|discriminate E].
  destruct (minimum_visibility_new None) as [a2|]; cbn [bind] in E, E'; [|discriminate E].
  destruct (temperatures_new None) as [a3|]; cbn [bind] in E, E'; [|discriminate E].
  destruct (metar_pressure_new None) as [a4|]; cbn [bind] in E, E'; [|discriminate E].
  destruct (sea_state_new None) as [a5|]; cbn [bind] in E, E'; [|discriminate E].
  injection E as <-. injection E' as <-. unfold metar_like, undated.
  cbn [me_raw me_sections me_unparsed me_type me_station me_time me_modifier me_common me_wvar me_minvis me_rvr
      me_temps me_press me_recent me_ws me_sea me_rwy me_trends me_out].
  rewrite (default_dhm _ _ _ _ Y T), (default_dhm _ _ _ _ Y' T'). reflexivity.
Qed.

Lemma like_unparsed : forall x x' l l', metar_like x x' -> l = l' -> metar_like (upd_unparsed l x) (upd_unparsed l' x').
Proof.
  intros x x' l l' H <-. parts H. unfold metar_like, undated, upd_unparsed.
  cbn [me_raw me_sections me_unparsed me_type me_station me_time me_modifier me_common me_wvar me_minvis me_rvr
      me_temps me_press me_recent me_ws me_sea me_rwy me_trends me_out]. same.
Qed.

Lemma like_trends : forall x x' l l', metar_like x x' -> undated_list undated_trend l = undated_list undated_trend l' ->
  metar_like (upd_trends l x) (upd_trends l' x').
Proof.
  intros x x' l l' H N. parts H. unfold metar_like, undated, upd_trends.
  cbn [me_raw me_sections me_unparsed me_type me_station me_time me_modifier me_common me_wvar me_minvis me_rvr
      me_temps me_press me_recent me_ws me_sea me_rwy me_trends me_out]. same.
Qed.

Lemma like_out : forall x x' l l', metar_like x x' -> length l = length l' -> metar_like (upd_out l x) (upd_out l' x').
Proof.
  intros x x' l l' H N. parts H. unfold metar_like, undated, upd_out.
  cbn [me_raw me_sections me_unparsed me_type me_station me_time me_modifier me_common me_wvar me_minvis me_rvr
      me_temps me_press me_recent me_ws me_sea me_rwy me_trends me_out]. same.
Qed.

Lemma like_string : forall x x' s s', metar_like x x' -> metar_like (out_string s x) (out_string s' x').
Proof.
  intros x x' s s' H. parts H. unfold metar_like, undated, out_string, upd_common, add_string.
  cbn [me_raw me_sections me_unparsed me_type me_station me_time me_modifier me_common me_wvar me_minvis me_rvr
      me_temps me_press me_recent me_ws me_sea me_rwy me_trends me_out]. rewrite !groups_set. same.
Qed.

Lemma trends_like : forall l x x' z z', metar_like x x' -> handle_trends l x = Ok z -> handle_trends l x' = Ok z' -> metar_like z z'.
Proof.
  intros l. induction l as [|w l IH]; intros x x' z z' H E E'; cbn [handle_trends] in E, E'; [injection E as <-; injection E' as <-; exact H|].
  destruct w as [|c w]; [exact (IH _ _ _ _ H E E')|]. unfold handle_weather_trend in E, E'.
  destruct (change_period_new (c :: w) (t_dt (me_time x))) as [p|] eqn:P; cbn [bind] in E; [|discriminate E].
  destruct (change_period_new (c :: w) (t_dt (me_time x'))) as [p'|] eqn:P'; cbn [bind] in E'; [|discriminate E'].
  destruct (gl_add p (me_trends x)) as [g|] eqn:G; cbn [bind] in E; [|discriminate E].
  destruct (gl_add p' (me_trends x')) as [g'|] eqn:G'; cbn [bind] in E'; [|discriminate E'].
  pose proof H as H0. parts H0. destruct (same_dhm _ _ R6) as (_ & _ & A & B).
  pose proof (trend_rel _ _ _ _ _ A B P P') as T.
  refine (IH _ _ _ _ _ E E'). apply like_string. apply like_out.
  - apply like_trends; [exact H|]. exact (list_add _ _ undated_trend _ _ _ _ _ _ T R18 G G').
  - rewrite !app_length, R19. unfold trend_like, undated_trend in T. rewrite !pair_equal_spec in T. f_equal. tauto.
Qed.

Theorem metar_undated : forall e code y mo tr x y' mo' tr' x', real_month e y mo -> real_month e y' mo' ->
  metar_parse e code y mo tr = Ok x -> metar_parse e code y' mo' tr' = Ok x' -> undated x = undated x'.
Proof.
  intros e code y mo tr x y' mo' tr' x' Y Y' E E'. unfold metar_parse in E, E'.
  destruct (report_raw_code code) as [raw|]; cbn [bind] in E, E'; [|discriminate E].
  destruct (metar_init e raw y mo) as [x0|] eqn:E0; cbn [bind] in E; [|discriminate E].
  destruct (metar_init e raw y' mo') as [x0'|] eqn:E0'; cbn [bind] in E'; [|discriminate E'].
  pose proof (metar_init_like _ _ _ _ _ _ _ _ Y Y' E0 E0') as H. clear E0 E0'.
  unfold parse_body in E, E'. pose proof H as H0. parts H0. clear R1 R3 R4 R5 R6 R7 R8 R9 R10 R11 R12 R13 R14 R15 R16 R17 R18 R19. rewrite <- R2 in E'.
  destruct (parse_section (metar_handlers e y mo) _ x0) as [[x1 un]|] eqn:P; cbn [bind] in E; [|discriminate E].
  destruct (parse_section (metar_handlers e y' mo') _ x0') as [[x1' un']|] eqn:P'; cbn [bind] in E'; [|discriminate E'].
  destruct (parse_groups_rel _ metar_like _ _ (metar_step_like e y mo y' mo' Y Y') _ _ _ _ _ _ _ H P P') as [H1 Hu]. cbn [fst snd] in H1, Hu.
  clear H P P' R2 x0 x0'.
  assert (H2 : metar_like (upd_unparsed (me_unparsed x1 ++ un) x1) (upd_unparsed (me_unparsed x1' ++ un') x1')).
  { apply like_unparsed; [exact H1|]. parts H1. congruence. }
  revert H2 E E'. generalize (upd_unparsed (me_unparsed x1 ++ un) x1), (upd_unparsed (me_unparsed x1' ++ un') x1'). clear.
  intros x1 x1' H E E'. unfold parse_weather_trend in E, E'. pose proof H as H0. parts H0.
  clear R1 R3 R4 R5 R6 R7 R8 R9 R10 R11 R12 R13 R14 R15 R16 R17 R18 R19. rewrite <- R2 in E'.
  destruct (handle_trends _ x1) as [x2|] eqn:T; cbn [bind] in E; [|discriminate E].
  destruct (handle_trends _ x1') as [x2'|] eqn:T'; cbn [bind] in E'; [|discriminate E'].
  pose proof (trends_like _ _ _ _ _ H T T') as L. clear - E E' L. rewrite gl_collect_spec in E, E'.
  assert (K : metar_like
    (upd_unparsed (me_unparsed x2 ++ flat_map cp_unparsed (skipn (gl_n (me_trends x2)) (gl_list (me_trends x2))))
      (upd_trends (mk_gl 0 (gl_max (me_trends x2)) (gl_list (me_trends x2))) x2))
    (upd_unparsed (me_unparsed x2' ++ flat_map cp_unparsed (skipn (gl_n (me_trends x2')) (gl_list (me_trends x2'))))
      (upd_trends (mk_gl 0 (gl_max (me_trends x2')) (gl_list (me_trends x2'))) x2'))).
  { pose proof L as L0. parts L0. unfold undated_list in R18. rewrite !pair_equal_spec in R18. destruct R18 as ((N1 & N2) & N3). apply like_unparsed.
    - apply like_trends; [exact L|]. unfold undated_list. cbn [gl_n gl_max gl_list]. rewrite N2, N3. reflexivity.
    - rewrite R3. f_equal. rewrite N1. revert N3. generalize (gl_list (me_trends x2)), (gl_list (me_trends x2')), (gl_n (me_trends x2')). clear.
      intros l l' n N. assert (Z : map undated_trend (skipn n l) = map undated_trend (skipn n l')) by (rewrite <- !skipn_map, N; reflexivity).
      clear N. revert Z. generalize (skipn n l), (skipn n l'). clear. intros l. induction l as [|p l IH]; intros [|p' l'] Z; try discriminate Z; [reflexivity|].
      cbn [map] in Z. cbn [flat_map]. assert (Z1 : undated_trend p = undated_trend p') by congruence. assert (Z2 : map undated_trend l = map undated_trend l') by congruence.
      f_equal; [|exact (IH _ Z2)]. unfold undated_trend in Z1. rewrite !pair_equal_spec in Z1. tauto. }
  revert K E E'. cbv zeta. match goal with |- metar_like ?a ?b -> _ => generalize a, b end. clear. intros a b K E E'.
  assert (Ea : a = x) by (destruct (me_unparsed a); [congruence|destruct tr; congruence]).
  assert (Eb : b = x') by (destruct (me_unparsed b); [congruence|destruct tr'; congruence]).
  rewrite <- Ea, <- Eb. exact K.
Qed.
