(** * A report accepted for one month is accepted for another (C67): proof *)
From Coq Require Import String Ascii.
From Coq Require Import List NArith ZArith Bool Lia.
From Verif Require Import PyBase PyRegex AeroRegex PyFloat PyTime Utils Base MetarGroups Trend Metar Taf SpecNum SpecTime SpecMetar
  SpecFailures SpecDated StrFacts RegexPaths Captures Outcomes TimeFacts OutTime OutMetar OutReport ProofClock ProofLists ProofProb ProofTime ProofDated ProofMomentReport.
Import ListNotations.
Local Open Scope string_scope.
Local Open Scope nat_scope.
Local Open Scope list_scope.

(** ** A second run follows the first *)

Section Follow.
Variables (S : Type) (hs hs' : list (handler S)) (R : nat -> S -> S -> Prop) (C : nat -> S -> Prop).
Hypothesis same_regexps : map h_regexp hs = map h_regexp hs'.
Hypothesis R_mono : forall i j s s', i <= j -> R i s s' -> R j s s'.
Hypothesis C_mono : forall i j s, i <= j -> C j s -> C i s.
Hypothesis C_back : forall k h m s t, nth_error hs k = Some h -> h_handle h m s = Ok t -> C (Datatypes.S k) t -> C k s.
Hypothesis step : forall k h h' g m s s' t, nth_error hs k = Some h -> nth_error hs' k = Some h' -> re_match (h_regexp h) g = Some m ->
  R k s s' -> h_handle h m s = Ok t -> C (Datatypes.S k) t -> exists t', h_handle h' m s' = Ok t' /\ R (Datatypes.S k) t t'.

Lemma first_match_both : forall g (l l' : list (handler S)) n, map h_regexp l = map h_regexp l' ->
  match first_match l n g with
  | Some (c, h, m) => exists k h', c = n + Datatypes.S k /\ nth_error l k = Some h /\ nth_error l' k = Some h'
      /\ re_match (h_regexp h) g = Some m /\ first_match l' n g = Some (c, h', m)
  | None => first_match l' n g = None
  end.
Proof.
  intros g l. induction l as [|h l IH]; intros [|h' l'] n E; try discriminate E; cbn [first_match]; [reflexivity|].
  cbn [map] in E. assert (E1 : h_regexp h = h_regexp h') by congruence. assert (E2 : map h_regexp l = map h_regexp l') by congruence.
  rewrite <- E1. destruct (re_match (h_regexp h) g) as [m|] eqn:M.
  - exists 0, h'. repeat split; [lia|exact M].
  - specialize (IH l' (Datatypes.S n) E2). destruct (first_match l (Datatypes.S n) g) as [[[c k] m]|]; [|exact IH].
    destruct IH as (j & k' & -> & A & B & M' & F). exists (Datatypes.S j), k'. repeat split; try assumption. lia.
Qed.

Lemma nth_skip : forall A (l : list A) i k, nth_error (skipn i l) k = nth_error l (i + k).
Proof. intros A l. induction l as [|a l IH]; intros [|i] k; cbn [skipn plus]; try reflexivity; [destruct k; reflexivity|apply IH]. Qed.

Lemma final_back : forall gs i un s z un', (forall k, C k z) -> parse_groups hs gs i un s = Ok (z, un') -> C i s.
Proof.
  intros gs. induction gs as [|g gs IH]; intros i un s z un' Z E; cbn [parse_groups] in E; [injection E as <- _; apply Z|].
  cbv zeta in E. pose proof (first_match_both g (skipn i hs) (skipn i hs') 0) as F.
  rewrite <- !skipn_map, same_regexps in F. specialize (F eq_refl).
  destruct (first_match (skipn i hs) 0 g) as [[[c h] m]|]; [|exact (IH _ _ _ _ _ Z E)].
  destruct F as (k & h' & -> & A & _ & M & _). destruct (h_handle h m s) as [t|] eqn:T; cbn [bind] in E; [|discriminate E].
  pose proof (IH _ _ _ _ _ Z E) as K. rewrite nth_skip in A.
  replace (i + (0 + Datatypes.S k)) with (Datatypes.S (i + k)) in K by lia.
  apply (C_mono i (i + k)); [lia|]. exact (C_back _ _ _ _ _ A T K).
Qed.

Lemma parse_groups_follow : forall gs i un s s' z un', (forall k, C k z) -> R i s s' -> parse_groups hs gs i un s = Ok (z, un') ->
  exists z' k, parse_groups hs' gs i un s' = Ok (z', un') /\ R k z z'.
Proof.
  intros gs. induction gs as [|g gs IH]; intros i un s s' z un' Z Rs E; cbn [parse_groups] in E |- *.
  { injection E as <- <-. exists s', i. split; [reflexivity|exact Rs]. }
  cbv zeta in E |- *. pose proof (first_match_both g (skipn i hs) (skipn i hs') 0) as F.
  rewrite <- !skipn_map, same_regexps in F. specialize (F eq_refl).
  destruct (first_match (skipn i hs) 0 g) as [[[c h] m]|]; [|rewrite F; exact (IH _ _ _ _ _ _ Z Rs E)].
  destruct F as (k & h' & -> & A & B & M & F). rewrite F. destruct (h_handle h m s) as [t|] eqn:T; cbn [bind] in E; [|discriminate E].
  rewrite nth_skip in A, B. replace (i + (0 + Datatypes.S k)) with (Datatypes.S (i + k)) in * by lia.
  pose proof (final_back _ _ _ _ _ _ Z E) as K.
  destruct (step _ _ _ _ _ _ _ _ A B M (R_mono i (i + k) _ _ ltac:(lia) Rs) T K) as (t' & T' & R').
  rewrite T'. cbn [bind]. exact (IH _ _ _ _ _ _ Z R' E).
Qed.
End Follow.

(** ** Trends *)

Ltac follow E := steps E; cbn [bind];
  repeat match goal with Q : ?r = Ok _ |- context [bind ?r _] => rewrite Q; cbn [bind] end; eexists; reflexivity.

Lemma shared_ok : forall f m c c' d, In f [handle_wind; handle_prevailing; handle_weather; handle_cloud] ->
  groups_of c = groups_of c' -> f m c = Ok d -> exists d', f m c' = Ok d'.
Proof.
  intros f m c c' d I H E. unfold groups_of in *. cbn [In] in I. injection H as H1 H2 H3 H4.
  destruct I as [<-|[<-|[<-|[<-|[]]]]]; unfold handle_wind, handle_prevailing, handle_weather, handle_cloud in *;
    cbv zeta in *; try rewrite <- H3; try rewrite <- H4; follow E.
Qed.

Local Opaque dt_add_minutes dt_add_hours dt_add_days.

Lemma trend_ok : forall w t t' p, dt_hour t = dt_hour t' -> dt_minute t = dt_minute t' -> real_time t' -> ~ late t' ->
  change_period_new w t = Ok p -> exists p', change_period_new w t' = Ok p'.
Proof.
  intros w t t' p H M Rt L E. unfold change_period_new in E |- *. cbv zeta in E |- *.
  destruct (common_fresh []) as (c & Ec & E1 & E2). rewrite Ec in E |- *. cbn [bind] in E |- *.
  destruct (trend_ind_new None t) as [i|] eqn:J; cbn [bind] in E; [|discriminate E].
  pose proof (trend_ind_outcome t' None Rt (ex_intro _ _ eq_refl)) as P.
  destruct (trend_ind_new None t') as [i'|ex] eqn:J'; cbn [bind]; [|destruct (L (proj2 P))].
  destruct (parse_section _ _ _) as [[q un]|] eqn:Q in E; cbn [bind] in E; [|discriminate E]. clear E.
  set (s := mk_cp _ _ _ i _ _) in Q. set (s' := mk_cp _ _ _ i' _ _).
  assert (X : trend_like s s').
  { unfold trend_like, undated_trend, s, s'. cbn [cp_code cp_time cp_common cp_unparsed cp_out cp_ind]. fold (undated_ind i). fold (undated_ind i').
    rewrite (hm_at t t' H M), (ind_rel _ _ _ _ _ H M J J'). reflexivity. }
  assert (I0 : trend_inv t' 0 s').
  { unfold trend_inv, s'. cbn [cp_ind cp_time cp_common]. rewrite E1, E2. split; [exact P|]. split; [reflexivity|].
    split; split; try reflexivity; cbn; lia. }
  clearbody s s'. clear - X I0 Q L.
  destruct (parse_groups_follow _ trend_handlers trend_handlers (fun k a b => trend_like a b /\ trend_inv t' k b) (fun _ _ => True)) with
    (gs := split_on 32%N (sanitize_visibility (replace (py "_") (py " ") w))) (i := 0) (un := @nil str) (s := s) (s' := s') (z := q) (un' := un)
    as (z' & k & Ez & _).
  - reflexivity.
  - intros i j a b Hij [A B]. split; [exact A|]. exact (trend_mono t' i j b Hij B).
  - trivial.
  - trivial.
  - intros k h h' g m a b u Hk Hk' Mg [A B] Eu _. rewrite Hk in Hk'. injection Hk' as <-.
    pose proof (trend_steps t' k h g m b Hk Mg B) as O.
    assert (In h trend_handlers) as Ih by exact (nth_error_In _ _ Hk).
    assert (K : exists u', h_handle h m b = Ok u').
    { pose proof A as A0. unfold trend_like, undated_trend in A0. fold (undated_ind (cp_ind a)) in A0. fold (undated_ind (cp_ind b)) in A0.
      rewrite !pair_equal_spec in A0. destruct A0 as (((((H1 & H2) & H3) & H4) & H5) & H6).
      assert (LL : forall f, In f [handle_wind; handle_prevailing; handle_weather; handle_cloud] -> cp_lift f m a = Ok u -> exists u', cp_lift f m b = Ok u').
      { intros f If F. unfold cp_lift in *. destruct (f m (cp_common a)) as [c|] eqn:C; cbn [bind] in F; [|discriminate F].
        destruct (shared_ok f m _ _ _ If H3 C) as (d' & ->). cbn [bind]. eexists. reflexivity. }
      assert (PE : re_match r_TREND_TIME_PERIOD g = Some m -> handle_time_period m a = Ok u -> exists u', handle_time_period m b = Ok u').
      { intros Mp F. unfold handle_time_period in *. cbv zeta in *. destruct (add_period m (cp_ind a)) as [j|] eqn:Ej; cbn [bind] in F; [|discriminate F].
        destruct (period_match g m Mp) as (x & y1 & y2 & h1 & mi & _ & _ & Ga & Gb & Ra & Rb & Bh & Bm & Es).
        unfold add_period in *. unfold undated_ind in H6. rewrite !pair_equal_spec in H6. destruct H6 as ((((((N1 & N2) & Ni) & Ne) & Nf) & Nu) & Na).
        rewrite <- N1. destruct (ti_code (cp_ind a)) as [c|]; [|discriminate Ej].
        rewrite Ga, Gb. unfold int_of_opt. rewrite (reads_int _ _ Ra), (reads_int _ _ Rb). cbn [bind].
        destruct (period_time_fine t' (cp_ind b) (Z.of_N h1) (Z.of_N mi) (proj1 B)) as (v & ->); [lia|]. cbn [bind]. cbv zeta.
        destruct (opt_str_eqb (group m "prefix") (py "FM")); [|destruct (opt_str_eqb (group m "prefix") (py "TL"))]; cbn [bind]; eexists; reflexivity. }
      unfold trend_handlers in Ih. cbn [In] in Ih.
      repeat (destruct Ih as [<-|Ih]; [cbn [h_handle h_regexp] in *|]); try contradiction;
        try (match type of Eu with cp_lift ?f _ _ = _ => apply (LL f); [cbn [In]; tauto|exact Eu] end);
        try (exact (PE Mg Eu)).
      unfold handle_trend_indicator. rewrite (proj1 (proj2 B)).
      pose proof (trend_ind_outcome t' (Some m) (proj1 (proj2 (proj1 B))) (indicator_fine g m Mg)) as P.
      destruct (trend_ind_new (Some m) t') as [i|ex]; cbn [bind]; [eexists; reflexivity|destruct (L (proj2 P))]. }
    destruct K as (u' & K). exists u'. split; [exact K|]. split.
    + exact (trend_step h Ih m a b u u' A Eu K).
    + rewrite K in O. exact O.
  - trivial.
  - split; assumption.
  - exact Q.
  - unfold parse_section. rewrite Ez. cbn [bind]. eexists. reflexivity.
Qed.

(** ** The time group *)

Lemma time_value : forall e g m, re_match r_TIME g = Some m -> exists bad d h mi, (h <= 23)%N /\ (mi <= 59)%N /\
  forall y mo, real_month e y mo -> time_from_metar e (Some m) y mo =
    if (bad : bool) then Raise ValueError else
    if valid_date (opt_default (now_year e) y) (opt_default (now_month e) mo) (Z.of_N d)
    then Ok (mk_time (group_code (Some g)) (mk_dt (opt_default (now_year e) y) (opt_default (now_month e) mo) (Z.of_N d) (Z.of_N h) (Z.of_N mi)))
    else Raise ValueError.
Proof.
  intros e g m M. destruct (time_match g m M) as (x & a & b & c & C & X & Ga & Gb & Gc & A & B & M6 & Es).
  destruct (day_value a A) as [La (d & Ra & Bd)]. destruct (min_value c M6) as [Lc (mi & Rc & Bm)].
  assert (K : forall h, b = py "24" \/ (hour_text b /\ length b = 2 /\ reads b h /\ (h <= 23)%N) ->
    forall y mo, real_month e y mo -> time_from_metar e (Some m) y mo =
      if str_eqb b (py "24") then Raise ValueError else
      if valid_date (opt_default (now_year e) y) (opt_default (now_month e) mo) (Z.of_N d)
      then Ok (mk_time (group_code (Some g)) (mk_dt (opt_default (now_year e) y) (opt_default (now_month e) mo) (Z.of_N d) (Z.of_N h) (Z.of_N mi)))
      else Raise ValueError).
  { intros h Hb y0 mo0 [Hy Hm]. unfold time_from_metar, time_new. rewrite Ga, Gb, Gc, Es. cbn [opt_default].
    cbv zeta. set (y1 := opt_default (now_year e) y0) in *. set (mo1 := opt_default (now_month e) mo0) in *.
    remember (Z.to_N y1) as y2 eqn:Ey. remember (Z.to_N mo1) as mo2 eqn:Emo.
    assert (E1 : y1 = Z.of_N y2) by lia. assert (E2 : mo1 = Z.of_N mo2) by lia. clearbody y1 mo1. subst y1 mo1. clear Ey Emo.
    rewrite Z_str_year, Z_pad_month by lia. destruct Hb as [->|(Hb & Lb & Rb & Bh)].
    - rewrite (strptime_any24 y2 mo2 a c) by (assumption || lia). reflexivity.
    - rewrite (strptime_any y2 mo2 a b c d h mi) by (assumption || lia).
      destruct (str_eqb b (py "24")) eqn:Q.
      + apply str_eqb_eq in Q. subst b. destruct Rb as [_ Rb]. exfalso. vm_compute in Rb. injection Rb as Rb. lia.
      + destruct (valid_date (Z.of_N y2) (Z.of_N mo2) (Z.of_N d)); reflexivity. }
  destruct B as [B|B].
  - destruct (hour_value b B) as [Lb (h & Rb & Bh)]. exists (str_eqb b (py "24")), d, h, mi. split; [exact Bh|]. split; [exact Bm|].
    apply K. right. auto.
  - exists true, d, 0%N, mi. split; [lia|]. split; [exact Bm|]. intros y mo Y. rewrite (K 0%N (or_introl B) y mo Y), B. reflexivity.
Qed.

Lemma time_ok : forall e g m y mo y' mo' t, re_match r_TIME g = Some m -> real_month e y mo -> real_month e y' mo' ->
  time_from_metar e (Some m) y mo = Ok t ->
  real_date (opt_default (now_year e) y') (opt_default (now_month e) mo') (dt_day (t_dt t)) ->
  exists t', time_from_metar e (Some m) y' mo' = Ok t' /\ real_time (t_dt t')
    /\ dt_year (t_dt t') = opt_default (now_year e) y' /\ dt_month (t_dt t') = opt_default (now_month e) mo'.
Proof.
  intros e g m y mo y' mo' t M R R' E D. destruct (time_value e g m M) as (bad & d & h & mi & Bh & Bm & K).
  rewrite (K _ _ R) in E. rewrite (K _ _ R'). destruct bad; [discriminate E|].
  destruct (valid_date _ _ _) in E; [|discriminate E]. injection E as <-. cbn [t_dt dt_day] in D.
  assert (D' := D). apply valid_date_spec in D'. rewrite D'. eexists. split; [reflexivity|]. cbn [t_dt dt_year dt_month]. split; [|split; reflexivity].
  split; [exact D|]. cbn [dt_hour dt_minute]. lia.
Qed.

Lemma time_day : forall e g m y mo t, re_match r_TIME g = Some m -> real_month e y mo -> time_from_metar e (Some m) y mo = Ok t ->
  real_date (opt_default (now_year e) y) (opt_default (now_month e) mo) (dt_day (t_dt t)).
Proof.
  intros e g m y mo t M R E. destruct (time_value e g m M) as (bad & d & h & mi & Bh & Bm & K). rewrite (K _ _ R) in E.
  destruct bad; [discriminate E|]. destruct (valid_date _ _ _) eqn:V in E; [|discriminate E]. injection E as <-. apply valid_date_spec. exact V.
Qed.

(** ** The body *)

Definition day_fits (e : env) (y' mo' : option Z) (x : metar) : Prop :=
  real_date (opt_default (now_year e) y') (opt_default (now_month e) mo') (dt_day (t_dt (me_time x))).

Definition dated_as (e : env) (y' mo' : option Z) (x : metar) : Prop :=
  real_time (t_dt (me_time x)) /\ dt_year (t_dt (me_time x)) = opt_default (now_year e) y'
  /\ dt_month (t_dt (me_time x)) = opt_default (now_month e) mo'.

Ltac nth_both k A B :=
  destruct k as [|k]; [injection A as <-; injection B as <-|cbn [nth_error] in A, B; try nth_both k A B].

Lemma plain_step : forall e y mo y' mo' k h h' m s s' t, k <> 2 -> nth_error (metar_handlers e y mo) k = Some h ->
  nth_error (metar_handlers e y' mo') k = Some h' -> metar_like s s' -> h_handle h m s = Ok t ->
  me_time t = me_time s /\ exists t', h_handle h' m s' = Ok t' /\ me_time t' = me_time s'.
Proof.
  intros e y mo y' mo' k h h' m s s' t N Hk Hk' H E.
  assert (L : forall f, In f [handle_wind; handle_prevailing; handle_weather; handle_cloud] -> lift f m s = Ok t ->
    me_time t = me_time s /\ exists t', lift f m s' = Ok t' /\ me_time t' = me_time s').
  { intros f If F. unfold lift in *. parts H. destruct (f m (me_common s)) as [c|] eqn:C; cbn [bind] in F; [|discriminate F].
    destruct (shared_ok f m _ _ _ If R8 C) as (d' & ->). cbn [bind]. injection F as <-. split; [reflexivity|]. eexists. split; reflexivity. }
  unfold metar_handlers in Hk, Hk'.
  nth_both k Hk Hk';
    try (match goal with Z : nth_error [] ?j = Some _ |- _ => destruct j; discriminate Z end);
    cbn [h_handle] in E |- *;
    try (match type of E with lift ?f _ _ = _ => exact (L f ltac:(cbn [In]; tauto) E) end);
    try congruence;
    parts H; unfold handle_type, handle_station, handle_modifier, handle_wind_variation, handle_minimum_visibility,
          handle_runway_range, handle_temperatures, handle_pressure, handle_recent_weather, handle_windshear, handle_sea_state,
          handle_runway_state in *; cbv zeta in *; try rewrite <- R11; try rewrite <- R15; try rewrite <- R17; steps E;
    cbn [bind]; repeat match goal with Q : ?r = Ok _ |- context [bind ?r _] => rewrite Q; cbn [bind] end;
    injection E as <-; (split; [reflexivity|eexists; split; reflexivity]).
Qed.

Lemma trends_ok : forall e y' mo' l x x' z, metar_like x x' -> dated_as e y' mo' x' -> ~ late (t_dt (me_time x')) ->
  handle_trends l x = Ok z -> exists z', handle_trends l x' = Ok z'.
Proof.
  intros e y' mo' l. induction l as [|w l IH]; intros x x' z H D L E; cbn [handle_trends] in *; [eexists; reflexivity|].
  destruct w as [|c w]; [exact (IH _ _ _ H D L E)|]. unfold handle_weather_trend in *.
  destruct (change_period_new (c :: w) (t_dt (me_time x))) as [p|] eqn:P; cbn [bind] in E; [|discriminate E].
  pose proof H as H0. parts H0. destruct (same_dhm _ _ R6) as (_ & _ & A & B).
  destruct (trend_ok _ _ _ _ A B (proj1 D) L P) as (p' & P'). rewrite P'. cbn [bind].
  destruct (gl_add p (me_trends x)) as [g|] eqn:G; cbn [bind] in E; [|discriminate E].
  pose proof (trend_rel _ _ _ _ _ A B P P') as T.
  assert (G' : exists g', gl_add p' (me_trends x') = Ok g').
  { unfold undated_list in R18. rewrite !pair_equal_spec in R18. destruct R18 as ((N1 & N2) & N3). unfold gl_add in *.
    assert (N4 : length (gl_list (me_trends x)) = length (gl_list (me_trends x'))).
    { rewrite <- (map_length undated_trend (gl_list (me_trends x))), N3. apply map_length. }
    rewrite <- N2, <- N4. destruct (Nat.leb _ _) in *; [discriminate G|eexists; reflexivity]. }
  destruct G' as (g' & G'). rewrite G'. cbn [bind].
  refine (IH _ _ _ _ _ _ E).
  - apply like_string. apply like_out.
    + apply like_trends; [exact H|]. exact (list_add _ _ undated_trend _ _ _ _ _ _ T R18 G G').
    + rewrite !app_length, R19. unfold trend_like, undated_trend in T. rewrite !pair_equal_spec in T. f_equal. tauto.
  - exact D.
  - exact L.
Qed.

(** ** The whole report *)

Lemma trends_same_time : forall l x x', handle_trends l x = Ok x' -> me_time x' = me_time x.
Proof.
  intros l. induction l as [|w l IH]; intros x x' E; cbn [handle_trends] in E; [injection E as <-; reflexivity|].
  destruct w as [|c w]; [exact (IH _ _ E)|]. destruct (handle_weather_trend (c :: w) x) as [z|] eqn:Z; cbn [bind] in E; [|discriminate E].
  rewrite (IH _ _ E). unfold handle_weather_trend in Z. steps Z. injection Z as <-. reflexivity.
Qed.

Lemma trend_part_time : forall tr x x', parse_weather_trend tr x = Ok x' -> me_time x' = me_time x.
Proof.
  intros tr x x' E. unfold parse_weather_trend in E. destruct (handle_trends _ x) as [z|] eqn:T; cbn [bind] in E; [|discriminate E].
  rewrite <- (trends_same_time _ _ _ T). rewrite gl_collect_spec in E. cbv zeta in E.
  match type of E with match me_unparsed ?a with _ => _ end = _ => assert (Ea : a = x') by (destruct (me_unparsed a); [congruence|destruct tr; congruence]) end.
  rewrite <- Ea. reflexivity.
Qed.

Lemma Forall2_at : forall A B (P : A -> B -> Prop) l l' k a b, Forall2 P l l' -> nth_error l k = Some a -> nth_error l' k = Some b -> P a b.
Proof.
  intros A B P l l' k a b F. revert k. induction F as [|x y l l' H F IH]; intros [|k] E E'; cbn [nth_error] in E, E'; try discriminate E.
  - injection E as <-. injection E' as <-. exact H.
  - exact (IH _ E E').
Qed.

Lemma step_ok : forall e y mo y' mo', real_month e y mo -> real_month e y' mo' ->
  forall k h h' g m s s' t, nth_error (metar_handlers e y mo) k = Some h -> nth_error (metar_handlers e y' mo') k = Some h' ->
  re_match (h_regexp h) g = Some m -> metar_like s s' /\ dated_as e y' mo' s' -> h_handle h m s = Ok t -> (3 <= S k -> day_fits e y' mo' t) ->
  exists t', h_handle h' m s' = Ok t' /\ metar_like t t' /\ dated_as e y' mo' t'.
Proof.
  intros e y mo y' mo' Y Y' k h h' g m s s' t Hk Hk' M [H D] E C.
  destruct (Forall2_at _ _ _ _ _ _ _ _ (metar_step_like e y mo y' mo' Y Y') Hk Hk') as [_ Rel].
  destruct (Nat.eq_dec k 2) as [->|N].
  - specialize (C ltac:(lia)). cbn in Hk, Hk'. injection Hk as <-. injection Hk' as <-. cbn [h_handle h_regexp] in *.
    unfold handle_time in *. destruct (time_from_metar e (Some m) y mo) as [v|] eqn:V; cbn [bind] in E; [|discriminate E].
    assert (Tt : me_time t = v) by (injection E as <-; reflexivity). unfold day_fits in C. rewrite Tt in C.
    destruct (time_ok e g m y mo y' mo' v M Y Y' V C) as (v' & V' & Dv). 
    assert (S' : exists u, handle_time e y' mo' m s' = Ok u /\ me_time u = v') by (unfold handle_time; rewrite V'; cbn [bind]; eexists; split; reflexivity).
    destruct S' as (u & S' & Tu). unfold handle_time in S'.
    exists u. split; [exact S'|]. split; [refine (Rel g m s s' t u M H _ S'); rewrite V; exact E|]. unfold dated_as. rewrite Tu. exact Dv.
  - destruct (plain_step _ _ _ _ _ _ _ _ _ _ _ _ N Hk Hk' H E) as (_ & t' & T' & Et). exists t'. split; [exact T'|].
    split; [exact (Rel g m s s' t t' M H E T')|]. unfold dated_as. rewrite Et. exact D.
Qed.

Theorem metar_accept : forall e code y mo tr x y' mo', real_month e y mo -> real_month e y' mo' ->
  metar_parse e code y mo tr = Ok x -> day_fits e y' mo' x ->
  ~ (opt_default (now_year e) y' = 9999 /\ opt_default (now_month e) mo' = 12 /\ dt_day (t_dt (me_time x)) = 31
     /\ 22 <= dt_hour (t_dt (me_time x)))%Z ->
  exists x', metar_parse e code y' mo' tr = Ok x'.
Proof.
  intros e code y mo tr x y' mo' Y Y' E F N. unfold metar_parse in *.
  destruct (report_raw_code code) as [raw|]; cbn [bind] in *; [|discriminate E].
  destruct (metar_init e raw y mo) as [x0|] eqn:E0; cbn [bind] in E; [|discriminate E].
  assert (E0' : exists x0', metar_init e raw y' mo' = Ok x0' /\ dated_as e y' mo' x0').
  { unfold metar_init in *. destruct (time_new e None None None None None None) as [t0|]; cbn [bind] in *; [|discriminate E0].
    destruct (common_new []) as [c|]; cbn [bind] in *; [|discriminate E0].
    unfold time_from_metar at 1. destruct (default_first e y' mo' (proj1 Y') (proj2 Y')) as (u & -> & U). cbn [bind].
    destruct (time_from_metar e None y mo) as [t|]; cbn [bind] in E0; [|discriminate E0].
    destruct (wind_variation_new None) as [a1|]; cbn [bind] in *; [|discriminate E0].
    destruct (minimum_visibility_new None) as [a2|]; cbn [bind] in *; [|discriminate E0].
    destruct (temperatures_new None) as [a3|]; cbn [bind] in *; [|discriminate E0].
    destruct (metar_pressure_new None) as [a4|]; cbn [bind] in *; [|discriminate E0].
    destruct (sea_state_new None) as [a5|]; cbn [bind] in *; [|discriminate E0].
    eexists. split; [reflexivity|]. unfold dated_as. cbn [me_time]. rewrite U. cbn [dt_year dt_month]. split; [|split; reflexivity].
    destruct Y' as [Hy Hm]. pose proof (days_in_month_range (opt_default (now_year e) y') _ Hm). split; [apply real_date_intro; cbn [dt_year dt_month dt_day]; lia|]. cbn [dt_hour dt_minute]. lia. }
  destruct E0' as (x0' & E0' & D0). rewrite E0'. cbn [bind].
  pose proof (metar_init_like _ _ _ _ _ _ _ _ Y Y' E0 E0') as H. clear E0 E0'.
  unfold parse_body in *. pose proof H as H0. parts H0. clear R1 R3 R4 R5 R6 R7 R8 R9 R10 R11 R12 R13 R14 R15 R16 R17 R18 R19. rewrite <- R2.
  destruct (parse_section (metar_handlers e y mo) _ x0) as [[x1 un]|] eqn:P; cbn [bind] in E; [|discriminate E].
  assert (Tx : me_time x = me_time x1).
  { exact (trend_part_time _ _ _ E). }
  assert (F1 : day_fits e y' mo' x1) by (unfold day_fits; rewrite <- Tx; exact F).
  destruct (parse_groups_follow _ (metar_handlers e y mo) (metar_handlers e y' mo') (fun _ a b => metar_like a b /\ dated_as e y' mo' b)
    (fun k a => 3 <= k -> day_fits e y' mo' a)) with (gs := split_on 32%N (sanitize_body (section 0 (me_sections x0)))) (i := 0) (un := @nil str) (s := x0) (s' := x0')
    (z := x1) (un' := un) as (x1' & k & P' & H1 & D1).
  - reflexivity.
  - intros i j a b _ K. exact K.
  - intros i j a Hij K I. apply K. lia.
  - intros k h m a b Hk Eh K I. destruct (Nat.eq_dec k 2) as [->|Nk]; [lia|].
    assert (Hk' : nth_error (metar_handlers e y mo) k = Some h) by exact Hk.
    destruct (plain_step _ _ _ _ _ _ _ _ _ _ _ _ Nk Hk Hk' (eq_refl : metar_like a a) Eh) as (T & _).
    unfold day_fits in *. rewrite <- T. apply K. lia.
  - intros k h h' g m a b t Hk Hk' M K Eh C. exact (step_ok e y mo y' mo' Y Y' k h h' g m a b t Hk Hk' M K Eh C).
  - intros k _. exact F1.
  - split; assumption.
  - exact P.
  - unfold parse_section. rewrite P'. cbn [bind]. clear R2.
    assert (H2 : metar_like (upd_unparsed (me_unparsed x1 ++ un) x1) (upd_unparsed (me_unparsed x1' ++ un) x1')).
    { apply like_unparsed; [exact H1|]. parts H1. congruence. }
    assert (D2 : dated_as e y' mo' (upd_unparsed (me_unparsed x1' ++ un) x1')) by exact D1.
    assert (L2 : ~ late (t_dt (me_time (upd_unparsed (me_unparsed x1' ++ un) x1')))).
    { intros (L1 & L2 & L3 & L4). apply N. destruct D1 as (_ & A & B). cbn [me_time upd_unparsed] in *. parts H1.
      destruct (same_dhm _ _ R6) as (_ & Ed & Eh & _). rewrite Tx, Ed, Eh. rewrite <- A, <- B. auto. }
    revert H2 D2 L2 E. generalize (upd_unparsed (me_unparsed x1 ++ un) x1), (upd_unparsed (me_unparsed x1' ++ un) x1'). clear.
    intros a b H D L E. unfold parse_weather_trend in *. pose proof H as H0. parts H0.
    clear R1 R3 R4 R5 R6 R7 R8 R9 R10 R11 R12 R13 R14 R15 R16 R17 R18 R19. rewrite <- R2.
    destruct (handle_trends _ a) as [x2|] eqn:T; cbn [bind] in E; [|discriminate E].
    destruct (trends_ok e y' mo' _ _ _ _ H D L T) as (x2' & T'). rewrite T'. cbn [bind].
    pose proof (trends_like _ _ _ _ _ H T T') as K. rewrite gl_collect_spec in *. cbv zeta in *.
    cbn [me_unparsed upd_unparsed] in *. clear R2. parts K. unfold undated_list in R18. rewrite !pair_equal_spec in R18. destruct R18 as ((N1 & N2) & N3).
    rewrite <- R3. assert (Z : flat_map cp_unparsed (skipn (gl_n (me_trends x2)) (gl_list (me_trends x2)))
      = flat_map cp_unparsed (skipn (gl_n (me_trends x2')) (gl_list (me_trends x2')))).
    { rewrite N1. revert N3. generalize (gl_list (me_trends x2)), (gl_list (me_trends x2')), (gl_n (me_trends x2')). clear.
      intros l l' n N. assert (Z : map undated_trend (skipn n l) = map undated_trend (skipn n l')) by (rewrite <- !skipn_map, N; reflexivity).
      clear N. revert Z. generalize (skipn n l), (skipn n l'). clear. intros l. induction l as [|p l IH]; intros [|p' l'] Z; try discriminate Z; [reflexivity|].
      cbn [map] in Z. cbn [flat_map]. assert (Z1 : undated_trend p = undated_trend p') by congruence. assert (Z2 : map undated_trend l = map undated_trend l') by congruence.
      f_equal; [|exact (IH _ Z2)]. unfold undated_trend in Z1. rewrite !pair_equal_spec in Z1. tauto. }
    rewrite <- Z. destruct (me_unparsed x2 ++ _); [eexists; reflexivity|]. destruct tr; [discriminate E|eexists; reflexivity].
Qed.

Theorem metar_accept_day : forall e code y mo tr x, real_month e y mo -> metar_parse e code y mo tr = Ok x -> day_fits e y mo x.
Proof.
  intros e code y mo tr x Y E. unfold day_fits.
  apply (metar_time_inv (fun t => real_date (opt_default (now_year e) y) (opt_default (now_month e) mo) (dt_day (t_dt t))) e code y mo tr x).
  - intros g m t M T. exact (time_day e g m y mo t M Y T).
  - intros t T. unfold time_from_metar in T. destruct (default_first e y mo (proj1 Y) (proj2 Y)) as (u & U & D). rewrite U in T. injection T as <-.
    rewrite D. cbn [dt_day]. destruct Y as [Hy Hm]. pose proof (days_in_month_range (opt_default (now_year e) y) _ Hm). apply real_date_intro; lia.
  - exact E.
Qed.

Theorem metar_accept_iff : forall e code y mo tr x y' mo', real_month e y mo -> real_month e y' mo' ->
  metar_parse e code y mo tr = Ok x -> (opt_default (now_year e) y' < 9999)%Z ->
  ((exists x', metar_parse e code y' mo' tr = Ok x')
   <-> real_date (opt_default (now_year e) y') (opt_default (now_month e) mo') (dt_day (t_dt (me_time x)))).
Proof.
  intros e code y mo tr x y' mo' Y Y' E L. split.
  - intros (x' & E'). pose proof (metar_accept_day _ _ _ _ _ _ Y' E') as D. pose proof (metar_undated _ _ _ _ _ _ _ _ _ _ Y Y' E E') as U.
    parts U. destruct (same_dhm _ _ R6) as (_ & Ed & _). unfold day_fits in D. rewrite Ed. exact D.
  - intros D. apply (metar_accept _ _ _ _ _ _ _ _ Y Y' E D). lia.
Qed.
