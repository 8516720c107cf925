(** * A forecast accepted for one month is accepted for another (C67): proof *)
From Coq Require Import String Ascii.
From Coq Require Import List NArith ZArith Bool Lia.
From Verif Require Import PyBase PyRegex AeroRegex PyFloat PyTime Utils Base MetarGroups Trend Metar Taf SpecNum SpecTime SpecMetar SpecMoment
  SpecFailures SpecTafFailures SpecDated StrFacts RegexPaths Captures Outcomes TimeFacts OutTime OutMetar OutReport OutTafTime OutTafBody OutTafChange
  ProofClock ProofLists ProofProb ProofTime ProofFailures ProofDated ProofDatedTaf ProofMomentReport ProofAccept.
Import ListNotations.
Local Open Scope string_scope.
Local Open Scope nat_scope.
Local Open Scope list_scope.
Local Opaque dt_add_minutes dt_add_hours dt_add_days.

(** Far enough from the end of the calendar. *)
Notation safe := (sound False).

Lemma safe_ok : forall A (P : A -> Prop) r, outcome (over False) P r -> exists a, r = Ok a /\ P a.
Proof. intros A P [a|e] H; cbn [outcome] in H; [exists a; auto|destruct e; cbn in H; contradiction]. Qed.

Lemma add_ok : forall A B (f : A -> B) a a' g g' h, undated_list f g = undated_list f g' -> gl_add a g = Ok h -> exists h', gl_add a' g' = Ok h'.
Proof.
  intros A B f a a' g g' h H E. unfold undated_list in H. rewrite !pair_equal_spec in H. destruct H as ((N1 & N2) & N3). unfold gl_add in *.
  assert (N4 : length (gl_list g) = length (gl_list g')) by (rewrite <- (map_length f (gl_list g)), N3; apply map_length).
  rewrite <- N2, <- N4. destruct (Nat.leb _ _) in *; [discriminate E|eexists; reflexivity].
Qed.

Lemma add_all_ok : forall A B (f : A -> B) l l' g g' h, map f l = map f l' -> undated_list f g = undated_list f g' ->
  gl_add_all l g = Ok h -> exists h', gl_add_all l' g' = Ok h'.
Proof.
  intros A B f l. induction l as [|a l IH]; intros [|a' l'] g g' h Hl H E; try discriminate Hl; cbn [gl_add_all] in *.
  { eexists. reflexivity. }
  cbn [map] in Hl. destruct (gl_add a g) as [k|] eqn:K; cbn [bind] in E; [|discriminate E].
  destruct (add_ok _ _ f a a' g g' k H K) as (k' & K'). rewrite K'. cbn [bind].
  refine (IH _ _ _ _ _ _ E); [congruence|]. refine (list_add _ _ f _ _ _ _ _ _ _ H K K'). congruence.
Qed.

(** ** Changes *)

Definition change_safe (v' : valid) (s s' : change_fc) : Prop :=
  change_like s s' /\ cf_valid s' = v' /\ safe 31 (t_dt (va_from (tc_valid (cf_ind s')))).

Lemma change_step_ok : forall v', safe 1 (t_dt (va_from v')) -> forall h, In h change_handlers -> forall g m s s' t,
  re_match (h_regexp h) g = Some m -> change_safe v' s s' -> h_handle h m s = Ok t ->
  exists t', h_handle h m s' = Ok t' /\ change_safe v' t t'.
Proof.
  intros v' Sv h I g m s s' t M (H & V & S) E. destruct (change_parts _ _ H) as (H1 & H2 & H3 & H4 & H5).
  assert (K : exists t', h_handle h m s' = Ok t' /\ cf_valid t' = v' /\ safe 31 (t_dt (va_from (tc_valid (cf_ind t'))))).
  { assert (L : forall f, In f [handle_wind; handle_prevailing; handle_weather; handle_cloud] -> cf_lift f m s = Ok t ->
      exists t', cf_lift f m s' = Ok t' /\ cf_valid t' = v' /\ safe 31 (t_dt (va_from (tc_valid (cf_ind t'))))).
    { intros f If F. unfold cf_lift in *. destruct (f m (cf_common s)) as [c|] eqn:C; cbn [bind] in F; [|discriminate F].
      destruct (shared_ok f m _ _ _ If H3 C) as (d' & ->). cbn [bind]. eexists. split; [reflexivity|]. split; assumption. }
    unfold change_handlers in I. cbn [In] in I.
    repeat (destruct I as [<-|I]; [cbn [h_handle h_regexp] in *|]); try contradiction;
      try (match type of E with cf_lift ?f _ _ = _ => exact (L f ltac:(cbn [In]; tauto) E) end).
    - unfold handle_change_indicator in *. destruct (taf_ind_new (Some m) (cf_valid s)) as [i|] eqn:J; cbn [bind] in E; [|discriminate E].
      rewrite V. assert (Z : exists i', taf_ind_new (Some m) v' = Ok i' /\ safe 31 (t_dt (va_from (tc_valid i')))).
      { unfold taf_ind_new in *. rewrite (re_match_string _ _ _ M) in *. destruct (starts_with (py "FM") g) eqn:F.
        - destruct (fm_match g m M F) as (d & h & mi & -> & -> & -> & Bd & Bh & Bm). cbn [bind].
          destruct (safe_ok _ _ _ (sound_roll False _ d Sv Bd)) as (t1 & -> & S1). cbn [bind].
          destruct (sound_hour False 31 t1 h S1 Bh) as (t2 & -> & S2). cbn [bind].
          destruct (sound_minute False 31 t2 mi S2 Bm) as (t3 & -> & S3). cbn [bind]. cbv zeta. eexists. split; [reflexivity|exact S3].
        - destruct (change_indicator_new (Some m)) as [ct|]; cbn [bind] in *; [|discriminate J]. eexists. split; [reflexivity|].
          exact (sound_mono False 1 31 _ ltac:(lia) Sv). }
      destruct Z as (i' & -> & Si). cbn [bind]. eexists. split; [reflexivity|]. split; [exact V|exact Si].
    - unfold handle_change_valid in *. destruct (set_valid_period m _ (cf_ind s)) as [i|] eqn:J; cbn [bind] in E; [|discriminate E].
      rewrite V. assert (Z : exists i', set_valid_period m (va_from v') (cf_ind s') = Ok i' /\ safe 31 (t_dt (va_from (tc_valid i')))).
      { unfold set_valid_period in *. destruct (valid_from_taf (Some m) (t_dt (va_from (cf_valid s)))) as [w|]; cbn [bind] in J; [|discriminate J].
        destruct (safe_ok _ _ _ (valid_some False 1 _ g m Sv ltac:(lia) M)) as (w' & -> & Sw & _). cbn [bind].
        unfold undated_mark in H5. rewrite !pair_equal_spec in H5. destruct H5 as ((N1 & _) & _). rewrite <- N1.
        destruct (tc_code (cf_ind s)) as [c|]; [|discriminate J].
        destruct (starts_with (py "FM") c); (eexists; split; [reflexivity|]; exact (sound_mono False (1 + 1) 31 _ ltac:(lia) Sw)). }
      destruct Z as (i' & -> & Si). cbn [bind]. eexists. split; [reflexivity|]. split; [exact V|exact Si]. }
  destruct K as (t' & K & V' & S'). exists t'. split; [exact K|]. split; [exact (change_step h I m s s' t t' H E K)|]. split; assumption.
Qed.

Lemma change_ok : forall w v v' p, undated_valid v = undated_valid v' -> safe 1 (t_dt (va_from v')) -> change_fc_new w v = Ok p ->
  exists p', change_fc_new w v' = Ok p' /\ safe 31 (t_dt (va_from (tc_valid (cf_ind p')))).
Proof.
  intros w v v' p H Sv E. unfold change_fc_new in *. cbv zeta in *.
  destruct (common_new []) as [c|]; cbn [bind] in *; [|discriminate E]. cbn [taf_ind_new bind] in *.
  destruct (parse_section _ _ _) as [[q un]|] eqn:Q in E; cbn [bind] in E; [|discriminate E]. clear E.
  set (s := mk_cf _ v _ _ _) in Q. set (s' := mk_cf _ v' _ _ _).
  assert (X : change_safe v' s s').
  { split; [|split; [reflexivity|exact (sound_mono False 1 31 _ ltac:(lia) Sv)]].
    apply change_made; unfold s, s'; cbn [cf_code cf_valid cf_common cf_unparsed cf_ind]; try reflexivity; [exact H|].
    unfold undated_mark. cbn [tc_code tc_trans tc_valid]. rewrite H. reflexivity. }
  clearbody s s'.
  destruct (parse_groups_follow _ change_handlers change_handlers (fun _ a b => change_safe v' a b) (fun _ _ => True)) with
    (gs := split_on 32%N (sanitize_visibility (sanitize_change_indicator (replace (py "_") (py " ") w)))) (i := 0) (un := @nil str) (s := s) (s' := s') (z := q) (un' := un)
    as (z' & k & Ez & _ & _ & Z).
  - reflexivity.
  - intros i j a b _ K. exact K.
  - trivial.
  - trivial.
  - intros k h h' g m a b u Hk Hk' Mg R Eu _. rewrite Hk in Hk'. injection Hk' as <-.
    exact (change_step_ok v' Sv h (nth_error_In _ _ Hk) g m a b u Mg R Eu).
  - trivial.
  - exact X.
  - exact Q.
  - unfold parse_section. rewrite Ez. cbn [bind]. eexists. split; [reflexivity|]. exact Z.
Qed.

Lemma pop_ok : forall u u' rl rl' temp temp' r, safe 31 (t_dt u') -> map undated_change rl = map undated_change rl' ->
  pop_changes u rl temp = Ok r -> exists r', pop_changes u' rl' temp' = Ok r'.
Proof.
  intros u u' rl. induction rl as [|p rl IH]; intros [|p' rl'] temp temp' r Su Hl E; try discriminate Hl; cbn [pop_changes] in *.
  { eexists. reflexivity. }
  cbn [map] in Hl. assert (Hp : undated_change p = undated_change p') by congruence. assert (Hr : map undated_change rl = map undated_change rl') by congruence. clear Hl.
  destruct (change_parts _ _ Hp) as (H1 & H2 & H3 & H4 & H5). pose proof H5 as M. unfold undated_mark in M. rewrite !pair_equal_spec in M. destruct M as ((M1 & _) & _).
  rewrite <- M1. destruct (tc_code (cf_ind p)) as [c|]; [|discriminate E].
  destruct (starts_with (py "PROB") c || starts_with (py "TEMPO") c); [exact (IH _ _ _ _ Su Hr E)|].
  destruct (starts_with (py "FM") c); [|eexists; reflexivity].
  unfold reset_until_period. destruct (sound_back False 31 _ Su) as (b & ->). cbn [bind]. rewrite <- M1.
  destruct (starts_with (py "FM") c); cbn [bind]; eexists; reflexivity.
Qed.

Lemma changes_ok : forall p p' g g' h, change_like p p' -> safe 31 (t_dt (va_from (tc_valid (cf_ind p')))) ->
  undated_list undated_change g = undated_list undated_change g' ->
  changes_add p g = Ok h -> exists h', changes_add p' g' = Ok h'.
Proof.
  intros p p' g g' h H S G E. unfold changes_add in *. cbv zeta in *. destruct (change_parts _ _ H) as (H1 & H2 & H3 & H4 & H5).
  pose proof G as G0. unfold undated_list in G0. rewrite !pair_equal_spec in G0. destruct G0 as ((G1 & G2) & G3).
  assert (N : length (gl_list g) = length (gl_list g')) by (rewrite <- (map_length undated_change), G3, map_length; reflexivity).
  rewrite <- H1, <- N. destruct (Nat.ltb 0 (length (gl_list g)) && _); [|exact (add_ok _ _ undated_change p p' g g' h G E)].
  pose proof H5 as M. unfold undated_mark in M. rewrite !pair_equal_spec in M. destruct M as (_ & M). destruct (valid_parts _ _ M) as (_ & Hf & _).
  destruct (pop_changes _ (rev (gl_list g)) []) as [[rl temp]|] eqn:P; cbn [bind] in E; [|discriminate E].
  assert (Hl : map undated_change (rev (gl_list g)) = map undated_change (rev (gl_list g'))) by (rewrite !map_rev, G3; reflexivity).
  destruct (pop_ok _ (va_from (tc_valid (cf_ind p'))) (rev (gl_list g)) (rev (gl_list g')) [] [] _ S Hl P) as ((rl' & temp') & P'). rewrite P'. cbn [bind].
  destruct (pop_rel _ _ (rev (gl_list g)) (rev (gl_list g')) [] [] _ _ Hf Hl (eq_refl []) P P') as [L T]. cbn [fst snd] in L, T.
  destruct (gl_add_all temp _) as [k|] eqn:K in E; cbn [bind] in E; [|discriminate E].
  assert (U : undated_list undated_change (mk_gl (gl_n g) (gl_max g) (rev rl)) = undated_list undated_change (mk_gl (gl_n g') (gl_max g') (rev rl')))
    by (unfold undated_list; cbn [gl_n gl_max gl_list]; rewrite G1, G2, !map_rev, L; reflexivity).
  destruct (add_all_ok _ _ undated_change temp temp' _ _ k T U K) as (k' & K'). rewrite K'. cbn [bind].
  refine (add_ok _ _ undated_change p p' k k' h _ E). exact (add_all_rel _ _ _ _ _ _ _ _ _ T U K K').
Qed.

Lemma handle_changes_ok : forall l x x' z, taf_like x x' -> safe 1 (t_dt (va_from (ta_valid x'))) -> handle_changes l x = Ok z ->
  exists z', handle_changes l x' = Ok z'.
Proof.
  intros l. induction l as [|w l IH]; intros x x' z H S E; cbn [handle_changes] in *; [eexists; reflexivity|].
  destruct w as [|c w]; [exact (IH _ _ _ H S E)|]. unfold handle_change_forecasted in *. pose proof H as H0. tparts H0.
  destruct (change_fc_new (c :: w) (ta_valid x)) as [p|] eqn:P; cbn [bind] in E; [|discriminate E].
  destruct (change_ok _ _ _ _ R11 S P) as (p' & P' & Sp). rewrite P'. cbn [bind].
  destruct (changes_add p (ta_changes x)) as [g|] eqn:G; cbn [bind] in E; [|discriminate E].
  pose proof (change_rel _ _ _ _ _ R11 P P') as C.
  destruct (changes_ok _ _ _ _ _ C Sp R16 G) as (g' & G'). rewrite G'. cbn [bind].
  pose proof (changes_rel _ _ _ _ _ _ C R16 G G') as N. clear P P' G G' C Sp.
  refine (IH _ _ _ _ _ E); [|exact S]. clear E IH S. made.
Qed.

(** ** The body *)

Definition taf_fits (e : env) (y' mo' : option Z) (x : taf) : Prop :=
  t_code (ta_time x) = None \/ real_date (opt_default (now_year e) y') (opt_default (now_month e) mo') (dt_day (t_dt (ta_time x))).

Definition taf_safe (x : taf) : Prop := safe 0 (t_dt (ta_time x)) /\ sound_valid False 0 (ta_valid x).

Lemma temperature_ok : forall g m s s' t, re_match r_T_TEMPERATURE g = Some m -> taf_like s s' -> taf_safe s' ->
  thandle_temperature m s = Ok t -> exists t', thandle_temperature m s' = Ok t' /\ taf_safe t'.
Proof.
  intros g m s s' t M H S E. unfold thandle_temperature in *. tparts H.
  destruct (taf_temp_new m (t_dt (ta_time s))) as [v|]; cbn [bind] in E; [|discriminate E].
  destruct (safe_ok _ _ _ (ttemp_outcome False 0 _ g m (proj1 S) ltac:(lia) M)) as (v' & -> & _). cbn [bind].
  destruct (opt_str_eqb _ _).
  - destruct (gl_add v (ta_max s)) as [l|] eqn:L; cbn [bind] in E; [|discriminate E].
    destruct (add_ok _ _ undated_temp v v' _ _ _ R14 L) as (l' & ->). cbn [bind]. eexists. split; [reflexivity|exact S].
  - destruct (gl_add v (ta_min s)) as [l|] eqn:L; cbn [bind] in E; [|discriminate E].
    destruct (add_ok _ _ undated_temp v v' _ _ _ R15 L) as (l' & ->). cbn [bind]. eexists. split; [reflexivity|exact S].
Qed.

Lemma time_new_code : forall e c mi h d mo y t, time_new e c mi h d mo y = Ok t -> t_code t = group_code c.
Proof.
  intros e c mi h d mo y t E. unfold time_new in E. cbv zeta in E.
  destruct (strptime _) as [u|] in E; cbn [bind] in E; [|discriminate E]. injection E as <-. reflexivity.
Qed.

Lemma taf_plain_step : forall e y mo y' mo' k h h' g m s s' t, k <> 3 ->
  nth_error (taf_handlers e y mo) k = Some h -> nth_error (taf_handlers e y' mo') k = Some h' ->
  re_match (h_regexp h) g = Some m -> taf_like s s' -> taf_safe s' -> h_handle h m s = Ok t ->
  exists t', h_handle h' m s' = Ok t' /\ taf_safe t'.
Proof.
  intros e y mo y' mo' k h h' g m s s' t N A B M H S E. pose proof H as H0. tparts H0.
  unfold taf_handlers in A, B. cbn [nth_error] in A, B. nth_both k A B; try (exfalso; apply N; reflexivity); try (destruct k; discriminate A);
    cbn [h_handle h_regexp] in *.
  all: try (unfold thandle_type, thandle_modifier, thandle_station, thandle_missing, thandle_cancelled; cbv zeta; eexists; split; [reflexivity|exact S]).
  all: try (unfold tlift in *;
    match type of E with bind (?f _ _) _ = _ => destruct (f m (ta_common s)) as [c|] eqn:C; cbn [bind] in E; [|discriminate E];
      destruct (shared_ok f m _ _ _ ltac:(cbn [In]; tauto) R10 C) as (c' & ->) end; cbn [bind]; eexists; split; [reflexivity|exact S]).
  all: try exact (temperature_ok g m s s' t M H S E).
  - unfold thandle_valid in *. destruct S as [S1 S2]. destruct (safe_ok _ _ _ (valid_some False 0 _ g m S1 ltac:(lia) M)) as (v & -> & V). cbn [bind].
    eexists. split; [reflexivity|]. split; assumption.
Qed.

Lemma taf_step_ok : forall e y mo y' mo', real_month e y mo -> real_month e y' mo' ->
  ~ last_month (opt_default (now_year e) y') (opt_default (now_month e) mo') ->
  forall k h h' g m s s' t, nth_error (taf_handlers e y mo) k = Some h -> nth_error (taf_handlers e y' mo') k = Some h' ->
  re_match (h_regexp h) g = Some m -> taf_like s s' /\ taf_safe s' -> h_handle h m s = Ok t -> (4 <= S k -> taf_fits e y' mo' t) ->
  exists t', h_handle h' m s' = Ok t' /\ taf_like t t' /\ taf_safe t'.
Proof.
  intros e y mo y' mo' Y Y' L k h h' g m s s' t Hk Hk' M [H S] E C.
  destruct (Forall2_at _ _ _ _ _ _ _ _ (taf_step_like e y mo y' mo' Y Y') Hk Hk') as [_ Rel].
  destruct (Nat.eq_dec k 3) as [->|N].
  - specialize (C ltac:(lia)). cbn in Hk, Hk'. injection Hk as <-. injection Hk' as <-. cbn [h_handle h_regexp] in *.
    unfold thandle_time in *. destruct (time_from_metar e (Some m) y mo) as [v|] eqn:V; cbn [bind] in E; [|discriminate E].
    assert (Tt : ta_time t = v) by (injection E as <-; reflexivity). unfold taf_fits in C. rewrite Tt in C.
    assert (Cv : t_code v <> None).
    { unfold time_from_metar in V. apply time_new_code in V. rewrite V. discriminate. }
    destruct C as [C|C]; [contradiction|].
    destruct (time_ok e g m y mo y' mo' v M Y Y' V C) as (v' & V' & Rv & Yv & Mv).
    assert (S' : exists u, thandle_time e y' mo' m s' = Ok u /\ ta_time u = v' /\ ta_valid u = ta_valid s')
      by (unfold thandle_time; rewrite V'; cbn [bind]; eexists; repeat split; reflexivity).
    destruct S' as (u & S' & Tu & Vu). unfold thandle_time in S'.
    exists u. split; [exact S'|]. split; [refine (Rel g m s s' t u M H _ S'); rewrite V; exact E|]. unfold taf_safe. rewrite Tu, Vu. split; [|exact (proj2 S)].
    clear - Rv Yv Mv Y' L. destruct v' as [c [vy vm vd vh vi]]. cbn [t_dt dt_year dt_month] in *. subst vy vm.
    apply month_sound; [destruct Y'; lia|exact Rv|exact L].
  - destruct (taf_plain_step _ _ _ _ _ _ _ _ _ _ _ _ _ N Hk Hk' M H S E) as (t' & T' & St). exists t'. split; [exact T'|].
    split; [exact (Rel g m s s' t t' M H E T')|exact St].
Qed.

Lemma changes_same : forall l x z, handle_changes l x = Ok z -> ta_time z = ta_time x.
Proof.
  intros l. induction l as [|w l IH]; intros x z E; cbn [handle_changes] in E; [congruence|].
  destruct w as [|c w]; [exact (IH _ _ E)|]. unfold handle_change_forecasted in E.
  destruct (change_fc_new _ _) as [p|]; cbn [bind] in E; [|discriminate E]. destruct (changes_add _ _) as [g|]; cbn [bind] in E; [|discriminate E].
  rewrite (IH _ _ E). reflexivity.
Qed.

Lemma changes_part_time : forall tr x z, parse_changes_forecasted tr x = Ok z -> ta_time z = ta_time x.
Proof.
  intros tr x z E. unfold parse_changes_forecasted in E. destruct (handle_changes _ x) as [x2|] eqn:T; cbn [bind] in E; [|discriminate E].
  rewrite <- (changes_same _ _ _ T). destruct (gl_collect (ta_changes x2)) as [l g]. cbv zeta in E.
  assert (X : z = tupd_unparsed (ta_unparsed x2 ++ flat_map cf_unparsed l) (tupd_changes g x2)).
  { destruct (ta_unparsed (tupd_unparsed _ _)) as [|u us] in E; [congruence|]. destruct tr; [discriminate E|congruence]. }
  rewrite X. reflexivity.
Qed.

Theorem taf_accept : forall e code y mo tr x y' mo', real_month e None None -> ~ last_month (now_year e) (now_month e) ->
  real_month e y mo -> real_month e y' mo' ->
  ~ last_month (opt_default (now_year e) y') (opt_default (now_month e) mo') ->
  taf_parse e code y mo tr = Ok x -> taf_fits e y' mo' x ->
  exists x', taf_parse e code y' mo' tr = Ok x'.
Proof.
  intros e code y mo tr x y' mo' Y0 L0 Y Y' L' E F. unfold taf_parse in *.
  destruct (report_raw_code code) as [raw|]; cbn [bind] in *; [|discriminate E].
  destruct (taf_init e raw) as [x0|] eqn:E0; cbn [bind] in *; [|discriminate E].
  assert (S0 : taf_safe x0).
  { unfold taf_init in E0. destruct (default_first e None None (proj1 Y0) (proj2 Y0)) as (u & Eu & U). rewrite Eu in E0. cbn [bind] in E0.
    destruct (taf_split raw) as [body codes]. destruct (common_new []) as [c|]; cbn [bind] in E0; [|discriminate E0].
    assert (Su : safe 0 (t_dt u)).
    { rewrite U. cbn [opt_default]. apply month_sound; [destruct Y0; cbn [opt_default] in *; lia| |exact L0].
      destruct Y0 as [Hy Hm]. cbn [opt_default] in Hy, Hm. pose proof (days_in_month_range (now_year e) _ Hm).
      split; [apply real_date_intro; cbn [dt_year dt_month dt_day]; lia|]. cbn [dt_hour dt_minute]. lia. }
    destruct (safe_ok _ _ _ (valid_none False 0 _ Su ltac:(lia))) as (v & Ev & Sv). rewrite Ev in E0. cbn [bind] in E0. injection E0 as <-.
    split; [exact Su|exact Sv]. }
  clear E0. unfold taf_parse_body in *.
  destruct (parse_section (taf_handlers e y mo) _ x0) as [[x1 un]|] eqn:P; cbn [bind] in E; [|discriminate E].
  assert (Tx : ta_time x = ta_time x1) by exact (changes_part_time _ _ _ E).
  assert (F1 : taf_fits e y' mo' x1) by (unfold taf_fits; rewrite <- Tx; exact F).
  destruct (parse_groups_follow _ (taf_handlers e y mo) (taf_handlers e y' mo') (fun _ a b => taf_like a b /\ taf_safe b)
    (fun k a => 4 <= k -> taf_fits e y' mo' a)) with (gs := split_on 32%N (sanitize_visibility (ta_body x0))) (i := 0) (un := @nil str) (s := x0) (s' := x0)
    (z := x1) (un' := un) as (x1' & k & P' & H1 & S1).
  - reflexivity.
  - intros i j a b _ K. exact K.
  - intros i j a Hij K I. apply K. lia.
  - intros k h m a b Hk Eh K I. pose proof (taf_step_time e y mo k h m a b ltac:(lia) Hk Eh) as T.
    unfold taf_fits in *. rewrite <- T. apply K. lia.
  - intros k h h' g m a b t Hk Hk' M K Eh C. exact (taf_step_ok e y mo y' mo' Y Y' L' k h h' g m a b t Hk Hk' M K Eh C).
  - intros k _. exact F1.
  - split; [reflexivity|exact S0].
  - exact P.
  - unfold parse_section. rewrite P'. cbn [bind].
    assert (H2 : taf_like (tupd_unparsed (ta_unparsed x1 ++ un) x1) (tupd_unparsed (ta_unparsed x1' ++ un) x1')).
    { tparts H1. assert (N : ta_unparsed x1 ++ un = ta_unparsed x1' ++ un) by congruence. clear - N R1 R2 R3 R4 R5 R6 R7 R8 R9 R10 R11 R12 R13 R14 R15 R16. made. }
    assert (S2 : safe 1 (t_dt (va_from (ta_valid (tupd_unparsed (ta_unparsed x1' ++ un) x1'))))) by exact (proj1 (proj2 S1)).
    revert H2 S2 E. generalize (tupd_unparsed (ta_unparsed x1 ++ un) x1), (tupd_unparsed (ta_unparsed x1' ++ un) x1'). clear.
    intros a b H S E. unfold parse_changes_forecasted in *. pose proof H as H0. tparts H0. rewrite <- R3.
    clear R1 R2 R3 R4 R5 R6 R7 R8 R9 R10 R11 R12 R13 R14 R15 R16.
    destruct (handle_changes _ a) as [x2|] eqn:T; cbn [bind] in E; [|discriminate E].
    destruct (handle_changes_ok _ _ _ _ H S T) as (x2' & T'). rewrite T'. cbn [bind].
    pose proof (handle_changes_like _ _ _ _ _ H T T') as K. rewrite gl_collect_spec in *. cbv zeta in *.
    cbn [ta_unparsed tupd_unparsed] in *. tparts K. unfold undated_list in R16. rewrite !pair_equal_spec in R16. destruct R16 as ((N1 & N2) & N3).
    rewrite <- R5. assert (Z : flat_map cf_unparsed (skipn (gl_n (ta_changes x2)) (gl_list (ta_changes x2)))
      = flat_map cf_unparsed (skipn (gl_n (ta_changes x2')) (gl_list (ta_changes x2')))).
    { rewrite N1. revert N3. generalize (gl_list (ta_changes x2)), (gl_list (ta_changes x2')), (gl_n (ta_changes x2')). clear.
      intros l l' n N. assert (Z : map undated_change (skipn n l) = map undated_change (skipn n l')) by (rewrite <- !skipn_map, N; reflexivity).
      clear N. revert Z. generalize (skipn n l), (skipn n l'). clear. intros l. induction l as [|p l IH]; intros [|p' l'] Z; try discriminate Z; [reflexivity|].
      cbn [map] in Z. cbn [flat_map]. assert (Z1 : undated_change p = undated_change p') by congruence. assert (Z2 : map undated_change l = map undated_change l') by congruence.
      f_equal; [|exact (IH _ Z2)]. unfold undated_change in Z1. rewrite !pair_equal_spec in Z1. tauto. }
    rewrite <- Z. destruct (ta_unparsed x2 ++ _); [eexists; reflexivity|]. destruct tr; [discriminate E|eexists; reflexivity].
Qed.

Theorem taf_accept_iff : forall e code y mo tr x y' mo', real_month e None None -> real_month e y mo -> real_month e y' mo' ->
  (now_year e < 9999)%Z -> (opt_default (now_year e) y' < 9999)%Z -> taf_parse e code y mo tr = Ok x ->
  ((exists x', taf_parse e code y' mo' tr = Ok x')
   <-> t_code (ta_time x) = None
       \/ real_date (opt_default (now_year e) y') (opt_default (now_month e) mo') (dt_day (t_dt (ta_time x)))).
Proof.
  intros e code y mo tr x y' mo' Y0 Y Y' L0 L E. split.
  - intros (x' & E'). pose proof (taf_undated _ _ _ _ _ _ _ _ _ _ Y Y' E E') as U. tparts U. destruct (same_dhm _ _ R8) as (Ec & Ed & _).
    destruct (t_code (ta_time x)) as [c|] eqn:T; [right|left; reflexivity]. rewrite Ed.
    destruct (taf_month _ _ _ _ _ _ Y0 Y' E') as (_ & Q & _). destruct Q as [Q1 Q2]; [rewrite <- Ec; discriminate|].
    destruct (taf_moments_ok _ _ _ _ _ _ E') as (Rt & _). destruct Rt as [Rt _]. rewrite Q1, Q2 in Rt. exact Rt.
  - intros D. apply (taf_accept _ _ _ _ _ _ _ _ Y0 ltac:(unfold last_month; lia) Y Y' ltac:(unfold last_month; lia) E D).
Qed.
