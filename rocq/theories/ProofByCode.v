(** * Proofs: the code of a group decides its values (C76) *)
From Coq Require Import String Ascii.
From Coq Require Import List NArith ZArith Bool Lia.
From Verif Require Import PyBase PyRegex AeroRegex PyFloat PyTime Utils Base MetarGroups Trend Metar Taf SpecKept SpecByCode
  StrFacts ProofFailures ProofLists ProofProb Captures Outcomes OutTime OutMetar ProofAbsent ProofAbsentTaf ProofKeptReport ProofKeptTaf ProofVerdict ProofAgree.
Import ListNotations.
Local Open Scope string_scope.
Local Open Scope nat_scope.
Local Open Scope list_scope.
Local Opaque dt_add_minutes dt_add_hours dt_add_days.

(** A group that was read by its pattern. *)
Definition read {A} (r : regex) (new : option rmatch -> result A) (a : A) : Prop :=
  exists g m, unspaced g /\ re_match r g = Some m /\ new (Some m) = Ok a.
Definition from {A} (r : regex) (new : option rmatch -> result A) (a : A) : Prop := new None = Ok a \/ read r new a.

Section Same.
  Context {A : Type} (r : regex) (new : option rmatch -> result A) (code : A -> option str).
  Hypothesis coded : forall m a, new (Some m) = Ok a -> code a = Some (blanked (m_string m)).
  Hypothesis absent : forall a, new None = Ok a -> code a = None.

  Lemma read_same : forall a a', read r new a -> read r new a' -> code a = code a' -> a = a'.
  Proof.
    intros a a' (g & m & U & M & E) (g' & m' & U' & M' & E') C. rewrite (coded _ _ E), (coded _ _ E') in C.
    rewrite (re_match_string _ _ _ M), (re_match_string _ _ _ M') in C. injection C as C. apply (blanked_same _ _ U U') in C. subst g'.
    rewrite M in M'. injection M' as <-. rewrite E in E'. congruence.
  Qed.
  Lemma from_same : forall a a', from r new a -> from r new a' -> code a = code a' -> a = a'.
  Proof.
    intros a a' [H|H] [H'|H'] C.
    - congruence.
    - exfalso. destruct H' as (g & m & _ & _ & E). rewrite (absent _ H), (coded _ _ E) in C. discriminate C.
    - exfalso. destruct H as (g & m & _ & _ & E). rewrite (absent _ H'), (coded _ _ E) in C. discriminate C.
    - exact (read_same _ _ H H' C).
  Qed.
End Same.

(** The same, for two patterns that take the same groups of every text. *)
Section Either.
  Context {A : Type} (r1 r2 : regex) (new : option rmatch -> result A) (code : A -> option str).
  Hypothesis coded : forall m a, new (Some m) = Ok a -> code a = Some (blanked (m_string m)).
  Hypothesis absent : forall a, new None = Ok a -> code a = None.
  Hypothesis alike : agree r1 r2 = true.
  Hypothesis grouped : forall m m', m_string m = m_string m' -> m_spans m = m_spans m' -> new (Some m) = new (Some m').

  Definition either (a : A) : Prop := from r1 new a \/ from r2 new a.
  Lemma cross_same : forall a a', from r1 new a -> from r2 new a' -> code a = code a' -> a = a'.
  Proof.
    intros a a' [H|H] [H'|H'] C.
    - congruence.
    - exfalso. destruct H' as (g & m & _ & _ & E). rewrite (absent _ H), (coded _ _ E) in C. discriminate C.
    - exfalso. destruct H as (g & m & _ & _ & E). rewrite (absent _ H'), (coded _ _ E) in C. discriminate C.
    - destruct H as (g & m & U & M & E), H' as (g' & m' & U' & M' & E'). rewrite (coded _ _ E), (coded _ _ E') in C.
      rewrite (re_match_string _ _ _ M), (re_match_string _ _ _ M') in C. injection C as C. apply (blanked_same _ _ U U') in C. subst g'.
      rewrite (grouped m m') in E; [congruence| |exact (agree_ok _ _ _ _ _ alike M M')].
      rewrite (re_match_string _ _ _ M), (re_match_string _ _ _ M'). reflexivity.
  Qed.
  Lemma either_same : forall a a', either a -> either a' -> code a = code a' -> a = a'.
  Proof.
    intros a a' [H|H] [H'|H'] C.
    - exact (from_same r1 new code coded absent _ _ H H' C).
    - exact (cross_same _ _ H H' C).
    - symmetry in C. symmetry. exact (cross_same _ _ H' H C).
    - exact (from_same r2 new code coded absent _ _ H H' C).
  Qed.
End Either.

(** ** The groups shared by all reports *)

Definition weather_made (m : option rmatch) : result weather := Ok (weather_new m).
Definition drawn (rw rv : regex) (c : common) : Prop :=
  from rw metar_wind_new (c_wind c) /\ from rv prevailing_new (c_vis c)
  /\ Forall (read r_WEATHER weather_made) (gl_list (c_weathers c)) /\ Forall (read r_CLOUD cloud_from_metar) (gl_list (c_clouds c)).

Section Steps.
  Context (rw rv : regex).
  Lemma drawn_wind : forall g m c c', unspaced g -> re_match rw g = Some m -> handle_wind m c = Ok c' -> drawn rw rv c -> drawn rw rv c'.
  Proof.
    intros g m c c' U M E (A & B & C & D). unfold handle_wind in E. destruct (metar_wind_new (Some m)) as [w|] eqn:W; [|discriminate E].
    cbn [bind] in E.
    assert (K : c' = mk_common (concat_string (c_string c) (metar_wind_str w)) w (c_vis c) (c_weathers c) (c_clouds c)) by congruence.
    rewrite K. split; [right; exists g, m; auto|]. auto.
  Qed.
  Lemma drawn_vis : forall g m c c', unspaced g -> re_match rv g = Some m -> handle_prevailing m c = Ok c' -> drawn rw rv c -> drawn rw rv c'.
  Proof.
    intros g m c c' U M E (A & B & C & D). unfold handle_prevailing in E. destruct (prevailing_new (Some m)) as [w|] eqn:W; [|discriminate E].
    cbn [bind] in E.
    assert (K : c' = mk_common (concat_string (c_string c) (prevailing_str w)) (c_wind c) w (c_weathers c) (c_clouds c)) by congruence.
    rewrite K. split; [exact A|]. split; [right; exists g, m; auto|]. auto.
  Qed.
  Lemma drawn_weather : forall g m c c', unspaced g -> re_match r_WEATHER g = Some m -> handle_weather m c = Ok c' -> drawn rw rv c -> drawn rw rv c'.
  Proof.
    intros g m c c' U M E (A & B & C & D). unfold handle_weather in E. cbv zeta in E. destruct (gl_add _ _) as [l|] eqn:G; [|discriminate E]. cbn [bind] in E.
    assert (K : c' = mk_common (concat_string (c_string c) (weather_str (weather_new (Some m)))) (c_wind c) (c_vis c) l (c_clouds c)) by congruence.
    rewrite K. split; [exact A|]. split; [exact B|]. split; [|exact D]. apply (gl_add_forall _ _ _ _ _ G); [exists g, m; auto|exact C].
  Qed.
  Lemma drawn_cloud : forall g m c c', unspaced g -> re_match r_CLOUD g = Some m -> handle_cloud m c = Ok c' -> drawn rw rv c -> drawn rw rv c'.
  Proof.
    intros g m c c' U M E (A & B & C & D). unfold handle_cloud in E. destruct (cloud_from_metar (Some m)) as [k|] eqn:W; [|discriminate E]. cbn [bind] in E.
    destruct (gl_add k (c_clouds c)) as [l|] eqn:G; [|discriminate E]. cbn [bind] in E.
    assert (K : c' = mk_common (concat_string (c_string c) (cloud_str k)) (c_wind c) (c_vis c) (c_weathers c) l) by congruence.
    rewrite K. split; [exact A|]. split; [exact B|]. split; [exact C|]. apply (gl_add_forall _ _ _ _ _ G); [exists g, m; auto|exact D].
  Qed.
  Lemma drawn_new : forall b c, common_new b = Ok c -> drawn rw rv c.
  Proof.
    intros b c E. unfold common_new in E.
    destruct (metar_wind_new None) as [w|] eqn:W; [|discriminate E]. cbn [bind] in E.
    destruct (prevailing_new None) as [v|] eqn:V; [|discriminate E]. cbn [bind] in E.
    assert (K : c = mk_common b w v (gl_new 3) cloudlist_new) by congruence. rewrite K.
    split; [left; exact W|]. split; [left; exact V|]. split; constructor.
  Qed.
  Lemma drawn_string : forall s c, drawn rw rv c -> drawn rw rv (set_string s c).
  Proof. intros s c H. exact H. Qed.
End Steps.

Ltac common_steps L U M E :=
  try (refine (L _ (fun c c' => drawn_wind _ _ _ _ c c' U M) E));
  try (refine (L _ (fun c c' => drawn_vis _ _ _ _ c c' U M) E));
  try (refine (L _ (fun c c' => drawn_weather _ _ _ _ c c' U M) E));
  try (refine (L _ (fun c c' => drawn_cloud _ _ _ _ c c' U M) E)).

(** ** METAR *)

Definition trend_drawn (p : change_period) : Prop := drawn r_WIND r_VISIBILITY (cp_common p).

Lemma trend_drawn_step : forall h g m p p', In h trend_handlers -> unspaced g -> re_match (h_regexp h) g = Some m -> h_handle h m p = Ok p' ->
  trend_drawn p -> trend_drawn p'.
Proof.
  intros h g m p p' I U M E H. unfold trend_handlers in I. cbn [In] in I.
  assert (L : forall f, (forall c c', f m c = Ok c' -> drawn r_WIND r_VISIBILITY c -> drawn r_WIND r_VISIBILITY c') -> cp_lift f m p = Ok p' -> trend_drawn p').
  { intros f Hf Ef. unfold cp_lift in Ef. destruct (f m (cp_common p)) as [c|] eqn:Ec; [|discriminate Ef]. cbn [bind] in Ef.
    assert (K : p' = cp_set_common c p) by congruence. rewrite K. exact (Hf _ _ Ec H). }
  repeat (destruct I as [<-|I]; [cbn [h_handle h_regexp] in E, M|]); try contradiction; common_steps L U M E;
    unfold handle_trend_indicator, handle_time_period in E; cbv zeta in E; binds E;
    (match type of E with Ok ?a = Ok _ => assert (K : p' = a) by congruence end); rewrite K; exact H.
Qed.
Lemma trend_drawn_parsed : forall code t p, change_period_new code t = Ok p -> trend_drawn p.
Proof.
  intros code t p E. unfold change_period_new in E. cbv zeta in E.
  destruct (common_new []) as [c|] eqn:C; [|discriminate E]. cbn [bind] in E. apply (drawn_new r_WIND r_VISIBILITY) in C.
  destruct (trend_ind_new None t) as [i|]; [|discriminate E]. cbn [bind] in E.
  destruct (parse_section trend_handlers _ _) as [[q un]|] eqn:P; [|discriminate E]. cbn [bind] in E. injection E as <-.
  apply (parse_section_from _ trend_drawn) in P; [exact P|exact trend_drawn_step|exact C].
Qed.

Definition recent_made (m : option rmatch) : result recent_weather := Ok (recent_weather_new m).
Definition shear_made (m : option rmatch) : result windshear := Ok (windshear_new m).
Definition runway_made (m : option rmatch) : result runway_state := Ok (runway_state_new m).
Definition modifier_made (m : option rmatch) : result modifier := Ok (modifier_new (option_map m_string m)).
Definition station_made (e : env) (m : option rmatch) : result station := Ok (station_new e (option_map m_string m)).

Definition metar_drawn (e : env) (y mo : option Z) (x : metar) : Prop :=
  (from r_STATION (station_made e) (me_station x) /\ from r_TIME (fun m => time_from_metar e m y mo) (me_time x)
   /\ from r_MODIFIER modifier_made (me_modifier x) /\ from r_WIND_VARIATION wind_variation_new (me_wvar x)
   /\ from r_MINIMUM_VISIBILITY minimum_visibility_new (me_minvis x) /\ Forall (read r_RUNWAY_RANGE runway_range_new) (gl_list (me_rvr x)))
  /\ (from r_TEMPERATURES temperatures_new (me_temps x) /\ from r_PRESSURE metar_pressure_new (me_press x)
   /\ from r_RECENT_WEATHER recent_made (me_recent x) /\ Forall (read r_WINDSHEAR shear_made) (gl_list (me_ws x))
   /\ from r_SEA_STATE sea_state_new (me_sea x) /\ from r_RUNWAY_STATE runway_made (me_rwy x))
  /\ drawn r_WIND r_VISIBILITY (me_common x) /\ Forall trend_drawn (gl_list (me_trends x)).

Lemma metar_drawn_step : forall e y mo h g m x x', In h (metar_handlers e y mo) -> unspaced g -> re_match (h_regexp h) g = Some m ->
  h_handle h m x = Ok x' -> metar_drawn e y mo x -> metar_drawn e y mo x'.
Proof.
  intros e y mo h g m x x' I U M E H. unfold metar_handlers in I. cbn [In] in I.
  assert (L : forall f, (forall c c', f m c = Ok c' -> drawn r_WIND r_VISIBILITY c -> drawn r_WIND r_VISIBILITY c') -> lift f m x = Ok x' -> metar_drawn e y mo x').
  { intros f Hf Ef. unfold lift in Ef. destruct (f m (me_common x)) as [c|] eqn:Ec; [|discriminate Ef]. cbn [bind] in Ef.
    assert (K : x' = upd_common c x) by congruence. rewrite K. destruct H as (H1 & H2 & H3 & H4).
    split; [exact H1|]. split; [exact H2|]. split; [exact (Hf _ _ Ec H3)|exact H4]. }
  assert (R : forall A (r : regex) (new : option rmatch -> result A) a, re_match r g = Some m -> new (Some m) = Ok a -> read r new a) by (intros A r new a Mr Er; exists g, m; auto).
  destruct H as ((A1 & A2 & A3 & A4 & A5 & A6) & (B1 & B2 & B3 & B4 & B5 & B6) & C & D).
  repeat (destruct I as [<-|I]; [cbn [h_handle h_regexp] in E, M|]); try contradiction; common_steps L U M E; clear L.
  all: unfold handle_type, handle_station, handle_modifier, handle_time, handle_recent_weather, handle_runway_state, handle_windshear,
      handle_wind_variation, handle_minimum_visibility, handle_runway_range, handle_temperatures, handle_pressure, handle_sea_state in E; cbv zeta in E.
  all: repeat match type of E with bind ?t _ = Ok _ => let v := fresh "v" in let Ev := fresh "Ev" in destruct t as [v|] eqn:Ev; [cbn [bind] in E|discriminate E] end.
  all: match type of E with Ok ?a = Ok _ => assert (K : x' = a) by congruence; rewrite K; clear K E end.
  all: split; [split; [|split; [|split; [|split; [|split]]]]|split; [split; [|split; [|split; [|split; [|split]]]]|split; [exact C|exact D]]].
  all: try assumption.
  all: try (right; apply (R _ _ _ _ M); first [assumption|reflexivity]).
  all: try (match goal with G : gl_add _ _ = Ok _ |- _ => apply (gl_add_forall _ _ _ _ _ G); [|assumption]; apply (R _ _ _ _ M); first [assumption|reflexivity] end).
Qed.

Lemma trends_drawn_parsed : forall e y mo l x x', handle_trends l x = Ok x' -> metar_drawn e y mo x -> metar_drawn e y mo x'.
Proof.
  intros e y mo l. induction l as [|w l IH]; intros x x' E H; cbn [handle_trends] in E; [injection E as <-; exact H|].
  destruct w as [|c w]; [exact (IH _ _ E H)|]. unfold handle_weather_trend in E.
  destruct (change_period_new (c :: w) _) as [p|] eqn:C; [|discriminate E]. cbn [bind] in E. apply trend_drawn_parsed in C.
  destruct (gl_add p (me_trends x)) as [g|] eqn:G; [|discriminate E]. cbn [bind] in E. destruct H as (H1 & H2 & H3 & H4).
  apply IH in E; [exact E|]. split; [exact H1|]. split; [exact H2|]. split; [exact H3|]. exact (gl_add_forall _ _ _ _ _ G C H4).
Qed.

Lemma metar_drawn_start : forall e raw y mo x, metar_init e raw y mo = Ok x -> metar_drawn e y mo x.
Proof.
  intros e raw y mo x E. unfold metar_init in E.
  repeat match type of E with bind ?t _ = Ok _ => let v := fresh "v" in let Ev := fresh "Ev" in destruct t as [v|] eqn:Ev; [cbn [bind] in E|discriminate E] end.
  match type of E with Ok ?a = Ok _ => assert (K : x = a) by congruence; rewrite K; clear K E end.
  split; [split; [left; reflexivity|split; [left; assumption|split; [left; reflexivity|split; [left; assumption|split; [left; assumption|constructor]]]]]|].
  split; [split; [left; assumption|split; [left; assumption|split; [left; reflexivity|split; [constructor|split; [left; assumption|left; reflexivity]]]]]|].
  split; [|constructor]. match goal with C : common_new _ = Ok _ |- _ => exact (drawn_new _ _ _ _ C) end.
Qed.

Lemma metar_drawn_parsed : forall e code y mo tr x, metar_parse e code y mo tr = Ok x -> metar_drawn e y mo x.
Proof.
  intros e code y mo tr x E. unfold metar_parse in E. destruct (report_raw_code code) as [raw|]; [|discriminate E]. cbn [bind] in E.
  destruct (metar_init e raw y mo) as [x0|] eqn:E0; [|discriminate E]. cbn [bind] in E. apply metar_drawn_start in E0.
  unfold parse_body in E. destruct (parse_section (metar_handlers e y mo) _ x0) as [[x1 un]|] eqn:E1; [|discriminate E].
  cbn [bind] in E. apply (parse_section_from _ (metar_drawn e y mo)) in E1; [|exact (metar_drawn_step e y mo)|exact E0].
  unfold parse_weather_trend in E. destruct (handle_trends _ _) as [x2|] eqn:E2; [|discriminate E]. cbn [bind] in E.
  apply (trends_drawn_parsed e y mo) in E2; [|exact E1].
  pose proof (collect_list _ (me_trends x2)) as Cl. destruct (gl_collect (me_trends x2)) as [l g]. cbn [snd] in Cl. cbv zeta in E.
  assert (X : x = upd_unparsed (me_unparsed x2 ++ flat_map cp_unparsed l) (upd_trends g x2)).
  { destruct (me_unparsed (upd_unparsed _ _)) as [|u us] in E; [congruence|]. destruct tr; [discriminate E|congruence]. }
  rewrite X. destruct E2 as (K1 & K2 & K3 & K4). split; [exact K1|]. split; [exact K2|]. split; [exact K3|]. cbn [me_trends upd_unparsed upd_trends].
  rewrite Cl. exact K4.
Qed.

(** ** TAF *)

Definition change_drawn (p : change_fc) : Prop := drawn r_T_WIND r_VISIBILITY (cf_common p).
Definition taf_drawn (e : env) (x : taf) : Prop :=
  (from r_STATION (station_made e) (ta_station x) /\ from r_T_AMD_COR modifier_made (ta_modifier x))
  /\ drawn r_T_WIND r_T_VISIBILITY (ta_common x) /\ Forall change_drawn (gl_list (ta_changes x)).

Lemma change_drawn_step : forall h g m p p', In h change_handlers -> unspaced g -> re_match (h_regexp h) g = Some m -> h_handle h m p = Ok p' ->
  change_drawn p -> change_drawn p'.
Proof.
  intros h g m p p' I U M E H. unfold change_handlers in I. cbn [In] in I.
  assert (L : forall f, (forall c c', f m c = Ok c' -> drawn r_T_WIND r_VISIBILITY c -> drawn r_T_WIND r_VISIBILITY c') -> cf_lift f m p = Ok p' -> change_drawn p').
  { intros f Hf Ef. unfold cf_lift in Ef. destruct (f m (cf_common p)) as [c|] eqn:Ec; [|discriminate Ef]. cbn [bind] in Ef.
    injection Ef as <-. exact (Hf _ _ Ec H). }
  repeat (destruct I as [<-|I]; [cbn [h_handle h_regexp] in E, M|]); try contradiction; common_steps L U M E;
    unfold handle_change_indicator, handle_change_valid in E; binds E; injection E as <-; exact H.
Qed.
Lemma change_drawn_parsed : forall code v p, change_fc_new code v = Ok p -> change_drawn p.
Proof.
  intros code v p E. unfold change_fc_new in E. cbv zeta in E.
  destruct (common_new []) as [c|] eqn:C; [|discriminate E]. cbn [bind] in E. apply (drawn_new r_T_WIND r_VISIBILITY) in C.
  cbn [taf_ind_new bind] in E.
  destruct (parse_section change_handlers _ _) as [[q un]|] eqn:P; [|discriminate E]. cbn [bind] in E. injection E as <-.
  apply (parse_section_from _ change_drawn) in P; [exact P|exact change_drawn_step|exact C].
Qed.
Lemma pop_drawn : forall u rl temp a b, pop_changes u rl temp = Ok (a, b) -> Forall change_drawn rl -> Forall change_drawn temp ->
  Forall change_drawn a /\ Forall change_drawn b.
Proof.
  intros u rl. induction rl as [|l rl IH]; intros temp a b E H T; cbn [pop_changes] in E; [injection E as <- <-; auto|].
  pose proof (Forall_inv H) as Hl. pose proof (Forall_inv_tail H) as Hr. destruct (tc_code (cf_ind l)) as [c|] eqn:Ec; [|discriminate E].
  destruct (_ || _); [exact (IH _ _ _ E Hr (Forall_cons _ Hl T))|].
  destruct (starts_with (py "FM") c) eqn:F; [|injection E as <- <-; split; [exact Hr|constructor; assumption]].
  unfold reset_until_period in E. binds E. injection E as <- <-. split; [exact Hr|]. constructor; [exact Hl|exact T].
Qed.
Lemma changes_add_drawn : forall p g g', changes_add p g = Ok g' -> change_drawn p -> Forall change_drawn (gl_list g) -> Forall change_drawn (gl_list g').
Proof.
  intros p g g' E Hp Hg. unfold changes_add in E. cbv zeta in E. destruct (_ && _); [|exact (gl_add_forall _ _ _ _ _ E Hp Hg)].
  destruct (pop_changes _ (rev (gl_list g)) []) as [[rl temp]|] eqn:P; [|discriminate E]. cbn [bind] in E.
  apply pop_drawn in P; [|apply Forall_rev; exact Hg|constructor]. destruct P as [P1 P2].
  destruct (gl_add_all temp _) as [g1|] eqn:A; [|discriminate E]. cbn [bind] in E.
  apply (add_all_kept _ change_drawn) in A; [|exact P2|cbn [gl_list]; apply Forall_rev; exact P1].
  exact (gl_add_forall _ _ _ _ _ E Hp A).
Qed.

Lemma taf_drawn_step : forall e y mo h g m x x', In h (taf_handlers e y mo) -> unspaced g -> re_match (h_regexp h) g = Some m ->
  h_handle h m x = Ok x' -> taf_drawn e x -> taf_drawn e x'.
Proof.
  intros e y mo h g m x x' I U M E H. unfold taf_handlers in I. cbn [In] in I.
  assert (L : forall f, (forall c c', f m c = Ok c' -> drawn r_T_WIND r_T_VISIBILITY c -> drawn r_T_WIND r_T_VISIBILITY c') -> tlift f m x = Ok x' -> taf_drawn e x').
  { intros f Hf Ef. unfold tlift in Ef. destruct (f m (ta_common x)) as [c|] eqn:Ec; [|discriminate Ef]. cbn [bind] in Ef.
    assert (K : x' = tupd_common c x) by congruence. rewrite K. destruct H as (H0 & H1 & H2). split; [exact H0|]. split; [exact (Hf _ _ Ec H1)|exact H2]. }
  assert (T : thandle_temperature m x = Ok x' -> taf_drawn e x').
  { intros Et. unfold thandle_temperature in Et. destruct (taf_temp_new m _) as [t|] eqn:W; [|discriminate Et]. cbn [bind] in Et.
    destruct (opt_str_eqb _ _); (destruct (gl_add t _) as [l|] eqn:G; [|discriminate Et]; cbn [bind] in Et;
      match type of Et with Ok ?a = Ok _ => assert (K : x' = a) by congruence end; rewrite K; exact H). }
  repeat (destruct I as [<-|I]; [cbn [h_handle h_regexp] in E, M|]); try contradiction;
    try exact (T E); common_steps L U M E; clear L T; destruct H as ((H1 & H2) & H3 & H4);
    unfold thandle_type, thandle_modifier, thandle_station, thandle_time, thandle_missing, thandle_valid, thandle_cancelled in E;
    cbv zeta in E; binds E;
    (match type of E with Ok ?a = Ok _ => assert (K : x' = a) by congruence end; rewrite K; (split; [split|split; [exact H3|exact H4]]);
     first [assumption|right; exists g, m; auto]).
Qed.
Lemma changes_drawn_parsed : forall e l x x', handle_changes l x = Ok x' -> taf_drawn e x -> taf_drawn e x'.
Proof.
  intros e l. induction l as [|w l IH]; intros x x' E H; cbn [handle_changes] in E; [injection E as <-; exact H|].
  destruct w as [|c w]; [exact (IH _ _ E H)|]. unfold handle_change_forecasted in E.
  destruct (change_fc_new (c :: w) _) as [p|] eqn:C; [|discriminate E]. cbn [bind] in E. apply change_drawn_parsed in C.
  destruct (changes_add p (ta_changes x)) as [g|] eqn:G; [|discriminate E]. cbn [bind] in E.
  apply IH in E; [exact E|]. destruct H as (H0 & H1 & H2). split; [exact H0|]. split; [exact H1|]. exact (changes_add_drawn _ _ _ G C H2).
Qed.
Lemma taf_drawn_start : forall e raw x, taf_init e raw = Ok x -> taf_drawn e x.
Proof.
  intros e raw x E. unfold taf_init in E.
  destruct (time_new e None None None None None None); [|discriminate E]. cbn [bind] in E. destruct (taf_split raw) as [body codes].
  destruct (common_new []) as [c|] eqn:C; [|discriminate E]. cbn [bind] in E. apply (drawn_new r_T_WIND r_T_VISIBILITY) in C.
  destruct (valid_from_taf None _); [|discriminate E]. cbn [bind] in E. injection E as <-.
  split; [split; left; reflexivity|]. split; [exact C|constructor].
Qed.
Lemma taf_drawn_parsed : forall e code y mo tr x, taf_parse e code y mo tr = Ok x -> taf_drawn e x.
Proof.
  intros e code y mo tr x E. unfold taf_parse in E. destruct (report_raw_code code) as [raw|]; [|discriminate E]. cbn [bind] in E.
  destruct (taf_init e raw) as [x0|] eqn:E0; [|discriminate E]. cbn [bind] in E. apply taf_drawn_start in E0.
  unfold taf_parse_body in E. destruct (parse_section (taf_handlers e y mo) _ x0) as [[x1 un]|] eqn:E1; [|discriminate E].
  cbn [bind] in E. apply (parse_section_from _ (taf_drawn e)) in E1; [|exact (taf_drawn_step e y mo)|exact E0].
  unfold parse_changes_forecasted in E. destruct (handle_changes _ _) as [x2|] eqn:E2; [|discriminate E]. cbn [bind] in E.
  apply (changes_drawn_parsed e) in E2; [|exact E1].
  pose proof (collect_list _ (ta_changes x2)) as Cl. destruct (gl_collect (ta_changes x2)) as [l g]. cbn [snd] in Cl. cbv zeta in E.
  assert (X : x = tupd_unparsed (ta_unparsed x2 ++ flat_map cf_unparsed l) (tupd_changes g x2)).
  { destruct (ta_unparsed (tupd_unparsed _ _)) as [|u us] in E; [congruence|]. destruct tr; [discriminate E|congruence]. }
  rewrite X. destruct E2 as (K0 & K2 & K3). split; [exact K0|]. split; [exact K2|].
  cbn [ta_changes tupd_unparsed tupd_changes]. rewrite Cl. exact K3.
Qed.

(** ** The same code, the same group *)

Ltac none E := let K := fresh "K" in vm_compute in E; match type of E with Ok ?a = Ok ?b => assert (K : b = a) by congruence; rewrite K; reflexivity end.
Lemma weather_same : forall a a', read r_WEATHER weather_made a -> read r_WEATHER weather_made a' -> we_code a = we_code a' -> a = a'.
Proof. apply read_same. intros m a E. replace a with (weather_new (Some m)) by (unfold weather_made in E; congruence). apply weather_code. Qed.
Lemma cloud_same : forall a a', read r_CLOUD cloud_from_metar a -> read r_CLOUD cloud_from_metar a' -> cl_code a = cl_code a' -> a = a'.
Proof. apply read_same. exact cloud_code. Qed.
Lemma wvar_same : forall a a', from r_WIND_VARIATION wind_variation_new a -> from r_WIND_VARIATION wind_variation_new a' -> wv_code a = wv_code a' -> a = a'.
Proof. apply from_same; [exact wvar_code|]. intros a E. none E. Qed.
Lemma minvis_same : forall a a', from r_MINIMUM_VISIBILITY minimum_visibility_new a -> from r_MINIMUM_VISIBILITY minimum_visibility_new a' -> v_code a = v_code a' -> a = a'.
Proof. apply from_same; [exact minvis_code|]. intros a E. none E. Qed.
Lemma rvr_same : forall a a', read r_RUNWAY_RANGE runway_range_new a -> read r_RUNWAY_RANGE runway_range_new a' -> rr_code a = rr_code a' -> a = a'.
Proof. apply read_same. exact rvr_code. Qed.
Lemma temps_same : forall a a', from r_TEMPERATURES temperatures_new a -> from r_TEMPERATURES temperatures_new a' -> te_code a = te_code a' -> a = a'.
Proof. apply from_same; [exact temps_code|]. intros a E. none E. Qed.
Lemma press_same : forall a a', from r_PRESSURE metar_pressure_new a -> from r_PRESSURE metar_pressure_new a' -> pr_code a = pr_code a' -> a = a'.
Proof. apply from_same; [exact press_code|]. intros a E. none E. Qed.
Lemma recent_same : forall a a', from r_RECENT_WEATHER recent_made a -> from r_RECENT_WEATHER recent_made a' -> rw_code a = rw_code a' -> a = a'.
Proof.
  apply from_same; [|intros a E; none E]. intros m a E. replace a with (recent_weather_new (Some m)) by (unfold recent_made in E; congruence). apply recent_code.
Qed.
Lemma shear_same : forall a a', read r_WINDSHEAR shear_made a -> read r_WINDSHEAR shear_made a' -> ws_code a = ws_code a' -> a = a'.
Proof. apply read_same. intros m a E. replace a with (windshear_new (Some m)) by (unfold shear_made in E; congruence). apply shear_code. Qed.
Lemma sea_same : forall a a', from r_SEA_STATE sea_state_new a -> from r_SEA_STATE sea_state_new a' -> se_code a = se_code a' -> a = a'.
Proof. apply from_same; [exact sea_code|]. intros a E. none E. Qed.
Lemma runway_same : forall a a', from r_RUNWAY_STATE runway_made a -> from r_RUNWAY_STATE runway_made a' -> rs_code a = rs_code a' -> a = a'.
Proof.
  apply from_same; [|intros a E; none E]. intros m a E. replace a with (runway_state_new (Some m)) by (unfold runway_made in E; congruence). apply runway_code.
Qed.
Lemma modifier_same : forall r a a', from r modifier_made a -> from r modifier_made a' -> mo_code a = mo_code a' -> a = a'.
Proof.
  intros r. apply from_same; [|intros a E; none E]. intros m a E.
  replace a with (modifier_new (Some (m_string m))) by (unfold modifier_made in E; cbn [option_map] in E; congruence). apply modifier_code.
Qed.
Lemma station_same : forall e a a', from r_STATION (station_made e) a -> from r_STATION (station_made e) a' -> st_code a = st_code a' -> a = a'.
Proof.
  intro e. apply from_same.
  - intros m a E. replace a with (station_new e (Some (m_string m))) by (unfold station_made in E; cbn [option_map] in E; congruence). apply station_code.
  - intros a E. replace a with (station_new e None) by (unfold station_made in E; cbn [option_map] in E; congruence). reflexivity.
Qed.
Lemma time_same : forall e y mo a a', from r_TIME (fun m => time_from_metar e m y mo) a -> from r_TIME (fun m => time_from_metar e m y mo) a' -> t_code a = t_code a' -> a = a'.
Proof.
  intros e y mo. apply (from_same r_TIME (fun m => time_from_metar e m y mo)); [intros m a; apply time_code|].
  intros a E. unfold time_from_metar in E. unfold time_new in E. binds E. match type of E with Ok ?a = Ok ?b => assert (K : b = a) by congruence; rewrite K; reflexivity end.
Qed.

Lemma forall_decided : forall A (P : A -> Prop) (code : A -> option str) l l', (forall a a', P a -> P a' -> code a = code a' -> a = a') ->
  Forall P l -> Forall P l' -> decided code l l'.
Proof. intros A P code l l' H F F' a a' I I'. apply H; [exact (proj1 (Forall_forall P l) F a I)|exact (proj1 (Forall_forall P l') F' a' I')]. Qed.

Lemma wind_grouped : forall m m', m_string m = m_string m' -> m_spans m = m_spans m' -> metar_wind_new (Some m) = metar_wind_new (Some m').
Proof. intros [a b c d] [a' b' c' d'] E1 E2. cbn [m_string m_spans] in E1, E2. subst a' d'. reflexivity. Qed.
Lemma vis_grouped : forall m m', m_string m = m_string m' -> m_spans m = m_spans m' -> prevailing_new (Some m) = prevailing_new (Some m').
Proof. intros [a b c d] [a' b' c' d'] E1 E2. cbn [m_string m_spans] in E1, E2. subst a' d'. reflexivity. Qed.
Lemma winds_alike : agree r_WIND r_T_WIND = true.
Proof. vm_compute. reflexivity. Qed.
Lemma sights_alike : agree r_VISIBILITY r_T_VISIBILITY = true.
Proof. vm_compute. reflexivity. Qed.

Definition winded : metar_wind -> Prop := either r_WIND r_T_WIND metar_wind_new.
Definition sighted : visibility -> Prop := either r_VISIBILITY r_T_VISIBILITY prevailing_new.
Lemma winded_same : forall a a', winded a -> winded a' -> w_code a = w_code a' -> a = a'.
Proof. apply either_same; [exact wind_code|intros a E; none E|exact winds_alike|exact wind_grouped]. Qed.
Lemma sighted_same : forall a a', sighted a -> sighted a' -> v_code a = v_code a' -> a = a'.
Proof. apply either_same; [exact vis_code|intros a E; none E|exact sights_alike|exact vis_grouped]. Qed.

Definition part (c : common) : Prop :=
  winded (c_wind c) /\ sighted (c_vis c) /\ Forall (read r_WEATHER weather_made) (gl_list (c_weathers c)) /\ Forall (read r_CLOUD cloud_from_metar) (gl_list (c_clouds c)).
Lemma part_winds : forall l, Forall part l -> Forall winded (winds l).
Proof. intros l F. unfold winds. apply Forall_map. eapply Forall_impl; [|exact F]. intros c H. exact (proj1 H). Qed.
Lemma part_sights : forall l, Forall part l -> Forall sighted (sights l).
Proof. intros l F. unfold sights. apply Forall_map. eapply Forall_impl; [|exact F]. intros c H. exact (proj1 (proj2 H)). Qed.
Lemma part_phenomena : forall l, Forall part l -> Forall (read r_WEATHER weather_made) (phenomena l).
Proof.
  intros l F. unfold phenomena. induction F as [|c l (_ & _ & H & _) F IH]; [constructor|]. cbn [flat_map]. apply Forall_app. split; [exact H|exact IH].
Qed.
Lemma part_layers : forall l, Forall part l -> Forall (read r_CLOUD cloud_from_metar) (layers l).
Proof.
  intros l F. unfold layers. induction F as [|c l (_ & _ & _ & H) F IH]; [constructor|]. cbn [flat_map]. apply Forall_app. split; [exact H|exact IH].
Qed.
Theorem parts_alike : forall l l', Forall part l -> Forall part l' -> alike l l'.
Proof.
  intros l l' F F'. split; [|split; [|split]].
  - apply (forall_decided _ _ _ _ _ winded_same); apply part_winds; assumption.
  - apply (forall_decided _ _ _ _ _ sighted_same); apply part_sights; assumption.
  - apply (forall_decided _ _ _ _ _ weather_same); apply part_phenomena; assumption.
  - apply (forall_decided _ _ _ _ _ cloud_same); apply part_layers; assumption.
Qed.

Lemma metar_parted : forall e code y mo tr x, metar_parse e code y mo tr = Ok x -> Forall part (metar_parts x).
Proof.
  intros e code y mo tr x E. apply metar_drawn_parsed in E. destruct E as (_ & _ & H & T). unfold metar_parts.
  assert (K : forall c, drawn r_WIND r_VISIBILITY c -> part c) by (intros c (A & B & C); split; [left; exact A|split; [left; exact B|exact C]]).
  constructor; [exact (K _ H)|]. apply Forall_map. eapply Forall_impl; [|exact T]. intros p Hp. exact (K _ Hp).
Qed.
Lemma taf_parted : forall e code y mo tr x, taf_parse e code y mo tr = Ok x -> Forall part (taf_parts x).
Proof.
  intros e code y mo tr x E. apply taf_drawn_parsed in E. destruct E as (_ & H & T). unfold taf_parts.
  constructor; [destruct H as (A & B & C); split; [right; exact A|split; [right; exact B|exact C]]|].
  apply Forall_map. eapply Forall_impl; [|exact T]. intros p (A & B & C). split; [right; exact A|split; [left; exact B|exact C]].
Qed.

Theorem metar_decided : forall e code y mo tr x e' code' y' mo' tr' x',
  metar_parse e code y mo tr = Ok x -> metar_parse e' code' y' mo' tr' = Ok x' ->
  alike (metar_parts x) (metar_parts x')
  /\ decided mo_code [me_modifier x] [me_modifier x'] /\ decided wv_code [me_wvar x] [me_wvar x']
  /\ decided v_code [me_minvis x] [me_minvis x'] /\ decided rr_code (gl_list (me_rvr x)) (gl_list (me_rvr x'))
  /\ decided te_code [me_temps x] [me_temps x'] /\ decided pr_code [me_press x] [me_press x']
  /\ decided rw_code [me_recent x] [me_recent x'] /\ decided ws_code (gl_list (me_ws x)) (gl_list (me_ws x'))
  /\ decided se_code [me_sea x] [me_sea x'] /\ decided rs_code [me_rwy x] [me_rwy x'].
Proof.
  intros e code y mo tr x e' code' y' mo' tr' x' E E'.
  split; [exact (parts_alike _ _ (metar_parted _ _ _ _ _ _ E) (metar_parted _ _ _ _ _ _ E'))|].
  apply metar_drawn_parsed in E. apply metar_drawn_parsed in E'.
  destruct E as ((A1 & A2 & A3 & A4 & A5 & A6) & (B1 & B2 & B3 & B4 & B5 & B6) & _).
  destruct E' as ((A1' & A2' & A3' & A4' & A5' & A6') & (B1' & B2' & B3' & B4' & B5' & B6') & _).
  assert (One : forall A (Q : A -> Prop) (c : A -> option str) a a', (forall a a', Q a -> Q a' -> c a = c a' -> a = a') -> Q a -> Q a' -> decided c [a] [a'])
    by (intros A Q c a a' H Qa Qa'; apply (forall_decided A Q c); [exact H|constructor; [exact Qa|constructor]|constructor; [exact Qa'|constructor]]).
  split; [exact (One _ _ _ _ _ (modifier_same _) A3 A3')|]. split; [exact (One _ _ _ _ _ wvar_same A4 A4')|].
  split; [exact (One _ _ _ _ _ minvis_same A5 A5')|]. split; [exact (forall_decided _ _ _ _ _ rvr_same A6 A6')|].
  split; [exact (One _ _ _ _ _ temps_same B1 B1')|]. split; [exact (One _ _ _ _ _ press_same B2 B2')|].
  split; [exact (One _ _ _ _ _ recent_same B3 B3')|]. split; [exact (forall_decided _ _ _ _ _ shear_same B4 B4')|].
  split; [exact (One _ _ _ _ _ sea_same B5 B5')|exact (One _ _ _ _ _ runway_same B6 B6')].
Qed.

Theorem metar_head_decided : forall e y mo code tr x code' tr' x', metar_parse e code y mo tr = Ok x -> metar_parse e code' y mo tr' = Ok x' ->
  decided st_code [me_station x] [me_station x'] /\ decided t_code [me_time x] [me_time x'].
Proof.
  intros e y mo code tr x code' tr' x' E E'. apply metar_drawn_parsed in E. apply metar_drawn_parsed in E'.
  destruct E as ((A1 & A2 & _) & _). destruct E' as ((A1' & A2' & _) & _).
  split; intros a a' [<-|[]] [<-|[]] C; [exact (station_same _ _ _ A1 A1' C)|exact (time_same _ _ _ _ _ A2 A2' C)].
Qed.

Theorem taf_decided : forall e code y mo tr x e' code' y' mo' tr' x',
  taf_parse e code y mo tr = Ok x -> taf_parse e' code' y' mo' tr' = Ok x' ->
  alike (taf_parts x) (taf_parts x') /\ decided mo_code [ta_modifier x] [ta_modifier x'] /\ (e = e' -> decided st_code [ta_station x] [ta_station x']).
Proof.
  intros e code y mo tr x e' code' y' mo' tr' x' E E'.
  split; [exact (parts_alike _ _ (taf_parted _ _ _ _ _ _ E) (taf_parted _ _ _ _ _ _ E'))|].
  apply taf_drawn_parsed in E. apply taf_drawn_parsed in E'. destruct E as ((A1 & A2) & _). destruct E' as ((A1' & A2') & _).
  split; [|intros <-]; intros a a' [<-|[]] [<-|[]] C; [exact (modifier_same _ _ _ A2 A2' C)|exact (station_same _ _ _ A1 A1' C)].
Qed.

Theorem both_decided : forall e code y mo tr x e' code' y' mo' tr' x',
  metar_parse e code y mo tr = Ok x -> taf_parse e' code' y' mo' tr' = Ok x' ->
  alike (metar_parts x) (taf_parts x') /\ (e = e' -> decided st_code [me_station x] [ta_station x']).
Proof.
  intros e code y mo tr x e' code' y' mo' tr' x' E E'.
  split; [exact (parts_alike _ _ (metar_parted _ _ _ _ _ _ E) (taf_parted _ _ _ _ _ _ E'))|].
  apply metar_drawn_parsed in E. apply taf_drawn_parsed in E'. destruct E as ((A1 & _) & _). destruct E' as ((A1' & _) & _).
  intros <-. intros a a' [<-|[]] [<-|[]] C. exact (station_same e _ _ A1 A1' C).
Qed.
