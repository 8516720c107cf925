(** * What is written on the standard output (C53) *)
From Coq Require Import String Ascii.
From Coq Require Import List NArith ZArith Bool Lia.
From Verif Require Import PyBase PyRegex AeroRegex PyFloat PyTime Utils Base MetarGroups Trend Metar
  SpecNum SpecGroups SpecTime SpecText SpecFailures TimeFacts ProofTime ProofValues Keeps Outcomes OutTime OutMetar OutReport ProofAbsent ProofCor.
Import ListNotations.
Local Open Scope string_scope.
Local Open Scope nat_scope.
Local Open Scope list_scope.

Definition timed (gs : list str) : Prop := exists g m, In g gs /\ re_match r_TREND_TIME_PERIOD g = Some m.

Lemma trend_step_out : forall i h m s s', nth_error trend_handlers i = Some h -> h_handle h m s = Ok s' ->
  cp_out s' = cp_out s \/ h_regexp h = r_TREND_TIME_PERIOD.
Proof.
  intros i h m s s' E Eh. unfold trend_handlers in E. cbn [nth_error] in E.
  nth_cases i E.
  all: try (destruct i; discriminate E).
  2,3: right; reflexivity.
  all: left; unfold cp_lift, handle_trend_indicator in Eh; cbv zeta in Eh; binds Eh;
    match type of Eh with Ok ?a = Ok ?z => assert (K : z = a) by congruence; rewrite K; reflexivity end.
Qed.

Lemma trend_run_out : forall gs index un s s' un', parse_groups trend_handlers gs index un s = Ok (s', un') ->
  cp_out s' = cp_out s \/ timed gs.
Proof.
  induction gs as [|g gs IH]; intros index un s s' un' E; cbn [parse_groups] in E; [left; congruence|].
  assert (W : forall t : timed gs, timed (g :: gs)) by (intros (a & b & I & M); exists a, b; split; [right; exact I|exact M]).
  destruct (first_match (skipn index trend_handlers) 0 g) as [[[k h] m]|] eqn:F.
  - apply first_match_nth in F. destruct F as (j & F & M & _). rewrite nth_skipn in F.
    destruct (h_handle h m s) as [s1|] eqn:Eh; [|discriminate]. cbn [bind] in E.
    destruct (trend_step_out _ _ _ _ _ F Eh) as [K|K].
    + rewrite <- K. destruct (IH _ _ _ _ _ E) as [P|P]; [left; exact P|right; exact (W P)].
    + right. exists g, m. split; [left; reflexivity|]. rewrite <- K. exact M.
  - destruct (IH _ _ _ _ _ E) as [P|P]; [left; exact P|right; exact (W P)].
Qed.

Lemma trend_out : forall code t p, change_period_new code t = Ok p -> cp_out p = [] \/ timed (trend_groups code).
Proof.
  intros code t p E. unfold change_period_new in E. cbv zeta in E.
  destruct (common_new []) as [c|]; [|discriminate]. cbn [bind] in E. destruct (trend_ind_new None t) as [i|]; [|discriminate].
  cbn [bind] in E. destruct (parse_section trend_handlers _ _) as [[q un]|] eqn:P; [|discriminate].
  cbn [bind] in E. unfold parse_section in P. apply trend_run_out in P. destruct P as [P|P]; [left|right; exact P].
  match type of E with Ok ?a = _ => replace p with a by congruence end. exact P.
Qed.

Lemma trends_out : forall l x x', handle_trends l x = Ok x' -> me_out x' = me_out x \/ exists w, In w l /\ timed (trend_groups w).
Proof.
  induction l as [|w l IH]; intros x x' E; cbn [handle_trends] in E; [left; congruence|].
  assert (Up : (exists v, In v l /\ timed (trend_groups v)) -> exists v, In v (w :: l) /\ timed (trend_groups v))
    by (intros (v & I & T); exists v; split; [right; exact I|exact T]).
  destruct w as [|c w]; [destruct (IH _ _ E) as [P|P]; [left; exact P|right; exact (Up P)]|].
  destruct (handle_weather_trend (c :: w) x) as [x1|] eqn:E1; [|discriminate]. cbn [bind] in E.
  unfold handle_weather_trend in E1. destruct (change_period_new (c :: w) (t_dt (me_time x))) as [p|] eqn:Ep; [|discriminate].
  cbn [bind] in E1. destruct (gl_add p (me_trends x)) as [g|]; [|discriminate]. cbn [bind] in E1.
  destruct (trend_out _ _ _ Ep) as [P|P]; [|right; exists (c :: w); split; [left; reflexivity|exact P]].
  destruct (IH _ _ E) as [Q|Q]; [left|right; exact (Up Q)]. rewrite Q.
  match type of E1 with Ok ?a = _ => replace x1 with a by congruence end.
  transitivity (me_out x ++ cp_out p); [reflexivity|]. rewrite P. apply app_nil_r.
Qed.

Lemma body_step_out : forall e y mo i h m s s', nth_error (metar_handlers e y mo) i = Some h -> h_handle h m s = Ok s' ->
  me_out s' = me_out s /\ me_sections s' = me_sections s.
Proof.
  intros e y mo k h m s s' E Eh. unfold metar_handlers in E. cbn [nth_error] in E.
  nth_cases k E.
  all: try (destruct k; discriminate E).
  all: unfold lift, handle_type, handle_station, handle_time, handle_modifier, handle_wind_variation, handle_minimum_visibility,
    handle_runway_range, handle_temperatures, handle_pressure,
    handle_recent_weather, handle_windshear, handle_sea_state, handle_runway_state in Eh; cbv zeta in Eh; binds Eh;
    match type of Eh with Ok ?a = Ok ?z => assert (K : z = a) by congruence; rewrite K; split; reflexivity end.
Qed.

Lemma body_run_out : forall e y mo gs index un s s' un', parse_groups (metar_handlers e y mo) gs index un s = Ok (s', un') ->
  me_out s' = me_out s /\ me_sections s' = me_sections s.
Proof.
  intros e y mo gs. induction gs as [|g gs IH]; intros index un s s' un' E; cbn [parse_groups] in E.
  { replace s' with s by congruence. auto. }
  destruct (first_match (skipn index (metar_handlers e y mo)) 0 g) as [[[k h] m]|] eqn:F; [|exact (IH _ _ _ _ _ E)].
  apply first_match_nth in F. destruct F as (j & F & M & _). rewrite nth_skipn in F.
  destruct (h_handle h m s) as [s1|] eqn:Eh; [|discriminate]. cbn [bind] in E.
  destruct (body_step_out _ _ _ _ _ _ _ _ F Eh) as [<- <-]. exact (IH _ _ _ _ _ E).
Qed.

Theorem metar_silent : forall e code y mo tr x, metar_parse e code y mo tr = Ok x -> me_out x <> [] ->
  exists p, contains (unsigned code) p /\ period p.
Proof.
  intros e code y mo tr x E N. unfold metar_parse, report_raw_code in E.
  destruct code as [|c code0]; [discriminate|]. cbn [bind] in E. set (code := c :: code0) in *.
  destruct (metar_init e (normalise code) y mo) as [x0|] eqn:E0; [|discriminate]. cbn [bind] in E.
  assert (S0 : me_sections x0 = metar_sections (normalise code) /\ me_out x0 = []).
  { unfold metar_init in E0. binds E0. match type of E0 with Ok ?z = _ => replace x0 with z by congruence end. split; reflexivity. }
  destruct (parse_body e y mo x0) as [x1|] eqn:E1; [|discriminate]. cbn [bind] in E.
  assert (S1 : me_sections x1 = metar_sections (normalise code) /\ me_out x1 = []).
  { unfold parse_body, parse_section in E1. destruct (parse_groups _ _ 0 [] x0) as [[z un]|] eqn:P; [|discriminate]. cbn [bind] in E1.
    apply body_run_out in P. destruct P as [P1 P2]. rewrite (proj1 S0) in P2. rewrite (proj2 S0) in P1.
    match type of E1 with Ok ?z = _ => replace x1 with z by congruence end. split; [exact P2|exact P1]. }
  destruct S1 as [S1 O1]. unfold parse_weather_trend in E. rewrite S1 in E.
  destruct (handle_trends _ x1) as [x2|] eqn:E2; [|discriminate]. cbn [bind] in E.
  assert (O : me_out x = me_out x2).
  { destruct (gl_collect (me_trends x2)) as [l g]. cbv zeta in E.
    match type of E with match ?u with _ => _ end = _ => destruct u end; [|destruct tr; [discriminate|]];
      match type of E with Ok ?a = _ => replace x with a by congruence end; reflexivity. }
  apply trends_out in E2. destruct E2 as [E2|(w & Iw & (g & m & Ig & M))].
  { exfalso. apply N. rewrite O, E2. exact O1. }
  destruct (period_match g m M) as (p & a & b & h & mi & C & P & _). exists p. split; [|exact P].
  pose proof (trend_groups_weaker code w Iw) as Bw. unfold holds_all in Bw. rewrite Forall_forall in Bw.
  exact (Bw g Ig p (period_solid p P) C).
Qed.
