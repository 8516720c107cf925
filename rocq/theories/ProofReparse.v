(** * Reading the raw code of a report again (C73): proof *)
From Coq Require Import String Ascii.
From Coq Require Import List NArith ZArith Bool Lia.
From Verif Require Import PyBase PyRegex AeroRegex PyTime Utils StrFacts Base MetarGroups Trend Metar Taf SpecText ProofText SpecBare ProofBare
  ProofProb ProofAbsent.
Import ListNotations.
Local Open Scope string_scope.
Local Open Scope nat_scope.
Local Open Scope list_scope.

Ltac closing E := match type of E with Ok ?a = Ok ?b => let K := fresh "K" in assert (K : a = b) by congruence; rewrite <- K end.

(** ** The raw code is kept *)

Lemma metar_handler_raw : forall e y mo h m s s', In h (metar_handlers e y mo) -> h_handle h m s = Ok s' -> me_raw s' = me_raw s.
Proof.
  intros e y mo h m s s' I Eh. unfold metar_handlers in I. cbn [In] in I.
  repeat (destruct I as [<-|I]; [cbn [h_handle] in Eh|]); try contradiction;
    unfold lift, handle_type, handle_station, handle_time, handle_modifier, handle_wind_variation, handle_minimum_visibility,
      handle_runway_range, handle_temperatures, handle_pressure, handle_recent_weather, handle_windshear, handle_sea_state,
      handle_runway_state in Eh; cbv zeta in Eh; binds Eh; closing Eh; reflexivity.
Qed.

Lemma trends_raw : forall l x x', handle_trends l x = Ok x' -> me_raw x' = me_raw x.
Proof.
  induction l as [|w l IH]; intros x x' E; cbn [handle_trends] in E; [injection E as <-; reflexivity|].
  destruct w as [|c w]; [exact (IH _ _ E)|]. unfold handle_weather_trend in E.
  destruct (change_period_new (c :: w) _) as [p|]; [|discriminate E]. cbn [bind] in E.
  destruct (gl_add p (me_trends x)) as [g|]; [|discriminate E]. cbn [bind] in E. exact (IH _ _ E).
Qed.

Lemma metar_raw : forall e code y mo tr x, metar_parse e code y mo tr = Ok x -> report_raw_code code = Ok (me_raw x).
Proof.
  intros e code y mo tr x E. unfold metar_parse in E. destruct (report_raw_code code) as [raw|]; [|discriminate E]. cbn [bind] in E.
  destruct (metar_init e raw y mo) as [x0|] eqn:E0; [|discriminate E]. cbn [bind] in E.
  assert (R0 : me_raw x0 = raw) by (unfold metar_init in E0; binds E0; closing E0; reflexivity).
  unfold parse_body in E. destruct (parse_section (metar_handlers e y mo) _ x0) as [[x1 un]|] eqn:E1; [|discriminate E]. cbn [bind] in E.
  apply (parse_section_inv _ (fun x => me_raw x = raw)) in E1; [|intros h m s s' I Eh K; rewrite (metar_handler_raw _ _ _ _ _ _ _ I Eh); exact K|exact R0].
  unfold parse_weather_trend in E. destruct (handle_trends _ _) as [x2|] eqn:E2; [|discriminate E]. cbn [bind] in E.
  apply trends_raw in E2. cbn [me_raw upd_unparsed] in E2.
  destruct (gl_collect (me_trends x2)) as [l g]. cbv zeta in E. set (x3 := upd_unparsed _ _) in E.
  assert (X : x = x3) by (destruct (me_unparsed x3); [congruence|]; destruct tr; [discriminate E|congruence]).
  rewrite X. cbn [me_raw x3 upd_unparsed upd_trends]. rewrite E2, E1. reflexivity.
Qed.

Lemma taf_handler_raw : forall e y mo h m s s', In h (taf_handlers e y mo) -> h_handle h m s = Ok s' -> ta_raw s' = ta_raw s.
Proof.
  intros e y mo h m s s' I Eh. unfold taf_handlers in I. cbn [In] in I.
  repeat (destruct I as [<-|I]; [cbn [h_handle] in Eh|]); try contradiction;
    unfold thandle_type, thandle_modifier, thandle_station, thandle_time, thandle_missing, thandle_valid, thandle_cancelled, tlift,
      thandle_temperature in Eh; cbv zeta in Eh; binds Eh; try (destruct (opt_str_eqb _ _); binds Eh); closing Eh; reflexivity.
Qed.

Lemma changes_raw : forall l x x', handle_changes l x = Ok x' -> ta_raw x' = ta_raw x.
Proof.
  induction l as [|w l IH]; intros x x' E; cbn [handle_changes] in E; [injection E as <-; reflexivity|].
  destruct w as [|c w]; [exact (IH _ _ E)|]. unfold handle_change_forecasted in E.
  destruct (change_fc_new (c :: w) _) as [p|]; [|discriminate E]. cbn [bind] in E.
  destruct (changes_add p (ta_changes x)) as [g|]; [|discriminate E]. cbn [bind] in E. exact (IH _ _ E).
Qed.

Lemma taf_raw : forall e code y mo tr x, taf_parse e code y mo tr = Ok x -> report_raw_code code = Ok (ta_raw x).
Proof.
  intros e code y mo tr x E. unfold taf_parse in E. destruct (report_raw_code code) as [raw|]; [|discriminate E]. cbn [bind] in E.
  destruct (taf_init e raw) as [x0|] eqn:E0; [|discriminate E]. cbn [bind] in E.
  assert (R0 : ta_raw x0 = raw).
  { unfold taf_init in E0. destruct (taf_split raw) as [bp cs]. binds E0. closing E0. reflexivity. }
  unfold taf_parse_body in E. destruct (parse_section (taf_handlers e y mo) _ x0) as [[x1 un]|] eqn:E1; [|discriminate E]. cbn [bind] in E.
  apply (parse_section_inv _ (fun x => ta_raw x = raw)) in E1; [|intros h m s s' I Eh K; rewrite (taf_handler_raw _ _ _ _ _ _ _ I Eh); exact K|exact R0].
  unfold parse_changes_forecasted in E. destruct (handle_changes _ _) as [x2|] eqn:E2; [|discriminate E]. cbn [bind] in E.
  apply changes_raw in E2. cbn [ta_raw tupd_unparsed] in E2.
  destruct (gl_collect (ta_changes x2)) as [l g]. cbv zeta in E. set (x3 := tupd_unparsed _ _) in E.
  assert (X : x = x3) by (destruct (ta_unparsed x3); [congruence|]; destruct tr; [discriminate E|congruence]).
  rewrite X. cbn [ta_raw x3 tupd_unparsed tupd_changes]. rewrite E2, E1. reflexivity.
Qed.

(** ** Reading again *)

Lemma metar_again : forall e code y mo tr x, metar_parse e code y mo tr = Ok x ->
  (metar_parse e (me_raw x) y mo tr = Ok x <-> has_ink code /\ ~ bare code).
Proof.
  intros e code y mo tr x E. pose proof (metar_raw _ _ _ _ _ _ E) as R. rewrite <- raw_final. split.
  - intro A. exists (me_raw x). split; [exact R|exact (metar_raw _ _ _ _ _ _ A)].
  - intros (raw & R1 & R2). assert (Q : raw = me_raw x) by congruence. subst raw.
    unfold metar_parse in *. rewrite R in E. rewrite R2. exact E.
Qed.

Lemma taf_again : forall e code y mo tr x, taf_parse e code y mo tr = Ok x ->
  (taf_parse e (ta_raw x) y mo tr = Ok x <-> has_ink code /\ ~ bare code).
Proof.
  intros e code y mo tr x E. pose proof (taf_raw _ _ _ _ _ _ E) as R. rewrite <- raw_final. split.
  - intro A. exists (ta_raw x). split; [exact R|exact (taf_raw _ _ _ _ _ _ A)].
  - intros (raw & R1 & R2). assert (Q : raw = ta_raw x) by congruence. subst raw.
    unfold taf_parse in *. rewrite R in E. rewrite R2. exact E.
Qed.
