(** * Proofs: what a METAR prints (C53) *)
From Coq Require Import String Ascii.
From Coq Require Import List NArith ZArith Bool Lia.
From Verif Require Import PyBase PyRegex AeroRegex PyFloat PyTime Utils Base MetarGroups Trend Metar Taf SpecText SpecFailures SpecPrint
  StrFacts ProofValues ProofLists ProofProb Outcomes OutTime OutMetar ProofFailures ProofAbsent ProofApart ProofKeptReport.
Import ListNotations.
Local Open Scope string_scope.
Local Open Scope nat_scope.
Local Open Scope list_scope.
Local Opaque dt_add_minutes dt_add_hours.

Definition start_or (k : nat) (p : change_period) : Prop :=
  printed_as p /\ (cp_out p = [] <-> untimed p) /\ (k = 0 -> ti_code (cp_ind p) = None).

Lemma ind_none : forall m t i, trend_ind_new m t = Ok i -> t_code (ti_from i) = None /\ t_code (ti_until i) = None /\ ti_at i = None.
Proof.
  intros m t i E. unfold trend_ind_new in E. destruct (change_indicator_new m) as [ct|]; [|discriminate E]. cbn [bind] in E. cbv zeta in E.
  destruct (dt_add_hours t 2) as [u|]; [|discriminate E]. cbn [bind] in E. injection E as <-. auto.
Qed.

Lemma printed_step : forall (g : str) k h m p, nth_error trend_handlers k = Some h -> ~ In 32%N g -> re_match (h_regexp h) g = Some m ->
  start_or k p -> outcome (fun _ => True) (start_or (S k)) (h_handle h m p).
Proof.
  intros g k h m p Ek Ng M (H0 & H2 & H1).
  assert (Em : m_string m = g) by exact (re_match_string _ _ _ M).
  assert (L : forall f, outcome (fun _ => True) (start_or (S k)) (cp_lift f m p)).
  { intros f. unfold cp_lift. destruct (f m (cp_common p)) as [c|]; cbn [bind outcome]; [|exact I]. split; [exact H0|]. split; [exact H2|discriminate]. }
  assert (T : re_match r_TREND_TIME_PERIOD g = Some m -> outcome (fun _ => True) (start_or (S k)) (handle_time_period m p)).
  { intros Mt. unfold handle_time_period. unfold printed_as in H0. unfold add_period. destruct (ti_code (cp_ind p)) as [c|] eqn:C; [|exact I].
    destruct (int_of_opt (group m "hour")) as [hour|]; cbn [bind outcome]; [|exact I].
    destruct (int_of_opt (group m "min")) as [minute|]; cbn [bind outcome]; [|exact I].
    destruct (period_time (cp_ind p) hour minute) as [t|]; cbn [bind outcome]; [|exact I].
    destruct H0 as (w & l & -> & S1 & S3 & _).
    assert (D : timed g) by (destruct (period_match g m Mt) as (x & _ & _ & _ & _ & Cx & Px & _); exists x; auto).
    cbv zeta. rewrite Em. match goal with |- outcome _ _ (bind ?r _) => set (i := r) end.
    assert (Q : exists i', i = Ok i' /\ ti_code i' = Some (w ++ flat_map (fun v => py " " ++ v) (l ++ [g]))
      /\ ~ (t_code (ti_from i') = None /\ t_code (ti_until i') = None /\ ti_at i' = None)).
    { unfold i. rewrite flat_map_app. cbn [flat_map]. rewrite app_nil_r, <- app_assoc.
      destruct (opt_str_eqb _ _); [|destruct (opt_str_eqb _ _)]; eexists; (split; [reflexivity|]; split; [reflexivity|]); cbn; intros (Q1 & Q2 & Q3);
        [discriminate Q1|discriminate Q2|discriminate Q3]. }
    destruct Q as (i' & -> & Ci & Ui). cbn [bind outcome]. split; [|split; [|discriminate]].
    - unfold printed_as. cbn [cp_ind cp_out]. rewrite Ci.
      exists w, (l ++ [g]). split; [reflexivity|]. split; [apply Forall_app; split; [exact S1|repeat constructor; assumption]|].
      rewrite !app_length. cbn [length]. split; [lia|]. intros _. apply last_last.
    - unfold untimed. cbn [cp_ind cp_out]. split; [intros Q; destruct (cp_out p); discriminate Q|intros Q; contradiction]. }
  unfold trend_handlers in Ek. nth_cases k Ek; try (destruct k; discriminate Ek); try apply L; try (apply T; exact M).
  unfold handle_trend_indicator. destruct (trend_ind_new (Some m) _) as [i|] eqn:Ei; cbn [bind outcome]; [|exact I].
  unfold printed_as in H0. rewrite (H1 eq_refl) in H0.
  split; [|split; [|discriminate]].
  - unfold printed_as. cbn [cp_ind cp_out]. destruct (ti_code i) as [c|]; [|exact H0].
    exists c, []. rewrite app_nil_r. split; [reflexivity|]. split; [constructor|]. rewrite H0. split; [reflexivity|]. intros N. contradiction.
  - unfold untimed. cbn [cp_ind cp_out]. rewrite H0. split; [intros _; exact (ind_none _ _ _ Ei)|reflexivity].
Qed.

Lemma trend_printed : forall code t p, change_period_new code t = Ok p -> printed_as p /\ (cp_out p = [] <-> untimed p).
Proof.
  intros code t p E. unfold change_period_new in E. cbv zeta in E. destruct (common_new []) as [c|]; [|discriminate E]. cbn [bind] in E.
  destruct (trend_ind_new None t) as [i|] eqn:Ei; [|discriminate E]. cbn [bind] in E.
  assert (C : ti_code i = None).
  { unfold trend_ind_new in Ei. cbn [change_indicator_new bind] in Ei. cbv zeta in Ei. destruct (dt_add_hours t 2); [|discriminate Ei]. cbn [bind] in Ei.
    injection Ei as <-. reflexivity. }
  match type of E with context [parse_section ?h ?s ?x] =>
    pose proof (parse_section_outcome _ h start_or (fun _ _ => True) s x) as K; destruct (parse_section h s x) as [[q un]|] eqn:P; [|discriminate E] end.
  cbn [bind] in E. injection E as <-. cbn [outcome fst] in K. destruct K as (k & K1 & K2 & _).
  - intros a b st L (A & B & D). split; [exact A|]. split; [exact B|]. intros Z. apply D. lia.
  - intros k h g m st Ek Ig M J. apply (printed_step g k h m st Ek); [|exact M|exact J]. exact (split_on_parts _ _ _ Ig).
  - split; [unfold printed_as; cbn [cp_ind cp_out]; rewrite C; reflexivity|]. cbn [cp_ind cp_out]. split; [|intros _; exact C].
    unfold untimed. cbn [cp_ind]. split; [intros _; exact (ind_none _ _ _ Ei)|reflexivity].
  - split; [exact K1|exact K2].
Qed.

Lemma trends_printed : forall l x x', handle_trends l x = Ok x' -> me_out x = flat_map cp_out (gl_list (me_trends x)) ->
  Forall (fun p => printed_as p /\ (cp_out p = [] <-> untimed p)) (gl_list (me_trends x)) ->
  me_out x' = flat_map cp_out (gl_list (me_trends x')) /\ Forall (fun p => printed_as p /\ (cp_out p = [] <-> untimed p)) (gl_list (me_trends x')).
Proof.
  induction l as [|w l IH]; intros x x' E O F; cbn [handle_trends] in E; [injection E as <-; auto|]. destruct w as [|c w]; [exact (IH _ _ E O F)|].
  unfold handle_weather_trend in E. destruct (change_period_new (c :: w) _) as [p|] eqn:C; [|discriminate E]. cbn [bind] in E.
  destruct (gl_add p (me_trends x)) as [g|] eqn:G; [|discriminate E]. cbn [bind] in E. apply IH in E; [exact E| |].
  - cbn [me_out me_trends out_string upd_common upd_out upd_trends]. rewrite (gl_add_list _ _ _ _ G), flat_map_app, O. cbn [flat_map]. rewrite app_nil_r. reflexivity.
  - cbn [me_out me_trends out_string upd_common upd_out upd_trends]. rewrite (gl_add_list _ _ _ _ G). apply Forall_app. split; [exact F|].
    constructor; [exact (trend_printed _ _ _ C)|constructor].
Qed.

Lemma metar_handler_out : forall e y mo h m s s', In h (metar_handlers e y mo) -> h_handle h m s = Ok s' -> me_out s' = me_out s.
Proof.
  intros e y mo h m s s' I Eh. unfold metar_handlers in I. cbn [In] in I.
  repeat (destruct I as [<-|I]; [cbn [h_handle] in Eh|]); try contradiction;
    unfold lift, handle_type, handle_station, handle_time, handle_modifier, handle_wind_variation, handle_minimum_visibility,
      handle_runway_range, handle_temperatures, handle_pressure, handle_recent_weather, handle_windshear, handle_sea_state,
      handle_runway_state in Eh; cbv zeta in Eh; binds Eh;
    match type of Eh with Ok ?a = Ok s' => transitivity (me_out a); [congruence|reflexivity] end.
Qed.

Lemma metar_printed : forall e code y mo tr x, metar_parse e code y mo tr = Ok x ->
  me_out x = flat_map cp_out (gl_list (me_trends x)) /\ Forall printed_as (gl_list (me_trends x))
  /\ (me_out x = [] <-> Forall untimed (gl_list (me_trends x))).
Proof.
  intros e code y mo tr x E. unfold metar_parse in E. destruct (report_raw_code code) as [raw|]; [|discriminate E]. cbn [bind] in E.
  destruct (metar_init e raw y mo) as [x0|] eqn:E0; [|discriminate E]. cbn [bind] in E.
  destruct (metar_fresh _ _ _ _ _ E0) as (_ & _ & F3).
  assert (F4 : me_out x0 = []) by (unfold metar_init in E0; binds E0; injection E0 as <-; reflexivity). clear E0.
  unfold parse_body in E. destruct (parse_section (metar_handlers e y mo) _ x0) as [[x1 un]|] eqn:E1; [|discriminate E]. cbn [bind] in E.
  assert (K : me_trends x1 = me_trends x0 /\ me_out x1 = me_out x0).
  { apply (parse_section_inv _ (fun x => me_trends x = me_trends x0 /\ me_out x = me_out x0)) in E1; [exact E1| |auto].
    intros h m s s' I Eh [K1 K2]. rewrite (metar_handler_trends _ _ _ _ _ _ _ I Eh), (metar_handler_out _ _ _ _ _ _ _ I Eh). auto. }
  destruct K as [K1 K2]. rewrite F3 in K1. rewrite F4 in K2.
  unfold parse_weather_trend in E. destruct (handle_trends _ _) as [x2|] eqn:E2; [|discriminate E]. cbn [bind] in E.
  apply trends_printed in E2; [|cbn [me_out me_trends upd_unparsed]; rewrite K1, K2; reflexivity|cbn [me_trends upd_unparsed]; rewrite K1; constructor].
  pose proof (collect_list _ (me_trends x2)) as Cl. destruct (gl_collect (me_trends x2)) as [l g]. cbn [snd] in Cl. cbv zeta in E.
  assert (X : x = upd_unparsed (me_unparsed x2 ++ flat_map cp_unparsed l) (upd_trends g x2)).
  { destruct (me_unparsed (upd_unparsed _ _)) as [|u us] in E; [congruence|]. destruct tr; [discriminate E|congruence]. }
  rewrite X. cbn [me_out me_trends upd_unparsed upd_trends]. rewrite Cl. destruct E2 as [Q1 Q2]. split; [exact Q1|].
  split; [eapply Forall_impl; [|exact Q2]; intros p [P _]; exact P|]. rewrite Q1. clear - Q2.
  induction (gl_list (me_trends x2)) as [|p ps IH]; [split; [constructor|reflexivity]|]. cbn [flat_map]. specialize (IH (Forall_inv_tail Q2)).
  destruct (Forall_inv Q2) as [_ P]. split.
  - intros Z. apply app_eq_nil in Z. destruct Z as [Z1 Z2]. constructor; [apply P; exact Z1|apply IH; exact Z2].
  - intros F. rewrite (proj2 P (Forall_inv F)), (proj2 IH (Forall_inv_tail F)). reflexivity.
Qed.
