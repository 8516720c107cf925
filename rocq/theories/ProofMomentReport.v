(** * The moments of a whole report (C63) *)
From Coq Require Import String Ascii.
From Coq Require Import List NArith ZArith Bool Lia.
From Verif Require Import PyBase PyRegex AeroRegex PyFloat PyTime Utils Base MetarGroups Trend Metar Taf
  SpecNum SpecTime SpecMetar TimeFacts ProofTime ProofProb SpecFailures Outcomes OutTime ProofValues ProofAbsent ProofAbsentTaf
  ProofRangeReport ProofKeptReport ProofKeptTaf ProofStr ProofMetarText SpecMoment ProofMoment.
Import ListNotations.
Local Open Scope string_scope.
Local Open Scope nat_scope.
Local Open Scope list_scope.

(** ** METAR: the time of the report *)

Lemma metar_time_step : forall (P : time -> Prop) e y mo,
  (forall g m t, re_match r_TIME g = Some m -> time_from_metar e (Some m) y mo = Ok t -> P t) ->
  forall h g m x x', In h (metar_handlers e y mo) -> re_match (h_regexp h) g = Some m -> h_handle h m x = Ok x' ->
  P (me_time x) -> P (me_time x').
Proof.
  intros P e y mo HP h g m x x' I M E H. unfold metar_handlers in I. cbn [In] in I.
  assert (Same : forall x1, Ok x1 = Ok x' -> P (me_time x1) -> P (me_time x')).
  { intros x1 K O. assert (x' = x1) by congruence. subst x'. exact O. }
  assert (L : forall f, lift f m x = Ok x' -> P (me_time x')).
  { intros f Ef. unfold lift in Ef. binds Ef. exact (Same _ Ef H). }
  repeat (destruct I as [<-|I]; [cbn [h_handle h_regexp] in E, M|]); try contradiction; try exact (L _ E).
  all: try (unfold handle_type, handle_station, handle_modifier, handle_recent_weather, handle_runway_state, handle_windshear,
    handle_wind_variation, handle_minimum_visibility, handle_runway_range, handle_temperatures, handle_pressure, handle_sea_state in E;
    cbv zeta in E; binds E; exact (Same _ E H)).
  unfold handle_time in E. destruct (time_from_metar e (Some m) y mo) as [t|] eqn:T; [|discriminate E]. cbn [bind] in E.
  exact (Same _ E (HP g m t M T)).
Qed.

(** The trends of a METAR are read after its body. *)
Lemma trends_time : forall l x x', handle_trends l x = Ok x' -> me_time x' = me_time x.
Proof.
  intros l. induction l as [|w l IH]; intros x x' E; cbn [handle_trends] in E; [injection E as <-; reflexivity|].
  destruct w as [|c w]; [exact (IH _ _ E)|]. unfold handle_weather_trend in E.
  destruct (change_period_new (c :: w) _) as [p|]; [|discriminate E]. cbn [bind] in E.
  destruct (gl_add p (me_trends x)) as [g|]; [|discriminate E]. cbn [bind] in E.
  rewrite (IH _ _ E). reflexivity.
Qed.

Lemma metar_time_inv : forall (P : time -> Prop) e code y mo tr x,
  (forall g m t, re_match r_TIME g = Some m -> time_from_metar e (Some m) y mo = Ok t -> P t) ->
  (forall t, time_from_metar e None y mo = Ok t -> P t) ->
  metar_parse e code y mo tr = Ok x -> P (me_time x).
Proof.
  intros P e code y mo tr x HP H0 E. unfold metar_parse in E. destruct (report_raw_code code) as [raw|]; [|discriminate E]. cbn [bind] in E.
  destruct (metar_init e raw y mo) as [x0|] eqn:E0; [|discriminate E]. cbn [bind] in E.
  assert (K0 : P (me_time x0)).
  { unfold metar_init in E0. destruct (time_new e None None None None None None); [|discriminate E0]. cbn [bind] in E0.
    destruct (common_new []) as [c|]; [|discriminate E0]. cbn [bind] in E0.
    destruct (time_from_metar e None y mo) as [t|] eqn:T; [|discriminate E0]. cbn [bind] in E0. binds E0. injection E0 as <-.
    exact (H0 t eq_refl). }
  unfold parse_body in E. destruct (parse_section (metar_handlers e y mo) _ x0) as [[x1 un]|] eqn:E1; [|discriminate E].
  cbn [bind] in E. apply (parse_section_keep _ (fun x => P (me_time x))) in E1; [|exact (metar_time_step P e y mo HP)|exact K0].
  unfold parse_weather_trend in E. destruct (handle_trends _ _) as [x2|] eqn:E2; [|discriminate E]. cbn [bind] in E.
  apply trends_time in E2. cbn [me_time upd_unparsed] in E2.
  destruct (gl_collect (me_trends x2)) as [l g]. cbv zeta in E.
  assert (X : x = upd_unparsed (me_unparsed x2 ++ flat_map cp_unparsed l) (upd_trends g x2)).
  { destruct (me_unparsed (upd_unparsed _ _)) as [|u us] in E; [congruence|]. destruct tr; [discriminate E|congruence]. }
  rewrite X. cbn [me_time upd_unparsed upd_trends]. rewrite E2. exact E1.
Qed.

(** ** METAR: the trends *)

Lemma trend_at_start : forall t, real_time t -> in_trend t (time_at t).
Proof.
  intros t R. split; [exact R|]. exists (Z.to_nat (dt_minute t)). pose proof R as (_ & _ & Hm). split; [cbn; lia|].
  apply later_of; [apply real_clock_ok, hour_start_real; exact R|apply real_clock_ok; exact R|].
  rewrite hour_start_minutes. cbn [time_at t_dt]. lia.
Qed.

(** [u] has the minute [mi] in the hour [j] hours after that of [t]. *)
Lemma trend_in_hour : forall t base mi u j c, real_time t -> real_time base ->
  dt_minutes base = (dt_minutes t + 60 * j)%Z -> (0 <= j <= 2)%Z -> (0 <= mi <= 59)%Z ->
  dt_add_minutes base (mi - dt_minute base) = Ok u -> in_trend t (mk_time c u).
Proof.
  intros t base mi u j c R Rb E Hj Hm A. apply add_real in A. destruct A as [Ru Mu]. split; [exact Ru|].
  exists (Z.to_nat (60 * j + mi)). split; [lia|].
  apply later_of; [apply real_clock_ok, hour_start_real; exact R|apply real_clock_ok; exact Ru|].
  rewrite hour_start_minutes. cbn [t_dt]. rewrite Mu.
  assert (S : dt_minute base = dt_minute t).
  { rewrite <- (minute_part t R), <- (minute_part base Rb), E. rewrite Z.mul_comm, Z.mod_add by lia. reflexivity. }
  lia.
Qed.

Lemma period_in_trend : forall t i h mi u c, ind_of t i -> (0 <= mi <= 59)%Z -> period_time i h mi = Ok u -> in_trend t (mk_time c u).
Proof.
  intros t i h mi u c (Ei & R & Re & Me) Hm E. unfold period_time in E. rewrite Ei in E.
  destruct (dt_add_hours t 1) as [mid|] eqn:A; [|discriminate E]. cbn [bind] in E. apply add_real in A. destruct A as [Rm Mm].
  destruct (h =? dt_hour t)%Z; [|destruct (h =? dt_hour mid)%Z].
  - apply (trend_in_hour t t mi u 0 c R R); try lia. exact E.
  - apply (trend_in_hour t mid mi u 1 c R Rm); try lia. exact E.
  - apply (trend_in_hour t _ mi u 2 c R Re); try lia. exact E.
Qed.

Definition ind_moments (t : datetime) (i : trend_ind) : Prop :=
  ind_of t i /\ in_trend t (ti_from i) /\ in_trend t (ti_until i)
  /\ (t_code (ti_from i) = None -> ti_from i = ti_init i)
  /\ (t_code (ti_until i) = None -> ti_until i = ti_end i)
  /\ forall u, ti_at i = Some u -> in_trend t u.

Lemma trend_ind_moments : forall m t i, real_time t -> trend_ind_new m t = Ok i -> ind_moments t i.
Proof.
  intros m t i R E. unfold trend_ind_new in E. destruct (change_indicator_new m) as [ct|]; [|discriminate E]. cbn [bind] in E. cbv zeta in E.
  destruct (dt_add_hours t 2) as [e|] eqn:A; [|discriminate E]. cbn [bind] in E. injection E as <-.
  apply add_real in A. destruct A as [Re Me]. change (2 * 60)%Z with 120%Z in Me.
  assert (T : in_trend t (time_at e)).
  { split; [exact Re|]. exists (Z.to_nat (120 + dt_minute t)). pose proof R as (_ & _ & Hm). split; [lia|].
    apply later_of; [apply real_clock_ok, hour_start_real; exact R|apply real_clock_ok; exact Re|].
    rewrite hour_start_minutes. cbn [time_at t_dt]. lia. }
  split; [split; [reflexivity|auto]|]. cbn [ti_from ti_until ti_at ti_init ti_end].
  split; [exact (trend_at_start t R)|]. split; [exact T|]. split; [reflexivity|]. split; [reflexivity|]. discriminate.
Qed.

Lemma add_period_moments : forall t g m i j, ind_moments t i -> re_match r_TREND_TIME_PERIOD g = Some m ->
  add_period m i = Ok j -> ind_moments t j.
Proof.
  intros t g m i j (I & F & U & Cf & Cu & A) M E.
  destruct (period_match g m M) as (x & a & b & h & mi & _ & _ & Ga & Gb & Ra & Rb & Bh & Bm & Es).
  unfold add_period in E. destruct (ti_code i) as [c|]; [|discriminate E]. rewrite Ga, Gb in E. unfold int_of_opt in E.
  rewrite (reads_int a h Ra), (reads_int b mi Rb) in E. cbn [bind] in E.
  destruct (period_time i (Z.of_N h) (Z.of_N mi)) as [u|] eqn:P; [|discriminate E]. cbn [bind] in E. cbv zeta in E.
  assert (T : in_trend t (time_at_code (m_string m) u)).
  { apply (period_in_trend t i (Z.of_N h) (Z.of_N mi)); [exact I|lia|exact P]. }
  assert (N : t_code (time_at_code (m_string m) u) <> None) by discriminate.
  destruct (opt_str_eqb _ _); [|destruct (opt_str_eqb _ _)]; injection E as <-;
    (split; [exact I|]); cbn [ti_from ti_until ti_at ti_init ti_end].
  - split; [exact T|]. split; [exact U|]. split; [intro K; contradiction|]. split; [exact Cu|exact A].
  - split; [exact F|]. split; [exact T|]. split; [exact Cf|]. split; [intro K; contradiction|exact A].
  - split; [exact F|]. split; [exact U|]. split; [exact Cf|]. split; [exact Cu|]. intros v K. injection K as <-. exact T.
Qed.

Lemma trend_step_moments : forall t h g m p p', In h trend_handlers -> re_match (h_regexp h) g = Some m -> h_handle h m p = Ok p' ->
  real_time t -> t_dt (cp_time p) = t /\ ind_moments t (cp_ind p) -> t_dt (cp_time p') = t /\ ind_moments t (cp_ind p').
Proof.
  intros t h g m p p' I M E R [H0 H]. unfold trend_handlers in I. cbn [In] in I.
  assert (L : forall f, cp_lift f m p = Ok p' -> t_dt (cp_time p') = t /\ ind_moments t (cp_ind p')).
  { intros f Ef. unfold cp_lift in Ef. binds Ef. injection Ef as <-. split; assumption. }
  repeat (destruct I as [<-|I]; [cbn [h_handle h_regexp] in E, M|]); try contradiction; try exact (L _ E).
  - unfold handle_trend_indicator in E. destruct (trend_ind_new _ _) as [i|] eqn:T; [|discriminate E]. cbn [bind] in E.
    injection E as <-. rewrite H0 in T. split; [exact H0|exact (trend_ind_moments _ _ _ R T)].
  - unfold handle_time_period in E. cbv zeta in E. destruct (add_period _ _) as [i|] eqn:T; [|discriminate E]. cbn [bind] in E.
    injection E as <-. split; [exact H0|exact (add_period_moments _ _ _ _ _ H M T)].
  - unfold handle_time_period in E. cbv zeta in E. destruct (add_period _ _) as [i|] eqn:T; [|discriminate E]. cbn [bind] in E.
    injection E as <-. split; [exact H0|exact (add_period_moments _ _ _ _ _ H M T)].
Qed.

Lemma trend_parsed_moments : forall code t p, real_time t -> change_period_new code t = Ok p -> trend_moments t p.
Proof.
  intros code t p R E. unfold change_period_new in E. cbv zeta in E.
  destruct (common_new []) as [c|]; [|discriminate E]. cbn [bind] in E.
  destruct (trend_ind_new None t) as [i|] eqn:T; [|discriminate E]. cbn [bind] in E. apply (trend_ind_moments _ _ _ R) in T.
  destruct (parse_section trend_handlers _ _) as [[q un]|] eqn:P; [|discriminate E]. cbn [bind] in E. injection E as <-.
  apply (parse_section_keep _ (fun q => t_dt (cp_time q) = t /\ ind_moments t (cp_ind q))) in P.
  - destruct P as [P0 ((P1 & P2 & P3 & P4) & F & U & Cf & Cu & A)]. unfold trend_moments. cbn [cp_ind cp_time].
    repeat (split; [assumption|]). split; [|repeat (split; [assumption|]); assumption].
    apply later_of; [apply real_clock_ok; exact R|apply real_clock_ok; exact P3|]. rewrite P4. reflexivity.
  - intros h g m s s' I M Eh K. exact (trend_step_moments t h g m s s' I M Eh R K).
  - split; [reflexivity|exact T].
Qed.

Lemma trends_parsed_moments : forall l x x', handle_trends l x = Ok x' -> real_time (t_dt (me_time x)) ->
  Forall (trend_moments (t_dt (me_time x))) (gl_list (me_trends x)) ->
  Forall (trend_moments (t_dt (me_time x))) (gl_list (me_trends x')).
Proof.
  intros l. induction l as [|w l IH]; intros x x' E H T; cbn [handle_trends] in E; [injection E as <-; auto|].
  destruct w as [|c w]; [exact (IH _ _ E H T)|]. unfold handle_weather_trend in E.
  destruct (change_period_new (c :: w) _) as [p|] eqn:C; [|discriminate E]. cbn [bind] in E. apply (trend_parsed_moments _ _ _ H) in C.
  destruct (gl_add p (me_trends x)) as [g|] eqn:G; [|discriminate E]. cbn [bind] in E.
  apply (IH _ _ E); [exact H|]. exact (gl_add_forall _ _ _ _ _ G C T).
Qed.

Theorem metar_moments_ok : forall e code y mo tr x, metar_parse e code y mo tr = Ok x -> metar_moments x.
Proof.
  intros e code y mo tr x E.
  pose proof (metar_time_inv (fun t => real_time (t_dt t)) e code y mo tr x (fun g m t _ H => from_metar_real _ _ _ _ _ H)
    (fun t H => from_metar_real _ _ _ _ _ H) E) as R. split; [exact R|].
  unfold metar_parse in E. destruct (report_raw_code code) as [raw|]; [|discriminate E]. cbn [bind] in E.
  destruct (metar_init e raw y mo) as [x0|] eqn:E0; [|discriminate E]. cbn [bind] in E.
  assert (K0 : gl_list (me_trends x0) = []).
  { unfold metar_init in E0. binds E0. injection E0 as <-. reflexivity. }
  unfold parse_body in E. destruct (parse_section (metar_handlers e y mo) _ x0) as [[x1 un]|] eqn:E1; [|discriminate E].
  cbn [bind] in E.
  assert (K1 : me_trends x1 = me_trends x0).
  { apply (parse_section_keep _ (fun x => me_trends x = me_trends x0)) in E1; [exact E1| |reflexivity].
    intros h g m s s' I _ Eh K. rewrite <- K. exact (metar_handler_trends _ _ _ _ _ _ _ I Eh). }
  unfold parse_weather_trend in E. destruct (handle_trends _ _) as [x2|] eqn:E2; [|discriminate E]. cbn [bind] in E.
  pose proof (trends_time _ _ _ E2) as T2. cbn [me_time upd_unparsed] in T2.
  pose proof (collect_list _ (me_trends x2)) as Cl. destruct (gl_collect (me_trends x2)) as [l g]. cbn [snd] in Cl. cbv zeta in E.
  assert (X : x = upd_unparsed (me_unparsed x2 ++ flat_map cp_unparsed l) (upd_trends g x2)).
  { destruct (me_unparsed (upd_unparsed _ _)) as [|u us] in E; [congruence|]. destruct tr; [discriminate E|congruence]. }
  rewrite X in R |- *. cbn [me_time me_trends upd_unparsed upd_trends] in R |- *. rewrite Cl. rewrite T2 in R |- *.
  apply trends_parsed_moments in E2; [exact E2|exact R|]. cbn [me_trends upd_unparsed]. rewrite K1, K0. constructor.
Qed.

(** ** TAF: the groups *)

Lemma whole_more : forall n n' t u, n <= n' -> whole_hour n t u -> whole_hour n' t u.
Proof. intros n n' t u L (R & M & D). split; [exact R|]. split; [exact M|]. exact (days_from_more _ _ _ _ L D). Qed.

Lemma valid_read : forall m t v, real_time t -> valid_from_taf (Some m) t = Ok v ->
  va_code v <> None /\ whole_hour 1 t (va_from v) /\ whole_hour 2 t (va_until v).
Proof.
  intros m t v R E. unfold valid_from_taf in E.
  destruct (dt_replace_minute t 0) as [t0|] eqn:E0; [|discriminate E]. cbn [bind] in E.
  destruct (replace_minute_real _ _ _ R E0) as (R0 & D0 & M0).
  destruct (int_of_opt (group m "fmday")) as [fd|]; [|discriminate E]. cbn [bind] in E.
  destruct (int_of_opt (group m "fmhour")) as [fh|]; [|discriminate E]. cbn [bind] in E.
  destruct (int_of_opt (group m "tlday")) as [td|]; [|discriminate E]. cbn [bind] in E.
  destruct (int_of_opt (group m "tlhour")) as [th|]; [|discriminate E]. cbn [bind] in E.
  assert (S : forall (c : bool) u, (if c then Ok t0 else dt_add_days t0 1) = Ok u -> real_time u /\ days_from 1 t u /\ dt_minute u = 0%Z).
  { intros c u Eu. destruct c.
    - assert (t0 = u) by congruence. subst u. split; [exact R0|]. split; [|exact M0].
      apply (days_from_date 1 t t t t0); [reflexivity|symmetry; exact D0|apply days_from_refl].
    - destruct (add_day_from 0 t t0 u R0) as (Ru & Du & Mu); [|exact Eu|split; [exact Ru|]; split; [exact Du|congruence]].
      apply (days_from_date 0 t t t t0); [reflexivity|symmetry; exact D0|apply days_from_refl]. }
  destruct (if (fd =? dt_day t0)%Z then _ else _) as [f|] eqn:Ef; [|discriminate E]. cbn [bind] in E.
  destruct (S _ _ Ef) as (Rf & Df & Mf).
  destruct (if (td =? dt_day t0)%Z then _ else _) as [u|] eqn:Eu; [|discriminate E]. cbn [bind] in E.
  destruct (S _ _ Eu) as (Ru & Du & Mu).
  destruct (if (th =? 24)%Z then _ else _) as [w|] eqn:Ew; [|discriminate E]. cbn [bind] in E. cbv zeta in E.
  assert (W : real_time w /\ days_from 2 t w /\ dt_minute w = 0%Z).
  { destruct (th =? 24)%Z.
    - destruct (add_day_from 1 t u w Ru Du Ew) as (A & B & C). split; [exact A|]. split; [exact B|congruence].
    - assert (u = w) by congruence. subst w. split; [exact Ru|]. split; [|exact Mu]. apply (days_from_more 1); [lia|exact Du]. }
  destruct W as (Rw & Dw & Mw).
  destruct (dt_replace_hour f fh) as [f'|] eqn:Ef'; [|discriminate E]. cbn [bind] in E.
  destruct (dt_replace_hour w _) as [w'|] eqn:Ew'; [|discriminate E]. cbn [bind] in E. injection E as <-.
  destruct (replace_hour_real _ _ _ Rf Ef') as (A1 & A2 & A3). destruct (replace_hour_real _ _ _ Rw Ew') as (B1 & B2 & B3).
  split; [discriminate|]. cbn [va_from va_until valid_new time_at t_dt].
  split; (split; [assumption|split; [cbn [time_at t_dt]; congruence|]]).
  - exact (days_from_date 1 t t f f' eq_refl (eq_sym A2) Df).
  - exact (days_from_date 2 t t w w' eq_refl (eq_sym B2) Dw).
Qed.

Lemma valid_unread : forall t v, real_time t -> valid_from_taf None t = Ok v ->
  va_code v = None /\ real_time (t_dt (va_from v)) /\ real_time (t_dt (va_until v)) /\ dt_minute (t_dt (va_from v)) = 0%Z
  /\ minutes_later 60 (hour_start t) (t_dt (va_from v)) /\ minutes_later 1440 (t_dt (va_from v)) (t_dt (va_until v)).
Proof.
  intros t v R E. unfold valid_from_taf in E.
  destruct (dt_replace_minute t 0) as [t0|] eqn:E0; [|discriminate E]. cbn [bind] in E.
  assert (H0 : t0 = hour_start t) by (injection E0 as <-; reflexivity). subst t0.
  pose proof (hour_start_real t R) as Rh.
  destruct (dt_add_hours (hour_start t) 1) as [a|] eqn:Ea; [|discriminate E]. cbn [bind] in E. apply add_real in Ea. destruct Ea as [Ra Ma].
  destruct (dt_add_hours a 24) as [b|] eqn:Eb; [|discriminate E]. cbn [bind] in E. apply add_real in Eb. destruct Eb as [Rb Mb].
  injection E as <-. cbn [va_code va_from va_until valid_new time_at t_dt group_code].
  split; [reflexivity|]. split; [exact Ra|]. split; [exact Rb|]. split.
  - rewrite <- (minute_part a Ra), Ma, hour_start_minutes. rewrite <- (minute_part t R).
    change (1 * 60)%Z with 60%Z. pose proof (Z.div_mod (dt_minutes t) 60). 
    replace (dt_minutes t - dt_minutes t mod 60 + 60)%Z with ((dt_minutes t / 60 + 1) * 60)%Z by lia. apply Z.mod_mul. lia.
  - split; (apply later_of; [apply real_clock_ok; assumption|apply real_clock_ok; assumption|]); [rewrite Ma|rewrite Mb]; reflexivity.
Qed.

Lemma temp_read : forall m t v, real_time t -> taf_temp_new m t = Ok v -> whole_hour 1 t (tt_time v).
Proof.
  intros m t v R E. unfold taf_temp_new in E.
  destruct (dt_replace_minute t 0) as [t0|] eqn:E0; [|discriminate E]. cbn [bind] in E.
  destruct (replace_minute_real _ _ _ R E0) as (R0 & D0 & M0).
  destruct (if truthy (group m "sign") then _ else _) as [w|]; [|discriminate E]. cbn [bind] in E.
  destruct (int_of_opt (group m "day")) as [d|]; [|discriminate E]. cbn [bind] in E.
  destruct (int_of_opt (group m "hour")) as [h|]; [|discriminate E]. cbn [bind] in E.
  destruct (dt_replace_hour t0 h) as [t1|] eqn:E1; [|discriminate E]. cbn [bind] in E.
  destruct (replace_hour_real _ _ _ R0 E1) as (R1 & D1 & M1).
  destruct (if (d =? dt_day t1)%Z then _ else _) as [u|] eqn:Eu; [|discriminate E]. cbn [bind] in E. injection E as <-.
  assert (D : days_from 0 t t1).
  { apply (days_from_date 0 t t t t1); [reflexivity|congruence|apply days_from_refl]. }
  unfold whole_hour. cbn [tt_time time_at t_dt]. destruct (d =? dt_day t1)%Z.
  - assert (t1 = u) by congruence. subst u. split; [exact R1|]. split; [congruence|]. apply (days_from_more 0); [lia|exact D].
  - destruct (add_day_from 0 t t1 u R1 D Eu) as (A & B & C). split; [exact A|]. split; [congruence|exact B].
Qed.

(** The loop to the day of a FM change finds the first date with that day. *)
Lemma roll_steps : forall fuel day t u, real_time t -> roll_to_day fuel day t = Ok u ->
  real_time u /\ dt_day u = day
  /\ exists k, days_later k (date_of t) (date_of u) /\ forall j c, j < k -> days_later j (date_of t) c -> snd c <> day.
Proof.
  induction fuel as [|fuel IH]; intros day t u R E; cbn [roll_to_day] in E; destruct (Z.eqb_spec day (dt_day t)) as [D|D].
  - assert (t = u) by congruence. subst u. split; [exact R|]. split; [auto|]. exists 0. split; [constructor|]. intros j c L. lia.
  - discriminate E.
  - assert (t = u) by congruence. subst u. split; [exact R|]. split; [auto|]. exists 0. split; [constructor|]. intros j c L. lia.
  - destruct (dt_add_days t 1) as [t1|] eqn:A; [|discriminate E]. cbn [bind] in E.
    destruct (add_day t t1 R A) as (R1 & N & _). destruct (IH _ _ _ R1 E) as (Ru & Du & k & K & F).
    split; [exact Ru|]. split; [exact Du|]. exists (Datatypes.S k). split; [eapply Succ; [exact N|exact K]|].
    intros j c L H. inversion H as [|j' a b c' Q T]; subst.
    + cbn [date_of snd]. congruence.
    + apply (F j' c); [lia|]. rewrite (day_after_fun _ _ N). rewrite <- (day_after_fun _ _ Q). exact T.
Qed.

Lemma roll_real : forall fuel day t u, real_time t -> roll_to_day fuel day t = Ok u -> real_time u /\ days_from 61 t u.
Proof.
  intros fuel day t u R E. destruct (roll_steps _ _ _ _ R E) as (Ru & Du & k & K & F). split; [exact Ru|].
  pose proof (real_clock_ok t R) as (Cd & _). pose proof Ru as (Rd & _). apply real_date_range in Rd.
  destruct Rd as (_ & Hm & Hd). pose proof (days_in_month_range (dt_year u) (dt_month u) Hm) as B.
  destruct (first_with_day_exists (date_of t) day Cd) as (n & Hn & En & Fn); [lia|].
  assert (X : days_on n (date_of t) = date_of u).
  { apply (first_with_day_fun (date_of t) day); [exact Cd|apply first_with_day_on; assumption|]. exists k. split; [exact K|]. split; [exact Du|exact F]. }
  exists n. split; [exact Hn|]. apply days_later_on; [exact Cd|symmetry; exact X].
Qed.

(** ** TAF: the changes *)

Definition ind_fc (v : valid) (i : taf_ind) : Prop :=
  let w := tc_valid i in
  real_time (t_dt (va_from w)) /\ real_time (t_dt (va_until w))
  /\ days_from 61 (t_dt (va_from v)) (t_dt (va_from w))
  /\ (va_code w <> None ->
      w = v \/ (whole_hour 1 (t_dt (va_from v)) (va_from w) /\ whole_hour 2 (t_dt (va_from v)) (va_until w))).

Definition real_valid (v : valid) : Prop := real_time (t_dt (va_from v)) /\ real_time (t_dt (va_until v)).

Lemma ind_fc_same : forall v c s, real_valid v -> ind_fc v (mk_tci c s v).
Proof.
  intros v c s [R1 R2]. split; [exact R1|]. split; [exact R2|]. split; [apply days_from_refl|]. intros _. left. reflexivity.
Qed.

Lemma taf_ind_fc : forall m v i, real_valid v -> taf_ind_new m v = Ok i -> ind_fc v i.
Proof.
  intros m v i R E. unfold taf_ind_new in E. destruct m as [m|]; [|injection E as <-; exact (ind_fc_same _ _ _ R)].
  destruct (starts_with (py "FM") (m_string m)).
  - destruct (int_of_opt (group m "day")) as [d|]; [|discriminate E]. cbn [bind] in E.
    destruct (int_of_opt (group m "hour")) as [h|]; [|discriminate E]. cbn [bind] in E.
    destruct (int_of_opt (group m "minute")) as [mi|]; [|discriminate E]. cbn [bind] in E.
    destruct (roll_to_day 62 d (t_dt (va_from v))) as [t|] eqn:E0; [|discriminate E]. cbn [bind] in E.
    destruct R as [R1 R2]. destruct (roll_real _ _ _ _ R1 E0) as (R0 & D0).
    destruct (dt_replace_hour t h) as [t1|] eqn:E1; [|discriminate E]. cbn [bind] in E.
    destruct (replace_hour_real _ _ _ R0 E1) as (A1 & A2 & _).
    destruct (dt_replace_minute t1 mi) as [t2|] eqn:E2; [|discriminate E]. cbn [bind] in E. cbv zeta in E.
    destruct (replace_minute_real _ _ _ A1 E2) as (B1 & B2 & _). injection E as <-. unfold ind_fc. cbn [tc_valid va_from va_until va_code valid_new group_code time_at t_dt].
    split; [exact B1|]. split; [exact R2|]. split; [|intro K; contradiction].
    apply (days_from_date 61 _ (t_dt (va_from v)) t t2 eq_refl); [congruence|exact D0].
  - destruct (change_indicator_new (Some m)) as [ct|]; [|discriminate E]. cbn [bind] in E. injection E as <-. exact (ind_fc_same _ _ _ R).
Qed.

Lemma set_valid_fc : forall m v i j, real_valid v -> set_valid_period m (va_from v) i = Ok j -> ind_fc v j.
Proof.
  intros m v i j [R1 R2] E. unfold set_valid_period in E.
  destruct (valid_from_taf (Some m) (t_dt (va_from v))) as [w|] eqn:W; [|discriminate E]. cbn [bind] in E.
  destruct (valid_read _ _ _ R1 W) as (_ & F & U).
  assert (K : forall c s, ind_fc v (mk_tci c s w)).
  { intros c s. unfold ind_fc. cbn [tc_valid]. split; [apply F|]. split; [apply U|].
    split; [apply (days_from_more 1); [lia|apply F]|]. intros _. right. split; assumption. }
  destruct (tc_code i) as [c|]; [|discriminate E]. destruct (starts_with (py "FM") c); injection E as <-; apply K.
Qed.

Lemma reset_fc : forall v u i j, ind_fc v i -> reset_until_period u i = Ok j -> ind_fc v j.
Proof.
  intros v u i j (F & U & D & C) E. unfold reset_until_period in E.
  destruct (dt_add_hours (t_dt u) (-1)) as [w|] eqn:W; [|discriminate E]. cbn [bind] in E. apply add_real in W.
  destruct (tc_code i) as [c|]; [|discriminate E]. destruct (starts_with (py "FM") c).
  - cbv zeta in E. injection E as <-. unfold ind_fc. cbn [tc_valid va_from va_until va_code valid_new group_code time_at t_dt].
    split; [exact F|]. split; [apply W|]. split; [exact D|]. intro K. contradiction.
  - injection E as <-. split; [exact F|]. split; [exact U|]. split; [exact D|exact C].
Qed.

Lemma change_step_fc : forall v h m p p', In h change_handlers -> h_handle h m p = Ok p' -> real_valid v ->
  cf_valid p = v /\ ind_fc v (cf_ind p) -> cf_valid p' = v /\ ind_fc v (cf_ind p').
Proof.
  intros v h m p p' I E R [H0 H]. unfold change_handlers in I. cbn [In] in I.
  assert (L : forall f, cf_lift f m p = Ok p' -> cf_valid p' = v /\ ind_fc v (cf_ind p')).
  { intros f Ef. unfold cf_lift in Ef. binds Ef. injection Ef as <-. split; assumption. }
  repeat (destruct I as [<-|I]; [cbn [h_handle] in E|]); try contradiction; try exact (L _ E).
  - unfold handle_change_indicator in E. rewrite H0 in E. destruct (taf_ind_new _ _) as [i|] eqn:T; [|discriminate E]. cbn [bind] in E.
    injection E as <-. split; [exact H0|exact (taf_ind_fc _ _ _ R T)].
  - unfold handle_change_valid in E. rewrite H0 in E. destruct (set_valid_period _ _ _) as [i|] eqn:T; [|discriminate E]. cbn [bind] in E.
    injection E as <-. split; [exact H0|exact (set_valid_fc _ _ _ _ R T)].
Qed.

Lemma change_parsed_fc : forall code v p, real_valid v -> change_fc_new code v = Ok p -> change_moments v p.
Proof.
  intros code v p R E. unfold change_fc_new in E. cbv zeta in E.
  destruct (common_new []) as [c|]; [|discriminate E]. cbn [bind] in E.
  destruct (taf_ind_new None v) as [i|] eqn:T; [|discriminate E]. cbn [bind] in E. apply (taf_ind_fc _ _ _ R) in T.
  destruct (parse_section change_handlers _ _) as [[q un]|] eqn:P; [|discriminate E]. cbn [bind] in E. injection E as <-.
  apply (parse_section_keep _ (fun q => cf_valid q = v /\ ind_fc v (cf_ind q))) in P.
  - exact P.
  - intros h g m s s' I _ Eh K. exact (change_step_fc v h m s s' I Eh R K).
  - split; [reflexivity|exact T].
Qed.

Lemma pop_fc : forall v u rl temp a b, pop_changes u rl temp = Ok (a, b) -> Forall (change_moments v) rl -> Forall (change_moments v) temp ->
  Forall (change_moments v) a /\ Forall (change_moments v) b.
Proof.
  intros v u rl. induction rl as [|l rl IH]; intros temp a b E H T; cbn [pop_changes] in E; [injection E as <- <-; auto|].
  pose proof (Forall_inv H) as Hl. pose proof (Forall_inv_tail H) as Hr. destruct (tc_code (cf_ind l)) as [c|] eqn:Ec; [|discriminate E].
  destruct (_ || _); [exact (IH _ _ _ E Hr (Forall_cons _ Hl T))|].
  destruct (starts_with (py "FM") c) eqn:F; [|injection E as <- <-; split; [exact Hr|constructor; assumption]].
  destruct (reset_until_period u (cf_ind l)) as [i|] eqn:Ei; [|discriminate E]. cbn [bind] in E. injection E as <- <-.
  split; [exact Hr|]. constructor; [|exact T]. destruct Hl as [H0 H1]. split; [exact H0|]. exact (reset_fc v u _ i H1 Ei).
Qed.

Lemma changes_add_fc : forall v p g g', changes_add p g = Ok g' -> change_moments v p -> Forall (change_moments v) (gl_list g) ->
  Forall (change_moments v) (gl_list g').
Proof.
  intros v p g g' E Hp Hg. unfold changes_add in E. cbv zeta in E. destruct (_ && _); [|exact (gl_add_forall _ _ _ _ _ E Hp Hg)].
  destruct (pop_changes _ (rev (gl_list g)) []) as [[rl temp]|] eqn:P; [|discriminate E]. cbn [bind] in E.
  apply (pop_fc v) in P; [|apply Forall_rev; exact Hg|constructor]. destruct P as [P1 P2].
  destruct (gl_add_all temp _) as [g1|] eqn:A; [|discriminate E]. cbn [bind] in E.
  apply (add_all_kept _ (change_moments v)) in A; [|exact P2|cbn [gl_list]; apply Forall_rev; exact P1].
  exact (gl_add_forall _ _ _ _ _ E Hp A).
Qed.

Lemma changes_parsed_fc : forall l x x', handle_changes l x = Ok x' -> real_valid (ta_valid x) ->
  Forall (change_moments (ta_valid x)) (gl_list (ta_changes x)) ->
  ta_time x' = ta_time x /\ ta_valid x' = ta_valid x /\ ta_max x' = ta_max x /\ ta_min x' = ta_min x
  /\ Forall (change_moments (ta_valid x)) (gl_list (ta_changes x')).
Proof.
  intros l. induction l as [|w l IH]; intros x x' E R H; cbn [handle_changes] in E; [injection E as <-; auto 6|].
  destruct w as [|c w]; [exact (IH _ _ E R H)|]. unfold handle_change_forecasted in E.
  destruct (change_fc_new (c :: w) _) as [p|] eqn:C; [|discriminate E]. cbn [bind] in E. apply (change_parsed_fc _ _ _ R) in C.
  destruct (changes_add p (ta_changes x)) as [g|] eqn:G; [|discriminate E]. cbn [bind] in E.
  apply (IH _ _ E R). exact (changes_add_fc _ _ _ _ G C H).
Qed.

(** ** TAF: the body *)

Definition temps_moments (t : time) (l : list taf_temp) : Prop := Forall (fun u => whole_hour 1 (t_dt t) (tt_time u)) l.
Definition body_moments (n : nat) (x : taf) : Prop :=
  real_time (t_dt (ta_time x)) /\ valid_moments (t_dt (ta_time x)) (ta_valid x)
  /\ temps_moments (ta_time x) (gl_list (ta_max x)) /\ temps_moments (ta_time x) (gl_list (ta_min x))
  /\ (n <= 3 -> va_code (ta_valid x) = None /\ gl_list (ta_max x) = [] /\ gl_list (ta_min x) = []).

Lemma valid_read_moments : forall m t v, real_time t -> valid_from_taf (Some m) t = Ok v -> valid_moments t v.
Proof.
  intros m t v R E. destruct (valid_read m t v R E) as (C & F & U). unfold valid_moments.
  destruct (va_code v); [split; assumption|contradiction].
Qed.

Lemma body_step : forall e y mo n i h m x x', nth_error (taf_handlers e y mo) i = Some h -> n <= i -> body_moments n x ->
  h_handle h m x = Ok x' -> body_moments (S i) x'.
Proof.
  intros e y mo n i h m x x' Hn N (R & V & A & B & Z) E. unfold taf_handlers in Hn.
  assert (L : forall f, tlift f m x = Ok x' -> ta_time x' = ta_time x /\ ta_valid x' = ta_valid x /\ ta_max x' = ta_max x /\ ta_min x' = ta_min x).
  { intros f Ef. unfold tlift in Ef. binds Ef. assert (K : x' = tupd_common a x) by congruence. rewrite K. auto. }
  assert (Keep : forall k, n <= k -> ta_time x' = ta_time x /\ ta_valid x' = ta_valid x /\ ta_max x' = ta_max x /\ ta_min x' = ta_min x ->
    body_moments (S k) x').
  { intros k Hk (E1 & E2 & E3 & E4). unfold body_moments. rewrite E1, E2, E3, E4. split; [exact R|]. split; [exact V|]. split; [exact A|]. split; [exact B|]. intro K. apply Z. lia. }
  assert (T : forall k, 3 < k -> thandle_temperature m x = Ok x' -> body_moments k x').
  { intros k Hk Et. unfold thandle_temperature in Et. destruct (taf_temp_new m _) as [t|] eqn:W; [|discriminate Et]. cbn [bind] in Et.
    pose proof (temp_read _ _ _ R W) as O.
    destruct (opt_str_eqb _ _); (destruct (gl_add t _) as [l|] eqn:G; [|discriminate Et]; cbn [bind] in Et;
      pose proof (gl_add_forall _ (fun u => whole_hour 1 (t_dt (ta_time x)) (tt_time u)) _ _ _ G O) as Q;
      match type of Et with Ok ?a = Ok _ => assert (K : x' = a) by congruence end; rewrite K;
      split; [exact R|]; split; [exact V|]).
    - split; [exact (Q A)|]. split; [exact B|]. intro. lia.
    - split; [exact A|]. split; [exact (Q B)|]. intro. lia. }
  each_slot i Hn ltac:(cbn [h_handle] in E); try (apply (Keep _ N); exact (L _ E)); try (apply T; [lia|exact E]);
    try (apply (Keep _ N); unfold thandle_type, thandle_modifier, thandle_station, thandle_missing, thandle_cancelled in E; cbv zeta in E;
      match type of E with Ok ?a = Ok _ => assert (K : x' = a) by congruence end; rewrite K; auto; fail).
  - unfold thandle_time in E. destruct (time_from_metar e (Some m) y mo) as [t|] eqn:W; [|discriminate E]. cbn [bind] in E.
    assert (K : x' = tout_string (time_str t) (tupd_time t x)) by congruence. rewrite K.
    destruct (Z N) as (Z1 & Z2 & Z3). split; [exact (from_metar_real _ _ _ _ _ W)|].
    cbn [ta_time ta_valid ta_max ta_min tout_string tupd_common tupd_time].
    split; [unfold valid_moments in *; rewrite Z1 in *; exact V|]. rewrite Z2, Z3. split; [constructor|]. split; [constructor|].
    intro. lia.
  - unfold thandle_valid in E. destruct (valid_from_taf _ _) as [v|] eqn:W; [|discriminate E]. cbn [bind] in E.
    assert (K : x' = tout_string (valid_str v) (tupd_valid v x)) by congruence. rewrite K.
    split; [exact R|]. split; [exact (valid_read_moments _ _ _ R W)|]. split; [exact A|]. split; [exact B|]. intro. lia.
Qed.

Lemma valid_moments_real : forall t v, valid_moments t v -> real_valid v.
Proof.
  intros t v H. unfold valid_moments in H. destruct (va_code v); [|split; apply H]. destruct H as [H1 H2]. split; [apply H1|apply H2].
Qed.

Theorem taf_moments_ok : forall e code y mo tr x, taf_parse e code y mo tr = Ok x -> taf_moments x.
Proof.
  intros e code y mo tr x E. unfold taf_parse in E. destruct (report_raw_code code) as [raw|]; [|discriminate E]. cbn [bind] in E.
  destruct (taf_init e raw) as [x0|] eqn:E0; [|discriminate E]. cbn [bind] in E.
  assert (K0 : body_moments 0 x0 /\ gl_list (ta_changes x0) = []).
  { unfold taf_init in E0. destruct (time_new e None None None None None None) as [t|] eqn:T; [|discriminate E0]. cbn [bind] in E0.
    destruct (taf_split raw) as [body codes]. destruct (common_new []) as [c|]; [|discriminate E0]. cbn [bind] in E0.
    destruct (valid_from_taf None (t_dt t)) as [v|] eqn:V; [|discriminate E0]. cbn [bind] in E0. injection E0 as <-.
    pose proof (time_real _ _ _ _ _ _ _ _ T) as R. destruct (valid_unread _ _ R V) as (V1 & V2 & V3 & V4 & _ & V6).
    split; [|reflexivity]. split; [exact R|]. cbn [ta_time ta_valid ta_max ta_min]. split; [unfold valid_moments; rewrite V1; auto|].
    split; [constructor|]. split; [constructor|]. intros _. split; [exact V1|]. split; reflexivity. }
  destruct K0 as [K0 L0].
  unfold taf_parse_body in E. destruct (parse_section (taf_handlers e y mo) _ x0) as [[x1 un]|] eqn:E1; [|discriminate E]. cbn [bind] in E.
  assert (K1 : ta_changes x1 = ta_changes x0).
  { apply (parse_section_inv _ (fun x => ta_changes x = ta_changes x0)) in E1; [exact E1| |auto].
    intros h m s s' I Eh K. rewrite <- K. exact (proj1 (taf_frame _ _ _ _ _ _ _ I Eh)). }
  destruct (ordered_inv _ _ body_moments (body_step e y mo) _ _ _ _ E1 K0) as (n & R & V & A & B & _).
  unfold parse_changes_forecasted in E. destruct (handle_changes _ _) as [x2|] eqn:E2; [|discriminate E]. cbn [bind] in E.
  apply changes_parsed_fc in E2; [|exact (valid_moments_real _ _ V)|cbn [ta_changes tupd_unparsed]; rewrite K1, L0; constructor].
  cbn [ta_time ta_valid ta_max ta_min tupd_unparsed] in E2. destruct E2 as (T1 & T2 & T3 & T4 & T5).
  pose proof (collect_list _ (ta_changes x2)) as Cl. destruct (gl_collect (ta_changes x2)) as [l g]. cbn [snd] in Cl. cbv zeta in E.
  assert (X : x = tupd_unparsed (ta_unparsed x2 ++ flat_map cf_unparsed l) (tupd_changes g x2)).
  { destruct (ta_unparsed (tupd_unparsed _ _)) as [|u us] in E; [congruence|]. destruct tr; [discriminate E|congruence]. }
  rewrite X. unfold taf_moments. cbn [ta_time ta_valid ta_max ta_min ta_changes tupd_unparsed tupd_changes].
  rewrite Cl, T1, T2, T3, T4. split; [exact R|]. split; [exact V|]. split; [exact A|]. split; [exact B|exact T5].
Qed.

(** ** The month *)

Lemma time_first : forall e y mo, months_ok (asked (now_year e) y) (asked (now_month e) mo) ->
  time_new e None None None None mo y = Ok (mk_time None (mk_dt (asked (now_year e) y) (asked (now_month e) mo) 1 0 0)).
Proof.
  intros e y mo [Hy Hm]. unfold time_new. cbv zeta. change (opt_default (now_year e) y) with (asked (now_year e) y).
  change (opt_default (now_month e) mo) with (asked (now_month e) mo). cbn [opt_default].
  remember (Z.to_N (asked (now_year e) y)) as y' eqn:Ey. remember (Z.to_N (asked (now_month e) mo)) as mo' eqn:Emo.
  replace (asked (now_year e) y) with (Z.of_N y') by lia. replace (asked (now_month e) mo) with (Z.of_N mo') by lia.
  rewrite Z_str_year, Z_pad_month by lia.
  replace (digits 4 y' ++ digits 2 mo' ++ py "01" ++ py "00" ++ py "00")
    with (ProofGroups.tcode (stamp_text y' mo' 1 0 0))
    by (unfold ProofGroups.tcode, stamp_text; cbn [map concat snd]; rewrite app_nil_r; reflexivity).
  rewrite strptime_ok by lia.
  replace (valid_date (Z.of_N y') (Z.of_N mo') (Z.of_N 1)) with true; [reflexivity|]. symmetry.
  apply valid_date_spec. apply real_date_intro; try lia. assert (B := days_in_month_range (Z.of_N y') (Z.of_N mo')). lia.
Qed.

Lemma time_read_month : forall e y mo g m t, months_ok (asked (now_year e) y) (asked (now_month e) mo) ->
  re_match r_TIME g = Some m -> time_from_metar e (Some m) y mo = Ok t ->
  t_code t <> None /\ of_month (asked (now_year e) y) (asked (now_month e) mo) (t_dt t).
Proof.
  intros e y mo g m t W M E. destruct (time_any e g m y mo M W) as (x & d & h & mi & _ & _ & K). rewrite K in E. clear K.
  destruct (_ && _); [|discriminate E]. injection E as <-. split; [discriminate|]. split; reflexivity.
Qed.

Theorem metar_month : forall e code y mo tr x, months_ok (asked (now_year e) y) (asked (now_month e) mo) ->
  metar_parse e code y mo tr = Ok x -> of_month (asked (now_year e) y) (asked (now_month e) mo) (t_dt (me_time x)).
Proof.
  intros e code y mo tr x W.
  apply (metar_time_inv (fun t => of_month (asked (now_year e) y) (asked (now_month e) mo) (t_dt t))).
  - intros g m t M E. exact (proj2 (time_read_month _ _ _ _ _ _ W M E)).
  - intros t E. unfold time_from_metar in E. rewrite (time_first e y mo W) in E. injection E as <-. split; reflexivity.
Qed.

Definition taf_month_inv (e : env) (y mo : option Z) (v : valid) (x : taf) : Prop :=
  (t_code (ta_time x) = None -> t_dt (ta_time x) = month_start e)
  /\ (t_code (ta_time x) <> None -> of_month (asked (now_year e) y) (asked (now_month e) mo) (t_dt (ta_time x)))
  /\ (va_code (ta_valid x) = None -> ta_valid x = v).

Lemma month_step : forall e y mo v h g m x x', months_ok (asked (now_year e) y) (asked (now_month e) mo) ->
  In h (taf_handlers e y mo) -> re_match (h_regexp h) g = Some m -> h_handle h m x = Ok x' ->
  taf_month_inv e y mo v x -> taf_month_inv e y mo v x'.
Proof.
  intros e y mo v h g m x x' W I M E (H1 & H2 & H3). unfold taf_handlers in I. cbn [In] in I.
  assert (Keep : ta_time x' = ta_time x /\ ta_valid x' = ta_valid x -> taf_month_inv e y mo v x').
  { intros [Et Ev]. unfold taf_month_inv. rewrite Et, Ev. auto. }
  assert (L : forall f, tlift f m x = Ok x' -> taf_month_inv e y mo v x').
  { intros f Ef. unfold tlift in Ef. binds Ef. assert (K : x' = tupd_common a x) by congruence. apply Keep. rewrite K. auto. }
  assert (T : thandle_temperature m x = Ok x' -> taf_month_inv e y mo v x').
  { intros Et. unfold thandle_temperature in Et. destruct (taf_temp_new m _) as [t|]; [|discriminate Et]. cbn [bind] in Et.
    destruct (opt_str_eqb _ _); (destruct (gl_add t _) as [l|]; [|discriminate Et]; cbn [bind] in Et;
      match type of Et with Ok ?a = Ok _ => assert (K : x' = a) by congruence end; apply Keep; rewrite K; auto). }
  repeat (destruct I as [<-|I]; [cbn [h_handle h_regexp] in E, M|]); try contradiction; try exact (L _ E); try exact (T E);
    try (apply Keep; unfold thandle_type, thandle_modifier, thandle_station, thandle_missing, thandle_cancelled in E; cbv zeta in E;
      match type of E with Ok ?a = Ok _ => assert (K : x' = a) by congruence end; rewrite K; auto; fail).
  - unfold thandle_time in E. destruct (time_from_metar e (Some m) y mo) as [t|] eqn:Et; [|discriminate E]. cbn [bind] in E.
    assert (K : x' = tout_string (time_str t) (tupd_time t x)) by congruence. rewrite K.
    destruct (time_read_month _ _ _ _ _ _ W M Et) as [A B]. split; [intro C; contradiction|]. split; [intros _; exact B|exact H3].
  - unfold thandle_valid in E. destruct (valid_from_taf (Some m) (t_dt (ta_time x))) as [w|] eqn:Ew; [|discriminate E]. cbn [bind] in E.
    assert (K : x' = tout_string (valid_str w) (tupd_valid w x)) by congruence. rewrite K.
    split; [exact H1|]. split; [exact H2|]. intro C. exfalso. revert C. clear - Ew. unfold valid_from_taf in Ew. binds Ew. injection Ew as <-. discriminate.
Qed.

Theorem taf_month : forall e code y mo tr x, months_ok (now_year e) (now_month e) -> months_ok (asked (now_year e) y) (asked (now_month e) mo) ->
  taf_parse e code y mo tr = Ok x ->
  (t_code (ta_time x) = None -> t_dt (ta_time x) = month_start e)
  /\ (t_code (ta_time x) <> None -> of_month (asked (now_year e) y) (asked (now_month e) mo) (t_dt (ta_time x)))
  /\ (va_code (ta_valid x) = None -> t_dt (va_from (ta_valid x)) = clock_ahead e 1 1 /\ t_dt (va_until (ta_valid x)) = clock_ahead e 1 2).
Proof.
  intros e code y mo tr x C W E. unfold taf_parse in E. destruct (report_raw_code code) as [raw|]; [|discriminate E]. cbn [bind] in E.
  destruct (taf_init e raw) as [x0|] eqn:E0; [|discriminate E]. cbn [bind] in E.
  unfold taf_init in E0. rewrite (time_first e None None C) in E0. cbn [bind asked t_dt] in E0. fold (month_start e) in E0.
  destruct (taf_split raw) as [body codes]. destruct (common_new []) as [c|]; [|discriminate E0]. cbn [bind] in E0.
  destruct (valid_from_taf None (month_start e)) as [v|] eqn:V; [|discriminate E0]. cbn [bind] in E0.
  assert (R : real_time (month_start e)).
  { destruct C as [C1 C2]. split; [|cbn; lia]. apply real_date_intro; cbn [month_start dt_year dt_month dt_day]; try lia.
    assert (B := days_in_month_range (now_year e) (now_month e)). lia. }
  assert (Rv : forall k h d, dt_minutes (clock_ahead e h d) = (dt_minutes (month_start e) + k)%Z -> (0 <= h <= 23)%Z -> (1 <= d <= 2)%Z ->
    dt_add_minutes (month_start e) k = Ok (clock_ahead e h d)).
  { intros k h d Ek Hh Hd. apply dt_add_minutes_ok; [|exact Ek]. destruct C as [C1 C2]. split; [|cbn; lia].
    apply real_date_intro; cbn [clock_ahead dt_year dt_month dt_day]; try lia.
    assert (B := days_in_month_range (now_year e) (now_month e)). lia. }
  assert (Kv : t_dt (va_from v) = clock_ahead e 1 1 /\ t_dt (va_until v) = clock_ahead e 1 2).
  { unfold valid_from_taf in V. change (dt_replace_minute (month_start e) 0) with (Ok (month_start e)) in V. cbn [bind] in V.
    unfold dt_add_hours in V. rewrite (Rv _ 1%Z 1%Z) in V by (try lia; unfold dt_minutes, clock_ahead, month_start; cbn [dt_year dt_month dt_day dt_hour dt_minute]; lia).
    cbn [bind] in V.
    assert (A : dt_add_minutes (clock_ahead e 1 1) (24 * 60) = Ok (clock_ahead e 1 2)).
    { apply dt_add_minutes_ok.
      - destruct C as [C1 C2]. split; [|cbn; lia]. apply real_date_intro; cbn [clock_ahead dt_year dt_month dt_day]; try lia.
        assert (B := days_in_month_range (now_year e) (now_month e)). lia.
      - unfold dt_minutes, clock_ahead. cbn [dt_year dt_month dt_day dt_hour dt_minute]. unfold ymd2ord. lia. }
    rewrite A in V. cbn [bind] in V. injection V as <-. split; reflexivity. }
  assert (K0 : taf_month_inv e y mo v x0 /\ gl_list (ta_changes x0) = [] /\ body_moments 0 x0).
  { injection E0 as <-. split; [|split; [reflexivity|]].
    - split; [reflexivity|]. split; [intro K; contradiction|]. reflexivity.
    - destruct (valid_unread _ _ R V) as (V1 & V2 & V3 & V4 & _ & V6).
      split; [exact R|]. cbn [ta_time ta_valid ta_max ta_min]. split; [unfold valid_moments; rewrite V1; auto|].
      split; [constructor|]. split; [constructor|]. intros _. split; [exact V1|]. split; reflexivity. }
  destruct K0 as (K0 & L0 & B0). clear E0.
  unfold taf_parse_body in E. destruct (parse_section (taf_handlers e y mo) _ x0) as [[x1 un]|] eqn:E1; [|discriminate E]. cbn [bind] in E.
  assert (K1 : ta_changes x1 = ta_changes x0).
  { apply (parse_section_inv _ (fun x => ta_changes x = ta_changes x0)) in E1; [exact E1| |auto].
    intros h m s s' I Eh K. rewrite <- K. exact (proj1 (taf_frame _ _ _ _ _ _ _ I Eh)). }
  destruct (ordered_inv _ _ body_moments (body_step e y mo) _ _ _ _ E1 B0) as (n & _ & V1 & _).
  apply (parse_section_keep _ (taf_month_inv e y mo v)) in E1; [|intros h g m s s' I M Eh K; exact (month_step e y mo v h g m s s' W I M Eh K)|exact K0].
  unfold parse_changes_forecasted in E. destruct (handle_changes _ _) as [x2|] eqn:E2; [|discriminate E]. cbn [bind] in E.
  apply changes_parsed_fc in E2; [|exact (valid_moments_real _ _ V1)|cbn [ta_changes tupd_unparsed]; rewrite K1, L0; constructor].
  cbn [ta_time ta_valid tupd_unparsed] in E2. destruct E2 as (T1 & T2 & _).
  destruct (gl_collect (ta_changes x2)) as [l g]. cbv zeta in E.
  assert (X : x = tupd_unparsed (ta_unparsed x2 ++ flat_map cf_unparsed l) (tupd_changes g x2)).
  { destruct (ta_unparsed (tupd_unparsed _ _)) as [|u us] in E; [congruence|]. destruct tr; [discriminate E|congruence]. }
  rewrite X. cbn [ta_time ta_valid tupd_unparsed tupd_changes]. rewrite T1, T2. destruct E1 as (J1 & J2 & J3).
  split; [exact J1|]. split; [exact J2|]. intro K. rewrite (J3 K). exact Kv.
Qed.

(** ** A TAF without a validity group *)

Definition nov_2026 : env := mk_env 2026 11 [] [].

Lemma validity_far :
  ~ (forall e code y mo tr x, taf_parse e code y mo tr = Ok x -> days_from 2 (t_dt (ta_time x)) (t_dt (va_from (ta_valid x)))).
Proof.
  intro H.
  assert (W : match taf_parse nov_2026 (py "TAF SEQM 142300Z NIL") (Some 2024%Z) (Some 2%Z) false with
    | Ok x => date_of (t_dt (ta_time x)) = (2024, 2, 14)%Z /\ dt_year (t_dt (va_from (ta_valid x))) = 2026%Z
    | Raise _ => False end) by (vm_compute; split; reflexivity).
  destruct (taf_parse nov_2026 _ _ _ _) as [x|] eqn:E; [|contradiction]. destruct W as [W1 W2].
  destruct (H _ _ _ _ _ _ E) as (k & Hk & D). rewrite W1 in D.
  assert (C : date_ok (2024, 2, 14)%Z) by (split; vm_compute; split; discriminate).
  apply (days_later_on k _ _ C) in D. unfold date_of in D. rewrite W2 in D.
  assert (K : k = 0 \/ k = 1 \/ k = 2) by lia. destruct K as [K|[K|K]]; rewrite K in D; vm_compute in D; discriminate D.
Qed.
