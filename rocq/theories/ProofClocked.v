(** * Proofs: the moments that the codes of a report name (C82) *)
From Coq Require Import String Ascii.
From Coq Require Import List NArith ZArith Bool Lia.
From Verif Require Import PyBase PyRegex AeroRegex PyFloat PyTime Utils Base MetarGroups Trend Metar Taf SpecNum SpecFailures SpecVision SpecKept SpecByCode
  StrFacts RegexPaths Captures GroupShapes ProofStation ReprFacts ProofGroups ProofGroups2 ProofValues ProofValues2 ProofValues3 ProofExact ProofFailures ProofVision ProofKeptReport ProofKeptTaf ProofProb ProofVerdict ProofAgree ProofByCode
  SpecGroups SpecTime SpecExact SpecGrammar TimeFacts ProofTime ProofWhen ProofMeans ProofGrammar ProofGrammarRest SpecStated ProofStated SpecSay SpecPhrase ProofPhrase ProofPhraseTime SpecMoment ProofMoment SpecClocked.
From Verif Require Import ProofAbsent ProofAbsentTaf ProofTafReport ProofTrendReport.
From Verif Require SpecTaf ProofTaf OutTime Outcomes ProofMomentReport.
Import ListNotations.
Local Open Scope string_scope.
Local Open Scope nat_scope.
Local Open Scope list_scope.
Local Opaque dt_add_minutes dt_add_hours dt_add_days.
Local Ltac binds E := repeat (match type of E with bind ?r _ = _ => destruct r; [cbn [bind] in E; cbv zeta in E|discriminate E] end).

(** ** Periods of a trend *)

Lemma later_add : forall t k u, real_time t -> dt_add_minutes t (Z.of_nat k) = Ok u -> minutes_later k t u.
Proof.
  intros t k u R E. apply add_real in E. destruct E as [Ru Mu]. apply later_of; [apply real_clock_ok; exact R|apply real_clock_ok; exact Ru|exact Mu].
Qed.
Lemma period_moment : forall t i h mi u, OutTime.ind_of t i -> (mi <= 59)%N -> period_time i (Z.of_N h) (Z.of_N mi) = Ok u -> trend_moment t h mi u.
Proof.
  intros t i h mi u (Ei & R & Re & Me) Hm E. unfold period_time in E. rewrite Ei in E.
  destruct (dt_add_hours t 1) as [a|] eqn:A; [|discriminate E]. cbn [bind] in E.
  pose proof (add_real _ _ _ A) as [Ra Ma].
  assert (La : minutes_later 60 t a) by (apply later_of; [apply real_clock_ok; exact R|apply real_clock_ok; exact Ra|rewrite Ma; lia]).
  assert (Lb : minutes_later 120 t (t_dt (ti_end i))) by (apply later_of; [apply real_clock_ok; exact R|apply real_clock_ok; exact Re|rewrite Me; lia]).
  exists a, (t_dt (ti_end i)). split; [exact La|]. split; [exact Lb|].
  destruct (Z.eqb_spec (Z.of_N h) (dt_hour t)) as [D|D]; [|destruct (Z.eqb_spec (Z.of_N h) (dt_hour a)) as [D'|D']].
  - exists t. split; [auto|]. rewrite set_minute in E by (assumption || lia). congruence.
  - exists a. split; [auto|]. rewrite set_minute in E by (assumption || lia). congruence.
  - exists (t_dt (ti_end i)). split; [auto|]. rewrite set_minute in E by (assumption || lia). congruence.
Qed.

Lemma period_kinds : forall w m, typed w -> re_match r_TREND_TIME_PERIOD w = Some m -> exists k h mi, (h <= 24)%N /\ (mi <= 59)%N /\ w = period_code k h mi
  /\ group m "prefix" = Some (SpecTime.period_prefix k) /\ group m "hour" = Some (digits 2 h) /\ group m "min" = Some (digits 2 mi).
Proof.
  intros w m T M. destruct (proj1 (period_words w T) (matched _ _ _ M)) as (p & h & mi & Ip & H & Mi & Ew).
  assert (K : exists k, py p = SpecTime.period_prefix k) by (destruct Ip as [<-|[<-|[<-|[]]]]; [exists PFrom|exists PUntil|exists PAt]; reflexivity).
  destruct K as (k & K). exists k, h, mi. split; [exact H|]. split; [exact Mi|]. rewrite K in Ew. change (w = period_code k h mi) in Ew. split; [exact Ew|].
  subst w. destruct (period_captures k h mi H Mi) as (m' & M' & _ & Hc). assert (m' = m) by congruence. subst m'.
  rewrite (Hc "prefix"), (Hc "hour"), (Hc "min") by (cbn [In]; auto). destruct k; repeat split.
Qed.

Definition named_ind (t : datetime) (i : trend_ind) : Prop := OutTime.ind_of t i /\ trend_named t i.
Lemma explained_none : forall A (code : A -> option str) says a, code a = None -> explained code says [a].
Proof. intros A code says a N0 b c [<-|[]] C. congruence. Qed.
Lemma trend_ind_named : forall m t i, real_time t -> trend_ind_new m t = Ok i -> named_ind t i.
Proof.
  intros m t i R E. split; [exact (proj1 (ProofMomentReport.trend_ind_moments m t i R E))|].
  unfold trend_ind_new in E. destruct (change_indicator_new m) as [ct|]; [|discriminate E]. cbn [bind] in E. cbv zeta in E.
  destruct (dt_add_hours t 2) as [e|]; [|discriminate E]. cbn [bind] in E.
  match type of E with Ok ?a = Ok _ => assert (K : i = a) by congruence; rewrite K; clear K E end.
  unfold trend_named. cbn [ti_from ti_until ti_at]. split; [apply explained_none; reflexivity|]. split; [apply explained_none; reflexivity|]. intros a c [].
Qed.
Lemma add_period_named : forall t g m i j, named_ind t i -> re_match r_TREND_TIME_PERIOD g = Some m -> add_period m i = Ok j -> named_ind t j.
Proof.
  intros t g m i j [I (F & U & A)] M E. split.
  { pose proof (OutTime.add_period_outcome t g m i I M) as O. rewrite E in O. exact O. }
  assert (Es : m_string m = g) by exact (re_match_string _ _ _ M).
  assert (S1 : forall u, period_time i (match int_of_opt (group m "hour") with Ok z => z | _ => 0%Z end) (match int_of_opt (group m "min") with Ok z => z | _ => 0%Z end) = Ok u ->
    forall c, t_code (time_at_code (m_string m) u) = Some c -> typed c -> exists k, group m "prefix" = Some (SpecTime.period_prefix k) /\ period_named t k c (time_at_code (m_string m) u)).
  { intros u P c C T. cbn [time_at_code t_code] in C. rewrite Es in C.
    assert (G : group_code (Some g) = Some (blanked g)) by exact (ProofKeptReport.type_code g). assert (K : c = blanked g) by congruence. subst c. apply typed_word in T.
    destruct (period_kinds g m T M) as (k & h & mi & H1 & H2 & Eg & Gp & Gh & Gm). exists k. split; [exact Gp|].
    rewrite Gh, Gm in P. unfold int_of_opt in P. rewrite !int_digits in P by (try lia; change (10 ^ N.of_nat 2)%N with 100%N; lia).
    exists h, mi. split; [exact H1|]. split; [exact H2|]. split; [rewrite (plain_blank r_TREND_TIME_PERIOD g m eq_refl T M); exact Eg|].
    exact (period_moment t i h mi u I H2 P). }
  unfold add_period in E. destruct (ti_code i) as [c0|]; [|discriminate E].
  destruct (int_of_opt (group m "hour")) as [zh|]; [|discriminate E]. cbn [bind] in E. destruct (int_of_opt (group m "min")) as [zm|]; [|discriminate E]. cbn [bind] in E.
  destruct (period_time i zh zm) as [u|] eqn:P; [|discriminate E]. cbn [bind] in E. cbv zeta in E. specialize (S1 u eq_refl).
  destruct (opt_str_eqb (group m "prefix") (py "FM")) eqn:B1; [|destruct (opt_str_eqb (group m "prefix") (py "TL")) eqn:B2];
    (match type of E with Ok ?a = Ok _ => assert (K : j = a) by congruence; rewrite K; clear K E end); unfold trend_named; cbn [ti_from ti_until ti_at].
  - split; [|split; [exact U|exact A]]. intros a c [<-|[]] C T. destruct (S1 c C T) as ([| |] & G & Q); [exact Q| |]; rewrite G in B1; discriminate B1.
  - split; [exact F|]. split; [|exact A]. intros a c [<-|[]] C T. destruct (S1 c C T) as ([| |] & G & Q); [|exact Q|]; rewrite G in B1, B2; discriminate.
  - split; [exact F|]. split; [exact U|]. intros a c [<-|[]] C T. destruct (S1 c C T) as ([| |] & G & Q); [| |exact Q]; rewrite G in B1, B2; discriminate.
Qed.

Lemma trend_step_named : forall t h g m p p', In h trend_handlers -> re_match (h_regexp h) g = Some m -> h_handle h m p = Ok p' ->
  real_time t -> t_dt (cp_time p) = t /\ named_ind t (cp_ind p) -> t_dt (cp_time p') = t /\ named_ind t (cp_ind p').
Proof.
  intros t h g m p p' I M E R [H0 H]. unfold trend_handlers in I. cbn [In] in I.
  assert (L : forall f, cp_lift f m p = Ok p' -> t_dt (cp_time p') = t /\ named_ind t (cp_ind p')).
  { intros f Ef. unfold cp_lift in Ef. destruct (f m (cp_common p)) as [c|]; [|discriminate Ef]. cbn [bind] in Ef. assert (K : p' = cp_set_common c p) by congruence. rewrite K. split; assumption. }
  assert (Q : handle_time_period m p = Ok p' -> re_match r_TREND_TIME_PERIOD g = Some m -> t_dt (cp_time p') = t /\ named_ind t (cp_ind p')).
  { intros Ep Mp. unfold handle_time_period in Ep. cbv zeta in Ep. destruct (add_period _ _) as [i|] eqn:T; [|discriminate Ep]. cbn [bind] in Ep.
    match type of Ep with Ok ?a = Ok _ => assert (K : p' = a) by congruence; rewrite K; clear K Ep end. split; [exact H0|exact (add_period_named _ _ _ _ _ H Mp T)]. }
  repeat (destruct I as [<-|I]; [cbn [h_handle h_regexp] in E, M|]); try contradiction; try exact (L _ E); try exact (Q E M).
  unfold handle_trend_indicator in E. destruct (trend_ind_new _ _) as [i|] eqn:T; [|discriminate E]. cbn [bind] in E.
  match type of E with Ok ?a = Ok _ => assert (K : p' = a) by congruence; rewrite K; clear K E end. rewrite H0 in T. split; [exact H0|exact (trend_ind_named _ _ _ R T)].
Qed.
Lemma trend_parsed_named : forall code t p, real_time t -> change_period_new code t = Ok p -> trend_named t (cp_ind p).
Proof.
  intros code t p R E. unfold change_period_new in E. cbv zeta in E.
  destruct (common_new []) as [c|]; [|discriminate E]. cbn [bind] in E.
  destruct (trend_ind_new None t) as [i|] eqn:T; [|discriminate E]. cbn [bind] in E. apply (trend_ind_named _ _ _ R) in T.
  destruct (parse_section trend_handlers _ _) as [[q un]|] eqn:P; [|discriminate E]. cbn [bind] in E.
  match type of E with Ok ?a = Ok _ => assert (K : p = a) by congruence; rewrite K; clear K E end. cbn [cp_ind].
  apply (parse_section_from _ (fun q => t_dt (cp_time q) = t /\ named_ind t (cp_ind q))) in P.
  - exact (proj2 (proj2 P)).
  - intros h g m s s' I U M Eh K. exact (trend_step_named t h g m s s' I M Eh R K).
  - split; [reflexivity|exact T].
Qed.
Lemma trends_parsed_named : forall l x x', handle_trends l x = Ok x' -> real_time (t_dt (me_time x)) ->
  Forall (fun p => trend_named (t_dt (me_time x)) (cp_ind p)) (gl_list (me_trends x)) ->
  Forall (fun p => trend_named (t_dt (me_time x)) (cp_ind p)) (gl_list (me_trends x')).
Proof.
  intros l. induction l as [|w l IH]; intros x x' E H T; cbn [handle_trends] in E; [injection E as <-; auto|].
  destruct w as [|c w]; [exact (IH _ _ E H T)|]. unfold handle_weather_trend in E.
  destruct (change_period_new (c :: w) _) as [p|] eqn:C; [|discriminate E]. cbn [bind] in E. apply (trend_parsed_named _ _ _ H) in C.
  destruct (gl_add p (me_trends x)) as [g|] eqn:G; [|discriminate E]. cbn [bind] in E.
  apply (IH _ _ E); [exact H|]. exact (gl_add_forall _ _ _ _ _ G C T).
Qed.

Theorem metar_named : forall e code y mo tr x, metar_parse e code y mo tr = Ok x ->
  Forall (fun p => trend_named (t_dt (me_time x)) (cp_ind p)) (gl_list (me_trends x)).
Proof.
  intros e code y mo tr x E. destruct (ProofMomentReport.metar_moments_ok _ _ _ _ _ _ E) as [R _].
  unfold metar_parse in E. destruct (report_raw_code code) as [raw|]; [|discriminate E]. cbn [bind] in E.
  destruct (metar_init e raw y mo) as [x0|] eqn:E0; [|discriminate E]. cbn [bind] in E.
  assert (K0 : gl_list (me_trends x0) = []).
  { unfold metar_init in E0. binds E0. match type of E0 with Ok ?a = Ok _ => assert (K : x0 = a) by congruence; rewrite K end. reflexivity. }
  unfold parse_body in E. destruct (parse_section (metar_handlers e y mo) _ x0) as [[x1 un]|] eqn:E1; [|discriminate E].
  cbn [bind] in E.
  assert (K1 : me_trends x1 = me_trends x0).
  { apply (parse_section_from _ (fun x => me_trends x = me_trends x0)) in E1; [exact E1| |reflexivity].
    intros h g m s s' I _ _ Eh K. rewrite <- K. exact (metar_handler_trends _ _ _ _ _ _ _ I Eh). }
  unfold parse_weather_trend in E. destruct (handle_trends _ _) as [x2|] eqn:E2; [|discriminate E]. cbn [bind] in E.
  pose proof (ProofMomentReport.trends_time _ _ _ E2) as T2. cbn [me_time upd_unparsed] in T2.
  pose proof (collect_list _ (me_trends x2)) as Cl. destruct (gl_collect (me_trends x2)) as [l g]. cbn [snd] in Cl. cbv zeta in E.
  assert (X : x = upd_unparsed (me_unparsed x2 ++ flat_map cp_unparsed l) (upd_trends g x2)).
  { destruct (me_unparsed (upd_unparsed _ _)) as [|u us] in E; [congruence|]. destruct tr; [discriminate E|congruence]. }
  rewrite X in R |- *. cbn [me_time me_trends upd_unparsed upd_trends] in R |- *. rewrite Cl. rewrite T2 in R |- *.
  apply trends_parsed_named in E2; [exact E2|exact R|]. cbn [me_trends upd_unparsed]. rewrite K1, K0. constructor.
Qed.

(** ** Groups of a TAF *)

Lemma day_moment : forall u h mi, dt_hour u = Z.of_N h -> dt_minute u = Z.of_N mi -> u = moment (date_of u) h mi.
Proof. intros [y m d h' mi'] h mi H M. cbn [dt_hour dt_minute] in H, M. subst. reflexivity. Qed.
Lemma replaced_hour : forall t h u, dt_replace_hour t h = Ok u -> dt_hour u = h.
Proof. intros t h u E. unfold dt_replace_hour in E. destruct (_ && _); [|discriminate E]. injection E as <-. reflexivity. Qed.
Lemma picked_day : forall t t0 d u, real_time t0 -> date_of t0 = date_of t ->
  (if (d =? dt_day t0)%Z then Ok t0 else dt_add_days t0 1) = Ok u -> today_or_after t d (date_of u) /\ real_time u /\ dt_minute u = dt_minute t0 /\ dt_hour u = dt_hour t0.
Proof.
  intros t t0 d u R D E. assert (Dd : dt_day t0 = dt_day t) by (destruct t, t0; unfold date_of in D; cbn in *; congruence).
  destruct (Z.eqb_spec d (dt_day t0)) as [K|K].
  - assert (t0 = u) by congruence. subst u. split; [|auto]. left. split; congruence.
  - pose proof (add_day t0 u R E) as (Ru & A & Hu & Mu). split; [|auto]. right. split; [congruence|]. rewrite <- D. exact A.
Qed.
Lemma validity_sound : forall w m t v, typed w -> re_match r_T_VALID w = Some m -> real_time t -> valid_from_taf (Some m) t = Ok v -> validity_named t w v.
Proof.
  intros w m t v T M R E. destruct (proj1 (valid_words w T) (matched _ _ _ M)) as (fd & fh & td & th & H1 & H2 & H3 & H4 & Ew). change (w = SpecTime.valid_code fd fh td th) in Ew. subst w.
  destruct (valid_captures fd fh td th H1 H2 H3 H4) as (m' & M' & _ & Hc). assert (m' = m) by congruence. subst m'.
  unfold valid_from_taf in E. destruct (dt_replace_minute t 0) as [t0|] eqn:E0; [|discriminate E]. cbn [bind] in E.
  destruct (replace_minute_real _ _ _ R E0) as (R0 & D0 & M0).
  rewrite (Hc "fmday"), (Hc "fmhour"), (Hc "tlday"), (Hc "tlhour") in E by (cbn [In]; auto).
  change (lookup "fmday" (valid_text fd fh td th)) with (Some (digits 2 fd)) in E. change (lookup "fmhour" (valid_text fd fh td th)) with (Some (digits 2 fh)) in E.
  change (lookup "tlday" (valid_text fd fh td th)) with (Some (digits 2 td)) in E. change (lookup "tlhour" (valid_text fd fh td th)) with (Some (digits 2 th)) in E.
  unfold day in H1, H3. unfold int_of_opt in E. rewrite !int_digits in E by (try lia; change (10 ^ N.of_nat 2)%N with 100%N; lia). cbn [bind] in E.
  destruct (if (Z.of_N fd =? dt_day t0)%Z then _ else _) as [f|] eqn:Ef; [|discriminate E]. cbn [bind] in E.
  destruct (if (Z.of_N td =? dt_day t0)%Z then _ else _) as [u|] eqn:Eu; [|discriminate E]. cbn [bind] in E.
  destruct (picked_day t t0 _ f R0 D0 Ef) as (Pf & Rf & Mf & _). destruct (picked_day t t0 _ u R0 D0 Eu) as (Pu & Ru & Mu & _).
  destruct (if (Z.of_N th =? 24)%Z then _ else _) as [u'|] eqn:Eu'; [|discriminate E]. cbn [bind] in E. cbv zeta in E.
  destruct (dt_replace_hour f _) as [f1|] eqn:Ef1; [|discriminate E]. cbn [bind] in E. destruct (dt_replace_hour u' _) as [u1|] eqn:Eu1; [|discriminate E]. cbn [bind] in E.
  assert (K : v = valid_new (Some (m_string m)) (time_at f1) (time_at u1)) by congruence. subst v. clear E.
  pose proof (replaced_hour _ _ _ Ef1) as Hf. destruct (replace_hour_real _ _ _ Rf Ef1) as (_ & Df & Mf1).
  pose proof (replaced_hour _ _ _ Eu1) as Hu.
  exists fd, fh, td, th, (date_of f), (date_of u). cbn [valid_new va_from va_until time_at t_dt].
  split; [exact H1|]. split; [exact H2|]. split; [exact H3|]. split; [exact H4|]. split; [reflexivity|]. split; [exact Pf|]. split; [exact Pu|].
  split. { rewrite <- Df. apply day_moment; [exact Hf|]. rewrite Mf1, Mf, M0. reflexivity. }
  destruct (Z.eqb_spec (Z.of_N th) 24) as [K|K].
  - split; [intro; lia|]. intros _. pose proof (add_day u u' Ru Eu') as (Ru' & A & _ & Mu'). exists (date_of u'). split; [exact A|].
    destruct (replace_hour_real _ _ _ Ru' Eu1) as (_ & Du & Mu1). rewrite <- Du. apply day_moment; [exact Hu|]. rewrite Mu1, Mu', Mu, M0. reflexivity.
  - assert (u = u') by congruence. subst u'. split; [|intro; lia]. intros _.
    destruct (replace_hour_real _ _ _ Ru Eu1) as (_ & Du & Mu1). rewrite <- Du. apply day_moment; [exact Hu|]. rewrite Mu1, Mu, M0. reflexivity.
Qed.

Lemma extreme_sound : forall w m t v, typed w -> re_match r_T_TEMPERATURE w = Some m -> real_time t -> taf_temp_new m t = Ok v ->
  extreme_named (opt_str_eqb (group m "type") (py "X")) t (blanked w) v.
Proof.
  intros w m t v T M R E. destruct (proj1 (extreme_words w T) (matched _ _ _ M)) as (x & rest & (k & minus & n & d & h & Ik & Hn & Hd & Hh & Ex) & Ew).
  assert (K : exists mx : bool, x = taf_temp_code mx minus n d h).
  { destruct Ik as [<-|[<-|[]]]; [exists false|exists true]; rewrite Ex; destruct minus; reflexivity. }
  destruct K as (mx & K). clear Ex. subst x. subst w. unfold day in Hd.
  destruct (ttemp_captures mx minus n d h rest Hd Hh) as (m' & M' & _ & Hc). assert (m' = m) by congruence. subst m'.
  assert (Gt : opt_str_eqb (group m "type") (py "X") = mx) by (rewrite (Hc "type") by names; destruct mx, minus; reflexivity). rewrite Gt.
  unfold taf_temp_new in E. destruct (dt_replace_minute t 0) as [t0|] eqn:E0; [|discriminate E]. cbn [bind] in E.
  destruct (replace_minute_real _ _ _ R E0) as (R0 & D0 & M0).
  rewrite (Hc "sign"), (Hc "temp"), (Hc "day"), (Hc "hour") in E by names.
  assert (L : lookup "sign" (ttemp_text mx minus n d h) = (if minus then Some (py "M") else None)
    /\ lookup "temp" (ttemp_text mx minus n d h) = Some (digits 2 n)
    /\ lookup "day" (ttemp_text mx minus n d h) = Some (digits 2 d)
    /\ lookup "hour" (ttemp_text mx minus n d h) = Some (digits 2 h)) by (destruct minus; repeat split; reflexivity).
  destruct L as (L1 & L2 & L3 & L4). rewrite L1, L2, L3, L4 in E. clear L1 L2 L3 L4.
  assert (Tr : truthy (if minus then Some (py "M") else None) = minus) by (destruct minus; reflexivity). rewrite Tr in E.
  destruct (ttemp_value minus n Hn) as (q & Ev & Hv). rewrite Ev in E. cbn [bind] in E.
  unfold int_of_opt in E. rewrite !int_digits in E by (try lia; change (10 ^ N.of_nat 2)%N with 100%N; lia). cbn [bind] in E.
  destruct (dt_replace_hour t0 _) as [t1|] eqn:E1; [|discriminate E]. cbn [bind] in E.
  destruct (replace_hour_real _ _ _ R0 E1) as (R1 & D1 & M1). pose proof (replaced_hour _ _ _ E1) as H1.
  destruct (if (Z.of_N d =? dt_day t1)%Z then _ else _) as [u|] eqn:Eu; [|discriminate E]. cbn [bind] in E.
  destruct (picked_day t t1 _ u R1 ltac:(congruence) Eu) as (P & _ & Mu & Hu).
  match type of E with Ok ?a = Ok _ => assert (K : v = a) by congruence; rewrite K; clear K E end.
  exists minus, n, d, h, rest, (date_of u). cbn [tt_value tt_time time_at t_dt].
  split; [exact Hn|]. split; [exact Hd|]. split; [exact Hh|]. split; [reflexivity|]. split; [exact Hv|]. split; [exact P|].
  apply day_moment; [congruence|]. rewrite Mu, M1, M0. reflexivity.
Qed.

Lemma from_sound : forall w m v i, typed w -> re_match r_T_CHANGE_INDICATOR w = Some m -> starts_with (py "FM") w = true -> real_time (t_dt (va_from v)) ->
  taf_ind_new (Some m) v = Ok i ->
  exists d h mi rest b, day d /\ (h <= 23)%N /\ (mi <= 59)%N /\ w = fm_code d h mi ++ rest
    /\ first_with_day (date_of (t_dt (va_from v))) (Z.of_N d) b /\ t_dt (va_from (tc_valid i)) = moment b h mi /\ va_until (tc_valid i) = va_until v.
Proof.
  intros w m v i T M F R E.
  destruct (proj1 (tchange_words w T) (matched _ _ _ M)) as [(u & ->)|[(u & ->)|[(z & u & (d & h & mi & Hd & Hh & Hm & ->) & Ew)|(q & tempo & [<-|[<-|[]]] & ->)]]]; try discriminate F.
  change (w = fm_code d h mi ++ u) in Ew. subst w. exists d, h, mi, u.
  destruct (fm_start v d h mi u R Hd Hh Hm) as (b & Fb & A & B). exists b. rewrite M in A, B.
  assert (Rb : real b).
  { destruct b as [[yb mb] db]. destruct (valid_date yb mb db) eqn:V; [exact (proj1 (valid_date_spec _ _ _) V)|]. exfalso. rewrite B in E; [discriminate E|].
    intro K. apply valid_date_spec in K. congruence. }
  destruct (A Rb) as (j & Ej & _ & A1 & A2). assert (i = j) by congruence. subst j. auto 8.
Qed.
