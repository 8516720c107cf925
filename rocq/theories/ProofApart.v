(** * Sections do not interfere: proofs for C66 *)
From Coq Require Import String Ascii.
From Coq Require Import List NArith ZArith Bool Lia.
From Verif Require Import PyBase PyRegex PyFloat PyTime AeroRegex Utils Base MetarGroups Trend Metar Taf SpecText SpecApart
  ProofText ProofLists ProofAbsent ProofSections ProofMetarText ProofProb ProofTafText ProofAbsentTaf.
Import ListNotations.
Local Open Scope nat_scope.
Local Open Scope list_scope.

(** ** A map of states that the handlers respect *)

Lemma parse_groups_map : forall S (hs : list (handler S)) (f : S -> S),
  (forall h m s, In h hs -> h_handle h m (f s) = on_ok f (h_handle h m s)) ->
  forall gs i un st, parse_groups hs gs i un (f st) = on_ok (fun r => (f (fst r), snd r)) (parse_groups hs gs i un st).
Proof.
  intros S hs f H gs. induction gs as [|g gs IH]; intros i un st; cbn [parse_groups]; [reflexivity|]. cbv zeta.
  destruct (first_match (skipn i hs) 0 g) as [[[n h] m]|] eqn:F; [|apply IH].
  assert (I : In h hs).
  { clear - F. assert (K : In h (skipn i hs)).
    { revert F. generalize 0. induction (skipn i hs) as [|a l IHl]; intros c E; cbn [first_match] in E; [discriminate E|].
      destruct (re_match (h_regexp a) g); [injection E as _ <- _; left; reflexivity|right; exact (IHl _ E)]. }
    clear F. revert i K. induction hs as [|a hs IH]; intros [|i] K; cbn [skipn] in K; try exact K. right. exact (IH _ K). }
  rewrite (H h m st I). destruct (h_handle h m st) as [st'|]; cbn [on_ok bind]; [apply IH|reflexivity].
Qed.

(** ** METAR *)

Definition swap (raw : str) (secs : list str) (x : metar) : metar :=
  mk_metar raw secs (me_unparsed x) (me_type x) (me_station x) (me_time x)
    (me_modifier x) (me_common x) (me_wvar x) (me_minvis x) (me_rvr x) (me_temps x) (me_press x)
    (me_recent x) (me_ws x) (me_sea x) (me_rwy x) (me_trends x) (me_out x).

Lemma swap_handlers : forall raw secs e y mo h m s, In h (metar_handlers e y mo) ->
  h_handle h m (swap raw secs s) = on_ok (swap raw secs) (h_handle h m s).
Proof.
  intros raw secs e y mo h m s I. unfold metar_handlers in I. cbn [In] in I.
  assert (L : forall f, lift f m (swap raw secs s) = on_ok (swap raw secs) (lift f m s)).
  { intros f. unfold lift. cbn [me_common swap]. destruct (f m (me_common s)); reflexivity. }
  repeat (destruct I as [<-|I]; [cbn [h_handle]|]); try contradiction; try apply L;
    unfold handle_type, handle_station, handle_time, handle_modifier, handle_wind_variation, handle_minimum_visibility,
      handle_runway_range, handle_temperatures, handle_pressure, handle_recent_weather, handle_windshear, handle_sea_state,
      handle_runway_state; cbv zeta; cbn [me_rvr me_ws me_press swap]; try reflexivity;
    repeat (match goal with |- bind ?r _ = on_ok _ (bind ?r _) => destruct r; cbn [bind]; [|reflexivity] end); reflexivity.
Qed.

Lemma swap_trends : forall raw secs l x, handle_trends l (swap raw secs x) = on_ok (swap raw secs) (handle_trends l x).
Proof.
  intros raw secs l. induction l as [|w l IH]; intros x; cbn [handle_trends]; [reflexivity|].
  destruct w as [|c w]; [apply IH|]. unfold handle_weather_trend. cbn [me_time me_trends swap].
  destruct (change_period_new (c :: w) _) as [p|]; cbn [bind]; [|reflexivity].
  destruct (gl_add p (me_trends x)) as [g|]; cbn [bind]; [|reflexivity].
  exact (IH (out_string (change_period_str p) (upd_out (me_out x ++ cp_out p) (upd_trends g x)))).
Qed.

(** The reading of a METAR from its first two sections. *)
Definition metar_bodied (e : env) (y mo : option Z) (body : str) : result metar :=
  x <- metar_init e [] y mo ;;
  r <- parse_section (metar_handlers e y mo) (sanitize_body body) x ;;
  let (x', unparsed) := (r : metar * list str) in
  Ok (upd_unparsed (me_unparsed x' ++ unparsed) x').
Definition metar_trended (tr : bool) (trend : str) (x : metar) : result metar :=
  x <- handle_trends (trend_codes trend) x ;;
  let (l, g) := gl_collect (me_trends x) in
  let x := upd_unparsed (me_unparsed x ++ flat_map cp_unparsed l) (upd_trends g x) in
  match me_unparsed x with
  | _ :: _ => if tr then Raise ParserError else Ok x
  | [] => Ok x
  end.
Definition metar_read (e : env) (y mo : option Z) (tr : bool) (body trend : str) : result metar :=
  x <- metar_bodied e y mo body ;; metar_trended tr trend x.

Lemma init_swap : forall e raw y mo, metar_init e raw y mo = on_ok (swap raw (metar_sections raw)) (metar_init e [] y mo).
Proof.
  intros e raw y mo. unfold metar_init.
  repeat (match goal with |- bind ?r _ = on_ok _ (bind ?r _) => destruct r; cbn [bind]; [|reflexivity] end). reflexivity.
Qed.

Lemma section_kept : forall e y mo h m s s', In h (metar_handlers e y mo) -> h_handle h m s = Ok s' -> me_sections s' = me_sections s.
Proof.
  intros e y mo h m s s' I E. pose proof (swap_handlers (me_raw s) (me_sections s) e y mo h m s I) as K.
  assert (X : swap (me_raw s) (me_sections s) s = s) by (destruct s; reflexivity). rewrite X, E in K. cbn [on_ok] in K.
  injection K as K. rewrite K. reflexivity.
Qed.

Lemma metar_factor : forall e code y mo tr raw, report_raw_code code = Ok raw ->
  metar_parse e code y mo tr
  = on_ok (swap raw (metar_sections raw)) (metar_read e y mo tr (section 0 (metar_sections raw)) (section 1 (metar_sections raw))).
Proof.
  intros e code y mo tr raw R. unfold metar_parse, metar_read, metar_bodied. rewrite R. cbn [bind]. rewrite init_swap.
  set (secs := metar_sections raw). destruct (metar_init e [] y mo) as [x0|]; cbn [on_ok bind]; [|reflexivity].
  unfold parse_body, parse_section. cbn [me_sections swap].
  rewrite (parse_groups_map _ _ (swap raw secs) (fun h m s => swap_handlers raw secs e y mo h m s)).
  destruct (parse_groups _ _ 0 [] x0) as [[x1 un]|]; cbn [on_ok bind fst snd]; [|reflexivity].
  change (upd_unparsed (me_unparsed (swap raw secs x1) ++ un) (swap raw secs x1)) with (swap raw secs (upd_unparsed (me_unparsed x1 ++ un) x1)).
  generalize (upd_unparsed (me_unparsed x1 ++ un) x1). intros x2. unfold parse_weather_trend, metar_trended. cbn [me_sections swap].
  rewrite swap_trends. destruct (handle_trends _ x2) as [x3|]; cbn [on_ok bind]; [|reflexivity].
  cbn [me_trends me_unparsed swap]. destruct (gl_collect (me_trends x3)) as [l g]. cbv zeta. cbn [me_unparsed upd_unparsed].
  destruct (me_unparsed x3 ++ flat_map cp_unparsed l); [reflexivity|]. destruct tr; reflexivity.
Qed.

Lemma factor_ok : forall e code y mo tr x, metar_parse e code y mo tr = Ok x ->
  exists x', metar_read e y mo tr (section 0 (me_sections x)) (section 1 (me_sections x)) = Ok x'
    /\ x = swap (me_raw x) (me_sections x) x'.
Proof.
  intros e code y mo tr x E. destruct (report_raw_code code) as [raw|] eqn:R; [|unfold metar_parse in E; rewrite R in E; discriminate E].
  rewrite (metar_factor _ _ _ _ _ _ R) in E. destruct (metar_read _ _ _ _ _ _) as [x'|] eqn:M; cbn [on_ok] in E; [|discriminate E].
  injection E as <-. exists x'. cbn [me_sections me_raw swap]. split; [exact M|reflexivity].
Qed.

(** Trends leave the body alone. *)
Lemma trends_body : forall l x x', handle_trends l x = Ok x' -> body_part x' = body_part x.
Proof.
  intros l. induction l as [|w l IH]; intros x x' E; cbn [handle_trends] in E; [injection E as <-; reflexivity|].
  destruct w as [|c w]; [exact (IH _ _ E)|]. unfold handle_weather_trend in E.
  destruct (change_period_new (c :: w) _) as [p|]; cbn [bind] in E; [|discriminate E].
  destruct (gl_add p (me_trends x)) as [g|]; cbn [bind] in E; [|discriminate E]. rewrite (IH _ _ E). reflexivity.
Qed.

Lemma trended_body : forall tr trend x x', metar_trended tr trend x = Ok x' -> body_part x' = body_part x.
Proof.
  intros tr trend x x' E. unfold metar_trended in E. destruct (handle_trends _ x) as [x1|] eqn:T; cbn [bind] in E; [|discriminate E].
  apply trends_body in T. destruct (gl_collect (me_trends x1)) as [l g]. cbv zeta in E.
  rewrite <- T. destruct (me_unparsed (upd_unparsed _ _)) in E; [|destruct tr; [discriminate E|]]; injection E as <-; reflexivity.
Qed.

Lemma metar_body : forall e c1 c2 y mo tr1 tr2 x1 x2, metar_parse e c1 y mo tr1 = Ok x1 -> metar_parse e c2 y mo tr2 = Ok x2 ->
  section 0 (me_sections x1) = section 0 (me_sections x2) -> body_part x1 = body_part x2.
Proof.
  intros e c1 c2 y mo tr1 tr2 x1 x2 E1 E2 S. apply factor_ok in E1. apply factor_ok in E2.
  destruct E1 as (z1 & M1 & X1), E2 as (z2 & M2 & X2). rewrite X1, X2. change (body_part z1 = body_part z2).
  unfold metar_read in M1, M2. rewrite <- S in M2. destruct (metar_bodied e y mo _) as [b|]; cbn [bind] in M1, M2; [|discriminate M1].
  rewrite (trended_body _ _ _ _ M1), (trended_body _ _ _ _ M2). reflexivity.
Qed.

Lemma metar_unread : forall e c1 c2 y mo tr r1 r2, report_raw_code c1 = Ok r1 -> report_raw_code c2 = Ok r2 ->
  section 0 (metar_sections r1) = section 0 (metar_sections r2) -> section 1 (metar_sections r1) = section 1 (metar_sections r2) ->
  on_ok but_text (metar_parse e c1 y mo tr) = on_ok but_text (metar_parse e c2 y mo tr).
Proof.
  intros e c1 c2 y mo tr r1 r2 R1 R2 S0 S1. rewrite (metar_factor _ _ _ _ _ _ R1), (metar_factor _ _ _ _ _ _ R2), S0, S1.
  destruct (metar_read _ _ _ _ _ _); reflexivity.
Qed.

(** ** Trends *)

Definition trend_of (t : datetime) (p : change_period) : Prop := exists w, change_period_new w t = Ok p.

Lemma trends_of_text : forall l x x', handle_trends l x = Ok x' -> Forall (trend_of (t_dt (me_time x))) (gl_list (me_trends x)) ->
  Forall (trend_of (t_dt (me_time x'))) (gl_list (me_trends x')).
Proof.
  intros l. induction l as [|w l IH]; intros x x' E H; cbn [handle_trends] in E; [injection E as <-; exact H|].
  destruct w as [|c w]; [exact (IH _ _ E H)|]. unfold handle_weather_trend in E.
  destruct (change_period_new (c :: w) _) as [p|] eqn:P; cbn [bind] in E; [|discriminate E].
  destruct (gl_add p (me_trends x)) as [g|] eqn:G; cbn [bind] in E; [|discriminate E]. apply IH in E; [exact E|].
  cbn [me_trends me_time out_string upd_common upd_out upd_trends]. apply (gl_add_forall _ _ _ _ _ G); [exists (c :: w); exact P|exact H].
Qed.

Lemma metar_trends_of : forall e code y mo tr x, metar_parse e code y mo tr = Ok x ->
  Forall (trend_of (t_dt (me_time x))) (gl_list (me_trends x)).
Proof.
  intros e code y mo tr x E. apply factor_ok in E. destruct E as (x' & M & ->). cbn [me_time me_trends swap].
  unfold metar_read in M. destruct (metar_bodied e y mo _) as [b|] eqn:B; cbn [bind] in M; [|discriminate M].
  assert (N : gl_list (me_trends b) = []).
  { unfold metar_bodied in B. destruct (metar_init e [] y mo) as [x0|] eqn:I; cbn [bind] in B; [|discriminate B].
    assert (I0 : gl_list (me_trends x0) = []).
    { unfold metar_init in I. binds I. injection I as <-. reflexivity. }
    destruct (parse_section _ _ x0) as [[x1 un]|] eqn:P; cbn [bind] in B; [|discriminate B]. injection B as <-.
    cbn [me_trends upd_unparsed]. apply (parse_section_inv _ (fun x => gl_list (me_trends x) = [])) in P; [exact P| |exact I0].
    intros h m s s' Ih Eh K. rewrite (metar_handler_trends _ _ _ _ _ _ _ Ih Eh). exact K. }
  unfold metar_trended in M. destruct (handle_trends _ b) as [x1|] eqn:T; cbn [bind] in M; [|discriminate M].
  apply trends_of_text in T; [|rewrite N; constructor]. rewrite gl_collect_spec in M. cbv zeta in M.
  destruct (me_unparsed (upd_unparsed _ _)) in M; [|destruct tr; [discriminate M|]]; injection M as <-; exact T.
Qed.

Lemma period_code : forall w t p, change_period_new w t = Ok p -> cp_code p = Some (replace (py "_") (py " ") w).
Proof.
  intros w t p E. unfold change_period_new in E. cbv zeta in E. destruct (common_new []) as [c|]; cbn [bind] in E; [|discriminate E].
  destruct (trend_ind_new None t) as [i|]; cbn [bind] in E; [|discriminate E].
  destruct (parse_section trend_handlers _ _) as [[q un]|] eqn:P; cbn [bind] in E; [|discriminate E]. injection E as <-. cbn [cp_code].
  apply (parse_section_inv _ (fun q => cp_code q = Some (replace (py "_") (py " ") w))) in P; [exact P| |reflexivity].
  intros h m s s' I Eh K. rewrite <- K. clear - I Eh. unfold trend_handlers in I. cbn [In] in I.
  repeat (destruct I as [<-|I]; [cbn [h_handle] in Eh|]); try contradiction;
    unfold cp_lift, handle_trend_indicator, handle_time_period in Eh; cbv zeta in Eh; binds Eh;
    match type of Eh with Ok ?a = Ok s' => transitivity (cp_code a); [congruence|reflexivity] end.
Qed.

Lemma metar_trend_text : forall e1 e2 c1 c2 y1 y2 mo1 mo2 tr1 tr2 x1 x2 p1 p2,
  metar_parse e1 c1 y1 mo1 tr1 = Ok x1 -> metar_parse e2 c2 y2 mo2 tr2 = Ok x2 ->
  In p1 (gl_list (me_trends x1)) -> In p2 (gl_list (me_trends x2)) -> cp_code p1 = cp_code p2 ->
  t_dt (me_time x1) = t_dt (me_time x2) -> p1 = p2.
Proof.
  intros e1 e2 c1 c2 y1 y2 mo1 mo2 tr1 tr2 x1 x2 p1 p2 E1 E2 I1 I2 C T. apply metar_trends_of in E1. apply metar_trends_of in E2.
  destruct (proj1 (Forall_forall _ _) E1 _ I1) as (w1 & W1). destruct (proj1 (Forall_forall _ _) E2 _ I2) as (w2 & W2).
  rewrite <- T in W2. pose proof (period_code _ _ _ W1) as K1. pose proof (period_code _ _ _ W2) as K2.
  assert (R : replace (py "_") (py " ") w1 = replace (py "_") (py " ") w2) by congruence.
  unfold change_period_new in W1, W2. rewrite R in W1. rewrite W1 in W2. injection W2 as <-. reflexivity.
Qed.

(** ** The text of a METAR *)

Lemma sentence_app : forall a b, a <> [] -> b <> [] -> sentence (a ++ b) = sentence a ++ 32%N :: sentence b.
Proof.
  intros a. induction a as [|w a IH]; intros b A B; [contradiction|]. destruct a as [|v a].
  - destruct b as [|u b]; [contradiction|]. reflexivity.
  - specialize (IH b ltac:(discriminate) B). cbn [app] in *. unfold sentence in *. cbn [join] in *. rewrite IH, <- !app_assoc. reflexivity.
Qed.

Lemma starts_cut : forall kw q r, ~ In 32%N kw -> starts_with kw (q ++ 32%N :: r) = true -> starts_with kw q = true.
Proof.
  intros kw. induction kw as [|c kw IH]; intros q r N H; [reflexivity|]. destruct q as [|d q]; cbn [app starts_with] in *.
  - apply andb_prop in H. destruct H as [H _]. apply N.eqb_eq in H. exfalso. apply N. left. exact H.
  - apply andb_prop in H. destruct H as [H1 H2]. rewrite H1. apply (IH q r); [intros I; apply N; right; exact I|exact H2].
Qed.

Lemma pieces_app : forall kws s t ps qs, Forall (fun k => ~ In 32%N k) kws -> pieces kws s ps -> pieces kws t qs -> begins_any kws t = true ->
  pieces kws (s ++ 32%N :: t) (ps ++ qs).
Proof.
  intros kws s t ps qs Kw (S1 & S2 & S3 & S4) (T1 & T2 & T3 & T4) B. split; [rewrite sentence_app by assumption; rewrite <- S1, <- T1; reflexivity|].
  split; [destruct ps; [contradiction|discriminate]|]. split; [apply Forall_app; split; assumption|].
  destruct ps as [|p ps]; [contradiction|]. cbn [app tl] in *. apply Forall_app. split; [exact S4|].
  destruct qs as [|q qs]; [contradiction|]. constructor; [|exact T4].
  rewrite T1 in B. unfold begins_any in *. rewrite existsb_exists in *. destruct B as (k & I & K). exists k. split; [exact I|].
  destruct qs as [|q' qs]; [exact K|]. unfold sentence in K. cbn [join] in K.
  change (q ++ py " " ++ join (py " ") (q' :: qs)) with (q ++ 32%N :: join (py " ") (q' :: qs)) in K.
  exact (starts_cut _ _ _ (proj1 (Forall_forall _ _) Kw _ I) K).
Qed.

Lemma written_raw : forall ws t, written ws t -> Forall plain_word ws -> report_raw_code t = Ok (sentence ws).
Proof.
  intros ws t (t0 & a & e & b & L & A & B & E & ->) P. apply raw_layout; try assumption.
  - apply Forall_forall. intros w I. exact (proj1 (proj1 (Forall_forall _ _) P _ I)).
  - apply Forall_forall. intros w I. exact (proj1 (proj2 (proj1 (Forall_forall _ _) P _ I))).
Qed.

Lemma plain_bars : forall ws, Forall plain_word ws -> ~ In 124%N (sentence ws).
Proof.
  intros ws P. apply sentence_no; [discriminate|]. apply Forall_forall. intros w I.
  exact (proj2 (proj2 (proj1 (Forall_forall _ _) P _ I))).
Qed.

Lemma metar_layout : forall e ws t1 t2 y mo tr, Forall plain_word ws -> written ws t1 -> written ws t2 ->
  metar_parse e t1 y mo tr = metar_parse e t2 y mo tr.
Proof.
  intros e ws t1 t2 y mo tr P W1 W2. rewrite (metar_factor e t1 y mo tr _ (written_raw _ _ W1 P)),
    (metar_factor e t2 y mo tr _ (written_raw _ _ W2 P)). reflexivity.
Qed.

Lemma taf_layout : forall e ws t1 t2 y mo tr, Forall plain_word ws -> written ws t1 -> written ws t2 ->
  taf_parse e t1 y mo tr = taf_parse e t2 y mo tr.
Proof. intros e ws t1 t2 y mo tr P W1 W2. unfold taf_parse. rewrite (written_raw _ _ W1 P), (written_raw _ _ W2 P). reflexivity. Qed.

Lemma section_words_plain : Forall (fun k => ~ In 32%N k) section_words.
Proof. repeat constructor; cbn; intuition discriminate. Qed.

Lemma opening_sentence : forall w ts, opening w -> begins_any section_words (sentence (w :: ts)) = true.
Proof.
  intros w ts O. unfold opening, begins_any in *. rewrite existsb_exists in *. destruct O as (k & I & K). exists k. split; [exact I|].
  destruct ts as [|v ts]; [exact K|]. change (sentence (w :: v :: ts)) with (w ++ py " " ++ sentence (v :: ts)).
  clear I. revert w K. induction k as [|c k IH]; intros w K; [reflexivity|]. destruct w as [|d w]; cbn [starts_with app] in *; [discriminate K|].
  apply andb_prop in K. destruct K as [K1 K2]. rewrite K1. exact (IH _ K2).
Qed.

(** The cut of a text after which groups are written that open a section. *)
Lemma appended_pieces : forall ws w ts, Forall plain_word (ws ++ w :: ts) -> ws <> [] -> opening w ->
  exists ps qs, pieces section_words (sentence ws) ps /\ pieces section_words (sentence (w :: ts)) qs
    /\ metar_sections (sentence ws) = [body_of ps; strip (sentence (trends_of ps)); last_remark ps]
    /\ metar_sections (sentence (ws ++ w :: ts)) = [body_of (ps ++ qs); strip (sentence (trends_of (ps ++ qs))); last_remark (ps ++ qs)].
Proof.
  intros ws w ts P N O. pose proof (plain_bars _ P) as B. apply Forall_app in P. destruct P as [P1 P2].
  destruct (metar_sections_spec _ (plain_bars _ P1)) as (ps & S1 & _ & M1).
  destruct (metar_sections_spec _ (plain_bars _ P2)) as (qs & S2 & _ & _).
  destruct (metar_sections_spec _ B) as (rs & _ & U & M3).
  exists ps, qs. split; [exact S1|]. split; [exact S2|]. split; [exact M1|]. rewrite M3.
  assert (R : ps ++ qs = rs).
  { apply U. rewrite sentence_app by (assumption || discriminate).
    apply pieces_app; [exact section_words_plain|exact S1|exact S2|exact (opening_sentence _ _ O)]. }
  rewrite R. reflexivity.
Qed.

Lemma body_of_app : forall kws s ps qs, pieces kws s ps -> body_of (ps ++ qs) = body_of ps.
Proof. intros kws s ps qs (_ & N & _). destruct ps; [contradiction|reflexivity]. Qed.

Lemma metar_appended : forall e ws w ts t1 t2 y mo tr1 tr2 x1 x2, Forall plain_word (ws ++ w :: ts) -> ws <> [] -> opening w ->
  written ws t1 -> written (ws ++ w :: ts) t2 ->
  metar_parse e t1 y mo tr1 = Ok x1 -> metar_parse e t2 y mo tr2 = Ok x2 -> body_part x1 = body_part x2.
Proof.
  intros e ws w ts t1 t2 y mo tr1 tr2 x1 x2 P N O W1 W2 E1 E2.
  pose proof (written_raw _ _ W1 (proj1 (proj1 (Forall_app _ _ _) P))) as R1. pose proof (written_raw _ _ W2 P) as R2.
  destruct (appended_pieces _ _ _ P N O) as (ps & qs & S1 & _ & M1 & M2).
  apply (metar_body e t1 t2 y mo tr1 tr2 x1 x2 E1 E2).
  rewrite (metar_factor _ _ _ _ _ _ R1) in E1. rewrite (metar_factor _ _ _ _ _ _ R2) in E2.
  destruct (metar_read e y mo tr1 _ _) as [z1|]; [|discriminate E1]. destruct (metar_read e y mo tr2 _ _) as [z2|]; [|discriminate E2].
  cbn [on_ok] in E1, E2. injection E1 as <-. injection E2 as <-. cbn [me_sections swap]. rewrite M1, M2.
  cbn [section nth]. symmetry. exact (body_of_app _ _ _ _ S1).
Qed.

Lemma uncut_words : forall l, Forall (fun w => ~ In 32%N w) l -> Forall (fun v => begins_any section_words v = false) (tl l) ->
  uncut section_words (sentence l).
Proof.
  intros l. induction l as [|w l IH]; intros W B a b E; [destruct a; discriminate E|]. destruct l as [|v l].
  - exfalso. apply (Forall_inv W). change (sentence [w]) with w in E. rewrite E. apply in_or_app. right. left. reflexivity.
  - change (sentence (w :: v :: l)) with (w ++ 32%N :: sentence (v :: l)) in E. cbn [tl] in B. pose proof (Forall_inv W) as W0.
    assert (C : begins_any section_words (sentence (v :: l)) = false).
    { destruct (begins_any section_words (sentence (v :: l))) eqn:X; [|reflexivity]. exfalso. pose proof (Forall_inv B) as Bv.
      cbn beta in Bv. rewrite <- not_true_iff_false in Bv. apply Bv. unfold begins_any in *. rewrite existsb_exists in *.
      destruct X as (k & I & K). exists k. split; [exact I|]. destruct l as [|u l]; [exact K|].
      change (sentence (v :: u :: l)) with (v ++ 32%N :: sentence (u :: l)) in K.
      exact (starts_cut _ _ _ (proj1 (Forall_forall _ _) section_words_plain _ I) K). }
    revert a E. clear - IH W B C W0. induction w as [|c w IHw]; intros a E.
    + destruct a as [|d a]; cbn [app] in E; [injection E as <-; exact C|]. injection E as _ E.
      exact (IH (Forall_inv_tail W) (Forall_inv_tail B) _ _ E).
    + destruct a as [|d a]; cbn [app] in E; [injection E as E _; exfalso; apply W0; left; exact E|]. injection E as _ E.
      apply (IHw) with (a := a); [|intros I; apply W0; right; exact I|exact E].
      constructor; [intros I; apply W0; right; exact I|exact (Forall_inv_tail W)].
Qed.

Lemma metar_remark : forall e ws w ts t1 t2 y mo tr, Forall plain_word (ws ++ w :: ts) -> ws <> [] -> starts_with (py "RMK") w = true ->
  Forall (fun v => ~ opening v) ts -> written ws t1 -> written (ws ++ w :: ts) t2 ->
  on_ok but_text (metar_parse e t1 y mo tr) = on_ok but_text (metar_parse e t2 y mo tr).
Proof.
  intros e ws w ts t1 t2 y mo tr P N R Q W1 W2.
  assert (O : opening w).
  { unfold opening, begins_any. rewrite existsb_exists. exists (py "RMK"). split; [vm_compute; tauto|exact R]. }
  pose proof (written_raw _ _ W1 (proj1 (proj1 (Forall_app _ _ _) P))) as R1. pose proof (written_raw _ _ W2 P) as R2.
  destruct (appended_pieces _ _ _ P N O) as (ps & qs & S1 & S2 & M1 & M2).
  assert (U : qs = [sentence (w :: ts)]).
  { destruct (metar_sections_spec (sentence (w :: ts))) as (rs & _ & Un & _); [apply plain_bars; exact (proj2 (proj1 (Forall_app _ _ _) P))|].
    rewrite (Un _ S2). symmetry. apply Un. split; [reflexivity|]. split; [discriminate|]. split; [|constructor]. constructor; [|constructor].
    apply uncut_words.
    - apply proj1 with (B := True). split; [|exact I]. apply Forall_app in P. destruct P as [_ P]. apply Forall_forall. intros v Iv Hv.
      destruct (proj1 (proj1 (Forall_forall _ _) P _ Iv)) as [_ Z]. apply (proj1 (Forall_forall _ _) Z _ Hv). reflexivity.
    - cbn [tl]. apply Forall_forall. intros v Iv. pose proof (proj1 (Forall_forall _ _) Q _ Iv) as K. cbn beta in K. unfold opening in K.
      destruct (begins_any section_words v); [contradiction K; reflexivity|reflexivity]. }
  assert (T : trends_of (ps ++ qs) = trends_of ps).
  { rewrite U. unfold trends_of. rewrite filter_app. cbn [filter].
    assert (F : begins_any trend_words (sentence (w :: ts)) = false).
    { assert (H : exists r, sentence (w :: ts) = 82%N :: r).
      { destruct w as [|c w]; [discriminate R|]. change (py "RMK") with (82%N :: py "MK") in R. cbn [starts_with] in R.
        apply andb_prop in R. destruct R as [R _]. apply N.eqb_eq in R. rewrite <- R. destruct ts; eexists; reflexivity. }
      destruct H as (r & ->). reflexivity. }
    rewrite F, app_nil_r. reflexivity. }
  apply (metar_unread e t1 t2 y mo tr _ _ R1 R2); rewrite M1, M2; cbn [section nth].
  - symmetry. exact (body_of_app _ _ _ _ S1).
  - rewrite T. reflexivity.
Qed.

(** ** TAF *)

Definition tswap (raw body : str) (codes secs : list str) (x : taf) : taf :=
  mk_taf raw body codes secs (ta_unparsed x) (ta_type x) (ta_station x) (ta_time x) (ta_modifier x) (ta_common x) (ta_valid x)
    (ta_missing x) (ta_cancelled x) (ta_max x) (ta_min x) (ta_changes x).

Lemma tswap_handlers : forall raw body codes secs e y mo h m s, In h (taf_handlers e y mo) ->
  h_handle h m (tswap raw body codes secs s) = on_ok (tswap raw body codes secs) (h_handle h m s).
Proof.
  intros raw body codes secs e y mo h m s I. unfold taf_handlers in I. cbn [In] in I.
  assert (L : forall f, tlift f m (tswap raw body codes secs s) = on_ok (tswap raw body codes secs) (tlift f m s)).
  { intros f. unfold tlift. cbn [ta_common tswap]. destruct (f m (ta_common s)); reflexivity. }
  assert (T : thandle_temperature m (tswap raw body codes secs s) = on_ok (tswap raw body codes secs) (thandle_temperature m s)).
  { unfold thandle_temperature. cbn [ta_time ta_max ta_min tswap]. destruct (taf_temp_new m _) as [t|]; cbn [bind]; [|reflexivity].
    destruct (opt_str_eqb _ _); (destruct (gl_add t _); reflexivity). }
  repeat (destruct I as [<-|I]; [cbn [h_handle]|]); try contradiction; try apply L; try exact T;
    unfold thandle_type, thandle_modifier, thandle_station, thandle_time, thandle_missing, thandle_valid, thandle_cancelled;
    cbv zeta; cbn [ta_time tswap]; try reflexivity;
    repeat (match goal with |- bind ?r _ = on_ok _ (bind ?r _) => destruct r; cbn [bind]; [|reflexivity] end); reflexivity.
Qed.

Definition taf_start (e : env) : result taf :=
  t <- time_new e None None None None None None ;;
  c <- common_new [] ;;
  v <- valid_from_taf None (t_dt t) ;;
  Ok (mk_taf [] [] [] [] [] (type_new (py "TAF")) (station_new e None) t (modifier_new None) c v (missing_new None)
        (cancelled_new None) (gl_new 2) (gl_new 2) (gl_new 8)).
Definition taf_bodied (e : env) (y mo : option Z) (body : str) : result taf :=
  x <- taf_start e ;;
  r <- parse_section (taf_handlers e y mo) (sanitize_visibility body) x ;;
  let (x', unparsed) := (r : taf * list str) in
  Ok (tupd_unparsed (ta_unparsed x' ++ unparsed) x').

Lemma taf_factor : forall e code y mo tr x, taf_parse e code y mo tr = Ok x ->
  exists b x1, taf_bodied e y mo (ta_body x) = Ok b
    /\ handle_changes (ta_codes x) (tswap (ta_raw x) (ta_body x) (ta_codes x) (ta_sections x) b) = Ok x1
    /\ ta_changes b = gl_new 8
    /\ taf_part x = taf_part x1 /\ gl_list (ta_changes x) = gl_list (ta_changes x1).
Proof.
  intros e code y mo tr x E. unfold taf_parse in E. destruct (report_raw_code code) as [raw|]; [|discriminate E]. cbn [bind] in E.
  destruct (taf_split raw) as [body codes] eqn:Sp. set (secs := taf_sections body codes) in *.
  assert (I : taf_init e raw = on_ok (tswap raw body codes secs) (taf_start e)).
  { unfold taf_init, taf_start. rewrite Sp.
    repeat (match goal with |- bind ?r _ = on_ok _ (bind ?r _) => destruct r; cbn [bind]; [|reflexivity] end). reflexivity. }
  rewrite I in E. destruct (taf_start e) as [x0|] eqn:X0; cbn [on_ok bind] in E; [|discriminate E].
  unfold taf_parse_body, parse_section in E. cbn [ta_body tswap] in E.
  rewrite (parse_groups_map _ _ (tswap raw body codes secs) (fun h m s => tswap_handlers raw body codes secs e y mo h m s)) in E.
  destruct (parse_groups _ _ 0 [] x0) as [[x1 un]|] eqn:P; cbn [on_ok bind fst snd] in E; [|discriminate E].
  change (tupd_unparsed (ta_unparsed (tswap raw body codes secs x1) ++ un) (tswap raw body codes secs x1))
    with (tswap raw body codes secs (tupd_unparsed (ta_unparsed x1 ++ un) x1)) in E.
  set (b := tupd_unparsed (ta_unparsed x1 ++ un) x1) in *. unfold parse_changes_forecasted in E. cbn [ta_codes tswap] in E.
  destruct (handle_changes codes (tswap raw body codes secs b)) as [x2|] eqn:H; cbn [bind] in E; [|discriminate E].
  assert (K : forall l z z', handle_changes l z = Ok z' -> ta_raw z' = ta_raw z /\ ta_body z' = ta_body z /\ ta_codes z' = ta_codes z
    /\ ta_sections z' = ta_sections z).
  { clear. intros l. induction l as [|w l IH]; intros z z' E; cbn [handle_changes] in E; [injection E as <-; auto|].
    destruct w as [|c w]; [exact (IH _ _ E)|]. unfold handle_change_forecasted in E.
    destruct (change_fc_new (c :: w) _) as [p|]; cbn [bind] in E; [|discriminate E].
    destruct (changes_add p _) as [g|]; cbn [bind] in E; [|discriminate E]. exact (IH _ _ E). }
  pose proof (K _ _ _ H) as (K1 & K2 & K3 & K4). cbn [ta_raw ta_body ta_codes ta_sections tswap] in K1, K2, K3, K4.
  rewrite gl_collect_spec in E. cbv zeta in E.
  assert (X : exists un', x = tupd_unparsed un' (tupd_changes (mk_gl 0 (gl_max (ta_changes x2)) (gl_list (ta_changes x2))) x2)).
  { eexists. destruct (ta_unparsed (tupd_unparsed _ _)) as [|u us] in E; [symmetry; injection E; intros Q; exact Q|].
    destruct tr; [discriminate E|symmetry; injection E; intros Q; exact Q]. }
  destruct X as (un' & ->). exists b, x2. cbn [ta_raw ta_body ta_codes ta_sections tupd_unparsed tupd_changes]. rewrite K1, K2, K3, K4.
  split; [|split; [exact H|]; split; [|split; reflexivity]].
  - unfold taf_bodied. rewrite X0. cbn [bind]. unfold parse_section. rewrite P. reflexivity.
  - unfold b. cbn [ta_changes tupd_unparsed].
    change (parse_section (taf_handlers e y mo) (sanitize_visibility body) x0 = Ok (x1, un)) in P.
    apply (parse_section_inv _ (fun x => ta_changes x = gl_new 8)) in P.
    + exact P.
    + intros h m s s' Ih Eh Q. rewrite <- Q. clear - Ih Eh. unfold taf_handlers in Ih. cbn [In] in Ih.
      assert (T : thandle_temperature m s = Ok s' -> ta_changes s' = ta_changes s).
      { intros Et. unfold thandle_temperature in Et. destruct (taf_temp_new m _) as [t|]; [|discriminate Et]. cbn [bind] in Et.
        destruct (opt_str_eqb _ _); (destruct (gl_add t _) as [l|]; [|discriminate Et]; cbn [bind] in Et; injection Et as <-; reflexivity). }
      repeat (destruct Ih as [<-|Ih]; [cbn [h_handle] in Eh|]); try contradiction; try exact (T Eh);
        unfold tlift, thandle_type, thandle_modifier, thandle_station, thandle_time, thandle_missing, thandle_valid, thandle_cancelled in Eh;
        cbv zeta in Eh; binds Eh;
        match type of Eh with Ok ?a = Ok s' => transitivity (ta_changes a); [congruence|reflexivity] end.
    + unfold taf_start in X0. binds X0. injection X0 as <-. reflexivity.
Qed.

Lemma changes_part : forall l x x', handle_changes l x = Ok x' -> taf_part x' = taf_part x.
Proof.
  intros l. induction l as [|w l IH]; intros x x' E; cbn [handle_changes] in E; [injection E as <-; reflexivity|].
  destruct w as [|c w]; [exact (IH _ _ E)|]. unfold handle_change_forecasted in E.
  destruct (change_fc_new (c :: w) _) as [p|]; cbn [bind] in E; [|discriminate E].
  destruct (changes_add p _) as [g|]; cbn [bind] in E; [|discriminate E]. rewrite (IH _ _ E). reflexivity.
Qed.

Lemma taf_body_part : forall e c1 c2 y mo tr1 tr2 x1 x2, taf_parse e c1 y mo tr1 = Ok x1 -> taf_parse e c2 y mo tr2 = Ok x2 ->
  ta_body x1 = ta_body x2 -> taf_part x1 = taf_part x2.
Proof.
  intros e c1 c2 y mo tr1 tr2 x1 x2 E1 E2 B. apply taf_factor in E1. apply taf_factor in E2.
  destruct E1 as (b1 & z1 & B1 & H1 & _ & P1 & _), E2 as (b2 & z2 & B2 & H2 & _ & P2 & _). rewrite <- B, B1 in B2. injection B2 as <-.
  apply changes_part in H1. apply changes_part in H2. rewrite P1, P2, H1, H2. reflexivity.
Qed.

(** ** Changes *)

(** What a change has become since it was read: its end may have been moved. *)
Definition moved (p0 p : change_fc) : Prop := p = p0
  \/ (fm (tc_code (cf_ind p0)) /\ exists u t, p = cf_set_ind (mk_tci (tc_code (cf_ind p0)) t (valid_new None (va_from (tc_valid (cf_ind p0))) u)) p0).
Definition change_of (v : valid) (p : change_fc) : Prop := exists w p0, change_fc_new w v = Ok p0 /\ moved p0 p.

Lemma fm_starts : forall c, starts_with (py "FM") c = true -> fm (Some c).
Proof.
  intros c H. change (py "FM") with [70; 77]%N in H. destruct c as [|a [|b c]]; cbn [starts_with] in H; try discriminate H.
  - apply andb_prop in H. destruct H as [_ H]. discriminate H.
  - apply andb_prop in H. destruct H as [H1 H]. apply andb_prop in H. destruct H as [H2 _].
    apply N.eqb_eq in H1. apply N.eqb_eq in H2. exists c. rewrite <- H1, <- H2. reflexivity.
Qed.

Lemma pop_of : forall v u rl temp a b, pop_changes u rl temp = Ok (a, b) -> Forall (change_of v) rl -> Forall (change_of v) temp ->
  Forall (change_of v) a /\ Forall (change_of v) b.
Proof.
  intros v u rl. induction rl as [|l rl IH]; intros temp a b E H T; cbn [pop_changes] in E; [injection E as <- <-; auto|].
  pose proof (Forall_inv H) as Hl. pose proof (Forall_inv_tail H) as Hr. destruct (tc_code (cf_ind l)) as [c|] eqn:Ec; [|discriminate E].
  destruct (_ || _); [exact (IH _ _ _ E Hr (Forall_cons _ Hl T))|].
  destruct (starts_with (py "FM") c) eqn:F; [|injection E as <- <-; split; [exact Hr|constructor; assumption]].
  unfold reset_until_period in E. destruct (dt_add_hours (t_dt u) (-1)) as [d|]; cbn [bind] in E; [|discriminate E].
  rewrite Ec, F in E. cbv zeta in E. cbn [bind] in E. injection E as <- <-. split; [exact Hr|]. constructor; [|exact T].
  destruct Hl as (w & p0 & W & M). exists w, p0. split; [exact W|]. right. destruct M as [->|(M1 & u' & t' & ->)].
  - split; [rewrite Ec; exact (fm_starts _ F)|]. eexists. eexists. rewrite Ec. reflexivity.
  - split; [exact M1|]. cbn [cf_ind cf_set_ind tc_code tc_valid] in *. eexists. eexists. rewrite Ec. unfold cf_set_ind. cbn. reflexivity.
Qed.

Lemma add_of : forall v p g g', changes_add p g = Ok g' -> change_of v p -> Forall (change_of v) (gl_list g) ->
  Forall (change_of v) (gl_list g').
Proof.
  intros v p g g' E Hp Hg. unfold changes_add in E. cbv zeta in E. destruct (_ && _); [|exact (gl_add_forall _ _ _ _ _ E Hp Hg)].
  destruct (pop_changes _ (rev (gl_list g)) []) as [[rl temp]|] eqn:P; [|discriminate E]. cbn [bind] in E.
  apply (pop_of v) in P; [|apply Forall_rev; exact Hg|constructor]. destruct P as [P1 P2].
  destruct (gl_add_all temp _) as [g1|] eqn:A; [|discriminate E]. cbn [bind] in E.
  apply (add_all_kept _ (change_of v)) in A; [|exact P2|cbn [gl_list]; apply Forall_rev; exact P1].
  exact (gl_add_forall _ _ _ _ _ E Hp A).
Qed.

Lemma changes_of_text : forall l x x', handle_changes l x = Ok x' -> Forall (change_of (ta_valid x)) (gl_list (ta_changes x)) ->
  Forall (change_of (ta_valid x')) (gl_list (ta_changes x')).
Proof.
  intros l. induction l as [|w l IH]; intros x x' E H; cbn [handle_changes] in E; [injection E as <-; exact H|].
  destruct w as [|c w]; [exact (IH _ _ E H)|]. unfold handle_change_forecasted in E.
  destruct (change_fc_new (c :: w) _) as [p|] eqn:P; cbn [bind] in E; [|discriminate E].
  destruct (changes_add p (ta_changes x)) as [g|] eqn:G; cbn [bind] in E; [|discriminate E]. apply IH in E; [exact E|].
  cbn [ta_changes ta_valid tout_string tupd_common tupd_changes]. apply (add_of _ _ _ _ G); [exists (c :: w), p; split; [exact P|left; reflexivity]|exact H].
Qed.

Lemma taf_changes_of : forall e code y mo tr x, taf_parse e code y mo tr = Ok x ->
  Forall (change_of (ta_valid x)) (gl_list (ta_changes x)).
Proof.
  intros e code y mo tr x E. apply taf_factor in E. destruct E as (b & z & _ & H & N & P & G). apply changes_of_text in H.
  - rewrite G. replace (ta_valid x) with (ta_valid z); [exact H|]. unfold taf_part in P. congruence.
  - cbn [ta_changes tswap]. rewrite N. constructor.
Qed.

Lemma change_code_kept : forall w v p, change_fc_new w v = Ok p -> cf_code p = Some (replace (py "_") (py " ") w).
Proof.
  intros w v p E. unfold change_fc_new in E. cbv zeta in E. destruct (common_new []) as [c|]; cbn [bind] in E; [|discriminate E].
  destruct (taf_ind_new None v) as [i|]; cbn [bind] in E; [|discriminate E].
  destruct (parse_section change_handlers _ _) as [[q un]|] eqn:P; cbn [bind] in E; [|discriminate E]. injection E as <-. cbn [cf_code].
  apply (parse_section_inv _ (fun q => cf_code q = Some (replace (py "_") (py " ") w))) in P; [exact P| |reflexivity].
  intros h m s s' I Eh K. rewrite <- K. clear - I Eh. unfold change_handlers in I. cbn [In] in I.
  repeat (destruct I as [<-|I]; [cbn [h_handle] in Eh|]); try contradiction;
    unfold cf_lift, handle_change_indicator, handle_change_valid in Eh; cbv zeta in Eh; binds Eh;
    match type of Eh with Ok ?a = Ok s' => transitivity (cf_code a); [congruence|reflexivity] end.
Qed.

Lemma taf_change_text : forall e1 e2 c1 c2 y1 y2 mo1 mo2 tr1 tr2 x1 x2 p1 p2,
  taf_parse e1 c1 y1 mo1 tr1 = Ok x1 -> taf_parse e2 c2 y2 mo2 tr2 = Ok x2 ->
  In p1 (gl_list (ta_changes x1)) -> In p2 (gl_list (ta_changes x2)) -> cf_code p1 = cf_code p2 ->
  ta_valid x1 = ta_valid x2 -> same_change p1 p2.
Proof.
  intros e1 e2 c1 c2 y1 y2 mo1 mo2 tr1 tr2 x1 x2 p1 p2 E1 E2 I1 I2 C T. apply taf_changes_of in E1. apply taf_changes_of in E2.
  destruct (proj1 (Forall_forall _ _) E1 _ I1) as (w1 & q1 & W1 & M1). destruct (proj1 (Forall_forall _ _) E2 _ I2) as (w2 & q2 & W2 & M2).
  rewrite <- T in W2. pose proof (change_code_kept _ _ _ W1) as K1. pose proof (change_code_kept _ _ _ W2) as K2.
  assert (D : forall q p, moved q p -> cf_code p = cf_code q) by (intros q p [->|(_ & u & t & ->)]; reflexivity).
  pose proof (D _ _ M1) as D1. pose proof (D _ _ M2) as D2.
  assert (R : replace (py "_") (py " ") w1 = replace (py "_") (py " ") w2) by congruence.
  unfold change_fc_new in W1, W2. rewrite R in W1. rewrite W1 in W2. injection W2 as <-. clear - M1 M2.
  destruct M1 as [->|(F1 & u1 & t1 & ->)], M2 as [->|(F2 & u2 & t2 & ->)]; constructor; try reflexivity; intros N; contradiction.
Qed.

(** ** The text of a TAF *)

Lemma chunks_app : forall l o m b cs, chunks l = (b, cs) -> opens o = true -> exists ds, chunks (l ++ o :: m) = (b, cs ++ ds) /\ ds <> [].
Proof.
  intros l. induction l as [|t l IH]; intros o m b cs C O; cbn [app chunks] in *.
  - injection C as <- <-. destruct (chunks m) as [b' cs']. rewrite O. eexists. split; [reflexivity|discriminate].
  - destruct (chunks l) as [b' cs'] eqn:E. destruct (IH o m b' cs' eq_refl O) as (ds & D & N). rewrite D.
    destruct (opens t); injection C as <- <-; exists ds; split; try exact N; reflexivity.
Qed.

Lemma stray_prefix : forall l m, no_stray_pair (l ++ m) -> no_stray_pair l.
Proof.
  intros l m [H1 H2]. split; [exact (proj1 (proj1 (Forall_app _ _ _) H1))|]. intros A u v B E. apply (H2 A u v (B ++ m)). rewrite E, <- app_assoc. reflexivity.
Qed.

Lemma taf_appended : forall e w l o m t1 t2 y mo tr1 tr2 x1 x2 b cs,
  let words k := py "TAF" :: w :: flat_map ct_words k in
  opens o = true -> no_stray_pair (Plain (py "TAF") :: Plain w :: l ++ o :: m) -> length (filter is_pair (l ++ o :: m)) <= 5 ->
  Forall plain_tok (Plain w :: l ++ o :: m) -> chunks (l ++ o :: m) = (b, cs) -> taf_apart w b cs ->
  Forall plain_word (words (l ++ o :: m)) -> written (words l) t1 -> written (words (l ++ o :: m)) t2 ->
  taf_parse e t1 y mo tr1 = Ok x1 -> taf_parse e t2 y mo tr2 = Ok x2 -> taf_part x1 = taf_part x2.
Proof.
  intros e w l o m t1 t2 y mo tr1 tr2 x1 x2 b cs words O S L P C A W T1 T2 E1 E2.
  assert (W1 : Forall plain_word (words l)).
  { unfold words in *. rewrite flat_map_app in W. change (py "TAF" :: w :: flat_map ct_words l ++ flat_map ct_words (o :: m))
      with ((py "TAF" :: w :: flat_map ct_words l) ++ flat_map ct_words (o :: m)) in W. exact (proj1 (proj1 (Forall_app _ _ _) W)). }
  destruct (chunks l) as [b1 cs1] eqn:C1. destruct (chunks_app l o m b1 cs1 C1 O) as (ds & D & N). rewrite D in C. injection C as <- <-.
  assert (A1 : taf_apart w b1 cs1).
  { intros _. destruct A as [A1 A2]; [destruct cs1; [exact N|discriminate]|]. split; [exact A1|].
    rewrite concat_app, map_app in A2. exact (proj1 (proj1 (Forall_app _ _ _) A2)). }
  assert (B : forall k b' cs' t x tr, no_stray_pair (Plain (py "TAF") :: Plain w :: k) -> length (filter is_pair k) <= 5 ->
    Forall plain_tok (Plain w :: k) -> chunks k = (b', cs') -> taf_apart w b' cs' -> Forall plain_word (words k) -> written (words k) t ->
    taf_parse e t y mo tr = Ok x -> ta_body x = sentence (words b')).
  { intros k b' cs' t x tr H1 H2 H3 H4 H5 H6 H7 E. destruct (taf_split_sections w k b' cs' H1 H2 H3 H4 H5) as (F & _).
    pose proof (written_raw _ _ H7 H6) as R. fold (words k) in F. fold (words b') in F. rewrite <- F.
    clear - E R. unfold taf_parse in E. rewrite R in E. cbn [bind] in E. destruct (taf_init e (sentence (words k))) as [x0|] eqn:I; cbn [bind] in E; [|discriminate E].
    assert (I0 : ta_body x0 = fst (taf_split (sentence (words k)))).
    { unfold taf_init in I. destruct (taf_split (sentence (words k))) as [bo co]. binds I. injection I as <-. reflexivity. }
    unfold taf_parse_body in E. destruct (parse_section (taf_handlers e y mo) _ x0) as [[x2 un]|] eqn:P; cbn [bind] in E; [|discriminate E].
    apply (parse_section_inv _ (fun z => ta_body z = ta_body x0)) in P; [| |reflexivity].
    - unfold parse_changes_forecasted in E. destruct (handle_changes _ _) as [x3|] eqn:H; cbn [bind] in E; [|discriminate E].
      assert (K : forall q z z', handle_changes q z = Ok z' -> ta_body z' = ta_body z).
      { clear. intros q. induction q as [|v q IH]; intros z z' E; cbn [handle_changes] in E; [injection E as <-; auto|].
        destruct v as [|c v]; [exact (IH _ _ E)|]. unfold handle_change_forecasted in E.
        destruct (change_fc_new (c :: v) _) as [p|]; cbn [bind] in E; [|discriminate E].
        destruct (changes_add p _) as [g|]; cbn [bind] in E; [|discriminate E]. exact (IH _ _ E). }
      apply K in H. cbn [ta_body tupd_unparsed] in H. rewrite <- I0, <- P, <- H. destruct (gl_collect (ta_changes x3)) as [q g]. cbv zeta in E.
      destruct (ta_unparsed (tupd_unparsed _ _)) in E; [|destruct tr; [discriminate E|]]; injection E as <-; reflexivity.
    - intros h mm s s' Ih Eh Q. rewrite <- Q.
      pose proof (tswap_handlers (ta_raw s) (ta_body s) (ta_codes s) (ta_sections s) e y mo h mm s Ih) as Z.
      assert (X : tswap (ta_raw s) (ta_body s) (ta_codes s) (ta_sections s) s = s) by (destruct s; reflexivity).
      rewrite X, Eh in Z. cbn [on_ok] in Z. injection Z as Z. rewrite Z. reflexivity. }
  apply (taf_body_part e t1 t2 y mo tr1 tr2 x1 x2 E1 E2).
  rewrite (B (l ++ o :: m) b1 (cs1 ++ ds) t2 x2 tr2 S L P D A W T2 E2).
  refine (B l b1 cs1 t1 x1 tr1 _ _ _ C1 A1 W1 T1 E1).
  - exact (stray_prefix (Plain (py "TAF") :: Plain w :: l) (o :: m) S).
  - rewrite filter_app, app_length in L. lia.
  - change (Plain w :: l ++ o :: m) with ((Plain w :: l) ++ o :: m) in P. exact (proj1 (proj1 (Forall_app _ _ _) P)).
Qed.
