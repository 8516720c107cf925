(** * Proofs: a METAR with trends is read back (C56) *)
From Coq Require Import String Ascii.
From Coq Require Import List NArith ZArith Bool Lia.
From Verif Require Import PyBase PyRegex AeroRegex PyFloat PyTime Utils Base MetarGroups Trend Metar Taf SpecNum SpecGroups SpecTime
  SpecText SpecTaf SpecWords SpecMetar SpecTafReport SpecTrend SymRegex TimeFacts StrFacts ProofGroups ProofGroups2 ProofValues
  ProofTime ProofText TextFacts ProofSections ProofTafText ProofWords GroupShapes ProofSlots Dispatch ProofFields ProofMetar
  ProofMetarText ProofWx TafShapes ProofTafChange ProofTrend ProofTrendCut.
Import ListNotations.
Local Open Scope string_scope.
Local Open Scope nat_scope.
Local Open Scope list_scope.

(** ** The trends are added to the report *)

Definition times_count (ts : list trend_g) : nat := list_sum (map (fun g => length (n_times g)) ts).

Lemma trends_handled : forall t e ts x, real_time t -> two_hours t e -> Forall (trend_wf t) ts -> t_dt (me_time x) = t ->
  gl_max (me_trends x) = 2 -> length (gl_list (me_trends x)) + length ts <= 2 ->
  exists x' ps, handle_trends (texts ts) x = Ok x' /\ Forall2 (trend_is t e) ts ps
    /\ me_trends x' = mk_gl (gl_n (me_trends x)) 2 (gl_list (me_trends x) ++ ps)
    /\ length (me_out x') = length (me_out x) + times_count ts
    /\ me_raw x' = me_raw x /\ me_sections x' = me_sections x /\ me_unparsed x' = me_unparsed x
    /\ (forall y mo g, metar_holds y mo g x -> metar_holds y mo g x').
Proof.
  intros t e ts x R Te H. revert x. induction H as [|g ts Hg H IH]; intros x Ht Hm L.
  - exists x, []. split; [reflexivity|]. split; [constructor|]. rewrite app_nil_r. unfold times_count. cbn [map list_sum fold_right].
    rewrite Nat.add_0_r. rewrite <- Hm. conjs; try reflexivity; [destruct (me_trends x); reflexivity|auto].
  - destruct (trend_parse t e g R Te Hg) as (p & Ep & Hp & Lp).
    cbn [texts map handle_trends]. fold (texts ts).
    assert (En : sentence (trend_text g) <> []).
    { rewrite text_eq. unfold kind_word, rest_words. destruct (n_kind g), (flat_map m_words (trend_toks g)); discriminate. }
    destruct (sentence (trend_text g)) as [|c s] eqn:Es; [congruence|]. rewrite <- Es in *. clear c s Es En.
    assert (E : handle_weather_trend (sentence (trend_text g)) x
      = Ok (out_string (change_period_str p) (upd_out (me_out x ++ cp_out p)
          (upd_trends (mk_gl (gl_n (me_trends x)) 2 (gl_list (me_trends x) ++ [p])) x)))).
    { unfold handle_weather_trend. rewrite Ht, Ep. cbn [bind]. unfold gl_add. rewrite Hm.
      destruct (Nat.leb_spec 2 (length (gl_list (me_trends x)))) as [K|K]; [cbn [length] in L; lia|]. reflexivity. }
    rewrite E. cbn [bind]. set (x1 := out_string _ _).
    destruct (IH x1) as (x' & ps & E' & H' & T' & O' & Q1 & Q2 & Q3 & Q4).
    { exact Ht. } { reflexivity. }
    { unfold x1. cbn [out_string upd_common upd_out upd_trends me_trends gl_list]. rewrite app_length. cbn [length] in *. lia. }
    exists x', (p :: ps). split; [exact E'|]. split; [constructor; assumption|].
    unfold x1 in T', O', Q1, Q2, Q3, Q4.
    cbn [out_string upd_common upd_out upd_trends me_trends gl_list gl_n me_out me_raw me_sections me_unparsed] in T', O', Q1, Q2, Q3.
    conjs.
    + rewrite T', <- app_assoc. reflexivity.
    + change (times_count (g :: ts)) with (length (n_times g) + times_count ts). rewrite O', app_length, Lp. lia.
    + exact Q1.
    + exact Q2.
    + exact Q3.
    + intros y mo g0 K. apply Q4. exact K.
Qed.

Lemma Forall2_len : forall A B (P : A -> B -> Prop) l m, Forall2 P l m -> length l = length m.
Proof. intros A B P l m H. induction H; cbn [length]; congruence. Qed.

Lemma collect_two : forall {A} m (l : list A), length l <= 2 -> gl_collect (mk_gl 0 m l) = (l, mk_gl 0 m l).
Proof. intros A m [|a [|b [|c l]]] H; [reflexivity|reflexivity|reflexivity|cbn [length] in H; lia]. Qed.

Lemma no_unparsed : forall t e ts ps, Forall2 (trend_is t e) ts ps -> flat_map cp_unparsed ps = [].
Proof. intros t e ts ps H. induction H as [|g p ts ps Hp H IH]; [reflexivity|]. cbn [flat_map]. destruct Hp as (_ & -> & _). exact IH. Qed.

Lemma report_real : forall y mo g, metar_wf y mo g -> real_time (issue_of y mo g).
Proof.
  intros y mo g (_ & _ & _ & Hd & Hh & Hm & _). unfold issue_of. split; [exact Hd|]. cbn [dt_hour dt_minute]. lia.
Qed.

Lemma trend_round_trip : forall e y mo g ts rmk tr code te, clock_wf e -> metar_wf y mo g -> not_last g -> remark_wf rmk ->
  two_hours (issue_of y mo g) te -> trends_wf (issue_of y mo g) ts ->
  shows (metar_words g ++ flat_map trend_text ts ++ rmk) code ->
  exists x, metar_parse e code (Some y) (Some mo) tr = Ok x
    /\ metar_holds y mo g x /\ Forall2 (trend_is (issue_of y mo g) te) ts (gl_list (me_trends x))
    /\ me_unparsed x = [] /\ length (me_out x) = times_count ts
    /\ me_raw x = sentence (metar_words g ++ flat_map trend_text ts ++ rmk)
    /\ me_sections x = [sentence (metar_words g); sentence (flat_map trend_text ts); sentence rmk].
Proof.
  intros e y mo g ts rmk tr code te Hc Hg Hl Hr Te Hts (a & t & q & b & -> & Ht & Ha & Hb & Hq).
  destruct (toks_ok y mo g Hg) as (T1 & T2 & T3 & T4 & T5 & T6 & T7).
  pose proof (report_real y mo g Hg) as R. set (rt := issue_of y mo g) in *.
  pose proof Hts as (Htr & Ltr & _).
  assert (Hmo : (1000 <= y <= 9999)%Z /\ (1 <= mo <= 12)%Z).
  { destruct Hg as (_ & _ & Hy & Hd & _). apply real_date_range in Hd. lia. }
  set (W := metar_words g ++ flat_map trend_text ts ++ rmk) in *.
  assert (F : Forall (fun w => word w /\ ~ In 61%N w) W).
  { apply Forall_app. split; [eapply Forall_impl; [|exact T6]; intros w K; split; apply K|]. apply Forall_app. split.
    - apply Forall_flat_map. eapply Forall_impl; [|exact Htr]. intros g0 Hg0.
      eapply Forall_impl; [|exact (text_words rt te g0 R Te Hg0)]. intros w K. split; apply K.
    - destruct Hr as [->|(us & -> & Hu)]; [constructor|]. constructor.
      + split; [split; [discriminate|repeat constructor; discriminate]|cbn; intuition discriminate].
      + eapply Forall_impl; [|exact Hu]. intros w K. split; apply K. }
  unfold metar_parse. rewrite (raw_layout W); [|exact Ht| | |exact Ha|exact Hb|exact Hq].
  2:{ eapply Forall_impl; [|exact F]. intros w K. apply K. }
  2:{ eapply Forall_impl; [|exact F]. intros w K. apply K. }
  cbn [bind].
  destruct (init_fresh e (sentence W) y mo Hc (proj1 Hmo) (proj2 Hmo)) as (x0 & E0 & F0 & U0 & R0 & O0 & W0 & S0).
  rewrite E0. cbn [bind].
  assert (Sec : metar_sections (sentence W) = [sentence (metar_words g); sentence (texts ts); sentence rmk])
    by (apply (trend_cut rt te); assumption).
  assert (Et : sentence (texts ts) = sentence (flat_map trend_text ts)).
  { unfold texts. rewrite <- map_map, sentence_concat, flat_map_concat_map; [reflexivity|].
    apply Forall_map. apply Forall_forall. intros g0 _. rewrite text_eq. discriminate. }
  unfold parse_body. rewrite S0, Sec. change (section 0 [sentence (metar_words g); sentence (texts ts); sentence rmk]) with (sentence (metar_words g)).
  unfold metar_words at 1.
  rewrite (body_groups _ x0 (code_of (g_type g)) (metar_toks g)).
  - rewrite T7. destruct (metar_body e y mo g x0 Hg F0) as (x1 & E' & H' & U' & R' & S' & O' & W').
    rewrite E'. cbn [bind]. rewrite app_nil_r. unfold parse_weather_trend.
    set (x2 := upd_unparsed _ _).
    assert (X2 : me_sections x2 = [sentence (metar_words g); sentence (texts ts); sentence rmk]).
    { transitivity (me_sections x1); [reflexivity|]. rewrite S', S0. exact Sec. }
    rewrite X2. change (section 1 [sentence (metar_words g); sentence (texts ts); sentence rmk]) with (sentence (texts ts)).
    assert (E3 : me_trends x2 = gl_new 2) by (transitivity (me_trends x1); [reflexivity|congruence]).
    destruct (trends_handled rt te ts x2 R Te Htr) as (x3 & ps & P1 & P2 & P3 & P4 & P5 & P6 & P7 & P8).
    { exact (proj2 (proj1 (proj2 (proj2 H')))). } { rewrite E3. reflexivity. } { rewrite E3. cbn [gl_new gl_list length]. lia. }
    assert (E4 : handle_trends (trend_codes (sentence (texts ts))) x2 = Ok x3).
    { destruct ts as [|g0 ts0] eqn:Ets; [exact P1|]. rewrite <- Ets in *. rewrite (codes_all rt te ts R Te Hts); [exact P1|].
      rewrite Ets. discriminate. }
    rewrite E4. cbn [bind]. rewrite P3, E3. cbn [gl_new gl_n gl_list app].
    assert (Lp : length ps <= 2) by (rewrite <- (Forall2_len _ _ _ _ _ P2); exact Ltr).
    rewrite collect_two by exact Lp. rewrite (no_unparsed _ _ _ _ P2), app_nil_r.
    set (x4 := upd_unparsed _ _).
    assert (X4 : me_unparsed x4 = []).
    { transitivity (me_unparsed x3); [reflexivity|]. rewrite P7. transitivity (me_unparsed x1); [reflexivity|]. congruence. }
    rewrite X4. exists x4. split; [reflexivity|]. conjs.
    + exact (P8 y mo g H').
    + exact P2.
    + exact X4.
    + transitivity (length (me_out x3)); [reflexivity|]. rewrite P4. change (me_out x2) with (me_out x1). rewrite O', O0. reflexivity.
    + transitivity (me_raw x3); [reflexivity|]. rewrite P5. transitivity (me_raw x1); [reflexivity|]. congruence.
    + transitivity (me_sections x3); [reflexivity|]. rewrite P6, X2, Et. reflexivity.
  - apply (Forall_inv T6).
  - exact T1.
  - exact T2.
  - exact T3.
  - unfold not_last in Hl. rewrite toks_parts in Hl |- *. rewrite (ProofMetarText.last_default _ _ _ (MWord [])). exact Hl.
  - exact T4.
  - exact T5.
Qed.
