(** * COR before the station (C39) *)
From Coq Require Import String Ascii.
From Coq Require Import List NArith ZArith Bool Lia.
From Verif Require Import PyBase PyRegex AeroRegex PyFloat PyTime Utils Base MetarGroups Trend Metar
  SpecNum SpecGroups SpecTime SpecText SpecWords SpecMetar SpecFailures TimeFacts ProofTime ProofText TextFacts ProofWords ProofSections
  ProofProb SymRegex SymFirst Dispatch ProofMetar ProofMetarText ProofGroups ProofValues Keeps OutTime OutMetar OutReport ProofAbsent.
Import ListNotations.
Local Open Scope string_scope.
Local Open Scope nat_scope.
Local Open Scope list_scope.

Lemma metar_step_after : forall e y mo i h m s s', 4 <= i -> nth_error (metar_handlers e y mo) i = Some h -> h_handle h m s = Ok s' ->
  me_station s' = me_station s /\ me_time s' = me_time s /\ me_modifier s' = me_modifier s /\ me_sections s' = me_sections s.
Proof.
  intros e y mo i h m s s' L E Eh. replace i with (4 + (i - 4)) in E by lia. remember (i - 4) as k eqn:Ek. clear Ek L i.
  unfold metar_handlers in E. cbn [plus nth_error] in E.
  nth_cases k E.
  all: try (destruct k; discriminate E).
  all: unfold lift, handle_wind_variation, handle_minimum_visibility, handle_runway_range, handle_temperatures, handle_pressure,
    handle_recent_weather, handle_windshear, handle_sea_state, handle_runway_state in Eh; cbv zeta in Eh; binds Eh;
    match type of Eh with Ok ?a = Ok ?z => assert (K : z = a) by congruence; rewrite K; conjs; reflexivity end.
Qed.

Lemma metar_keep_after : forall e y mo gs index un x x' un', 4 <= index ->
  parse_groups (metar_handlers e y mo) gs index un x = Ok (x', un') ->
  me_station x' = me_station x /\ me_time x' = me_time x /\ me_modifier x' = me_modifier x /\ me_sections x' = me_sections x.
Proof.
  intros e y mo gs. induction gs as [|g gs IH]; intros index un x x' un' L E; cbn [parse_groups] in E.
  - replace x' with x by congruence. conjs; reflexivity.
  - destruct (first_match (skipn index (metar_handlers e y mo)) 0 g) as [[[k h] m]|] eqn:F; [|exact (IH _ _ _ _ _ L E)].
    apply first_match_nth in F. destruct F as (j & F & _ & Ek). rewrite nth_skipn in F.
    destruct (h_handle h m x) as [x1|] eqn:Eh; [|discriminate]. cbn [bind] in E.
    destruct (metar_step_after e y mo (index + j) h m x x1 ltac:(lia) F Eh) as (<- & <- & <- & <-).
    refine (IH _ _ _ _ _ _ E). lia.
Qed.

Lemma trend_step_keep : forall t x x', handle_weather_trend t x = Ok x' ->
  me_station x' = me_station x /\ me_time x' = me_time x /\ me_modifier x' = me_modifier x.
Proof.
  intros t x x' E. unfold handle_weather_trend in E. binds E.
  match type of E with Ok ?a = Ok ?z => assert (K : z = a) by congruence; rewrite K; conjs; reflexivity end.
Qed.

Lemma trends_keep : forall l x x', handle_trends l x = Ok x' ->
  me_station x' = me_station x /\ me_time x' = me_time x /\ me_modifier x' = me_modifier x.
Proof.
  induction l as [|w l IH]; intros x x' E; cbn [handle_trends] in E; [replace x' with x by congruence; conjs; reflexivity|].
  destruct w as [|c w]; [exact (IH _ _ E)|]. destruct (handle_weather_trend (c :: w) x) as [x1|] eqn:E1; [|discriminate].
  cbn [bind] in E. destruct (trend_step_keep _ _ _ E1) as (<- & <- & <-). exact (IH _ _ E).
Qed.

Lemma trend_section_keep : forall tr x x', parse_weather_trend tr x = Ok x' ->
  me_station x' = me_station x /\ me_time x' = me_time x /\ me_modifier x' = me_modifier x.
Proof.
  intros tr x x' E. unfold parse_weather_trend in E.
  destruct (handle_trends (trend_codes (section 1 (me_sections x))) x) as [z|] eqn:Ez; [|discriminate].
  apply trends_keep in Ez. destruct Ez as (<- & <- & <-). cbn [bind] in E. destruct (gl_collect (me_trends z)) as [l g]. cbv zeta in E.
  match type of E with match ?u with _ => _ end = _ => destruct u end; [|destruct tr; [discriminate|]];
    match type of E with Ok ?a = _ => replace x' with a by congruence end; conjs; reflexivity.
Qed.

Lemma init_bare : forall e raw y mo x, metar_init e raw y mo = Ok x ->
  st_code (me_station x) = None /\ t_code (me_time x) = None.
Proof.
  intros e raw y mo x E. unfold metar_init, time_from_metar in E.
  destruct (time_new e None None None None None None) as [t0|] eqn:E0; [|discriminate]. cbn [bind] in E.
  destruct (time_new e None None None None mo y) as [t|] eqn:E1; [|discriminate]. cbn [bind] in E. binds E.
  match type of E with Ok ?a = _ => replace x with a by congruence end. cbn [me_station me_time]. split; [reflexivity|].
  unfold time_new in E1. destruct (strptime _) as [d|]; [|discriminate]. cbn [bind] in E1.
  replace t with (mk_time (group_code None) d) by congruence. reflexivity.
Qed.

Lemma cor_inner : inner (py "COR").
Proof. apply const_inner. vm_compute. reflexivity. Qed.

Lemma cor_first : forall e y mo w gs x x' un', In w [("METAR", "Meteorological Aerodrome Report"); ("SPECI", "Special Aerodrome Report")] ->
  parse_groups (metar_handlers e y mo) (code_of w :: py "COR" :: gs) 0 [] x = Ok (x', un') ->
  me_station x' = me_station x /\ me_time x' = me_time x /\ mo_code (me_modifier x') = Some (py "COR")
  /\ me_sections x' = me_sections x.
Proof.
  intros e y mo w gs x x' un' Hw E. destruct (type_match w Hw) as (m & Em & Es & _).
  rewrite (parse_at (metar_handlers e y mo) 0 0 (code_of w) _ (mk_handler r_TYPE handle_type) m) in E;
    [|lia|intros k K; lia|reflexivity|exact Em].
  destruct (h_handle _ m x) as [x1|] eqn:E1; [|discriminate]. cbn [bind] in E.
  assert (K1 : me_station x1 = me_station x /\ me_time x1 = me_time x /\ me_sections x1 = me_sections x).
  { cbn [h_handle] in E1. unfold handle_type in E1. cbv zeta in E1.
    match type of E1 with Ok ?a = _ => replace x1 with a by congruence end. conjs; reflexivity. }
  destruct (re_match r_MODIFIER (py "COR")) as [m2|] eqn:Em2; [|vm_compute in Em2; discriminate].
  rewrite (parse_at (metar_handlers e y mo) 1 3 (py "COR") _ (mk_handler r_MODIFIER handle_modifier) m2) in E;
    [|lia| |reflexivity|exact Em2].
  2: { intros j h L Ej. destruct j as [|[|[|j]]]; [lia| | |lia]; unfold metar_handlers in Ej; injection Ej as <-;
       cbn [h_regexp]; vm_compute; reflexivity. }
  destruct (h_handle _ m2 x1) as [x2|] eqn:E2; [|discriminate]. cbn [bind] in E.
  assert (K2 : me_station x2 = me_station x1 /\ me_time x2 = me_time x1 /\ me_sections x2 = me_sections x1
    /\ mo_code (me_modifier x2) = Some (py "COR")).
  { cbn [h_handle] in E2. unfold handle_modifier in E2. cbv zeta in E2.
    match type of E2 with Ok ?a = _ => replace x2 with a by congruence end. conjs; try reflexivity.
    cbn [me_modifier out_string upd_modifier upd_common modifier_new mo_code].
    vm_compute in Em2. injection Em2 as <-. reflexivity. }
  apply metar_keep_after in E; [|lia]. destruct E as (-> & -> & -> & ->). destruct K2 as (-> & -> & -> & ->).
  destruct K1 as (-> & -> & ->). conjs; reflexivity.
Qed.

(** A well-formed report with COR after its first word. *)
Lemma cor_loses : forall e y mo g rmk tr code x, metar_wf y mo g -> not_last g -> remark_wf rmk ->
  shows (code_of (g_type g) :: py "COR" :: tl (metar_words g) ++ rmk) code ->
  metar_parse e code (Some y) (Some mo) tr = Ok x ->
  st_code (me_station x) = None /\ t_code (me_time x) = None /\ mo_code (me_modifier x) = Some (py "COR").
Proof.
  intros e y mo g rmk tr code x Hg Hl Hr (a & t & q & b & -> & Ht & Ha & Hb & Hq) E.
  destruct (toks_ok y mo g Hg) as (T1 & T2 & T3 & T4 & T5 & T6 & T7).
  set (L := MWord (py "COR") :: metar_toks g).
  set (W := code_of (g_type g) :: py "COR" :: tl (metar_words g)).
  assert (EW : W = flat_map m_words (MWord (code_of (g_type g)) :: L)) by reflexivity.
  assert (IW : Forall inner W).
  { unfold W. assert (E1 : metar_words g = code_of (g_type g) :: tl (metar_words g)) by reflexivity. rewrite E1 in T6.
    inversion T6 as [|p l H1 H2]. constructor; [exact H1|]. constructor; [exact cor_inner|exact H2]. }
  unfold metar_parse in E. change (code_of (g_type g) :: py "COR" :: tl (metar_words g) ++ rmk) with (W ++ rmk) in Ht.
  rewrite (raw_layout (W ++ rmk)) in E; [|exact Ht| | |exact Ha|exact Hb|exact Hq].
  2:{ apply Forall_app. split; [eapply Forall_impl; [|exact IW]; intros w K; apply K|].
      destruct Hr as [->|(us & -> & Hu)]; [constructor|]. constructor; [split; [discriminate|repeat constructor; discriminate]|].
      eapply Forall_impl; [|exact Hu]. intros w K. apply K. }
  2:{ apply Forall_app. split; [eapply Forall_impl; [|exact IW]; intros w K; apply K|].
      destruct Hr as [->|(us & -> & Hu)]; [constructor|]. constructor; [cbn; intuition discriminate|].
      eapply Forall_impl; [|exact Hu]. intros w K. apply K. }
  cbn [bind] in E. destruct (metar_init e (sentence (W ++ rmk)) (Some y) (Some mo)) as [x0|] eqn:E0; [|discriminate].
  cbn [bind] in E. destruct (init_bare _ _ _ _ _ E0) as [N1 N2].
  assert (S0 : me_sections x0 = metar_sections (sentence (W ++ rmk))).
  { unfold metar_init in E0. binds E0. match type of E0 with Ok ?z = _ => replace x0 with z by congruence end. reflexivity. }
  assert (Sec : metar_sections (sentence (W ++ rmk)) = [sentence W; []; sentence rmk]) by (apply metar_cut; assumption).
  unfold parse_body in E. rewrite S0, Sec in E. change (section 0 [sentence W; []; sentence rmk]) with (sentence W) in E. rewrite EW in E.
  rewrite (body_groups _ x0 (code_of (g_type g)) L) in E.
  - destruct (parse_groups _ _ 0 [] x0) as [[x1 un]|] eqn:P; [|discriminate]. cbn [bind] in E.
    change (map m_joined L) with (py "COR" :: map m_joined (metar_toks g)) in P.
    apply cor_first in P; [|apply Hg]. destruct P as (P1 & P2 & P3 & P4).
    apply trend_section_keep in E. destruct E as (-> & -> & ->). cbn [me_station me_time me_modifier upd_unparsed].
    rewrite P1, P2. auto.
  - apply (Forall_inv T6).
  - constructor; [apply cor_inner|exact T1].
  - unfold L. rewrite toks_parts in T2 |- *. split; [reflexivity|exact T2].
  - unfold L. rewrite toks_parts in T3 |- *. destruct T3 as [_ T3]. destruct (type_inner _ (proj1 Hg)) as [_ Ey].
    split; [unfold sheared_like; rewrite Ey; reflexivity|]. split; [reflexivity|exact T3].
  - unfold not_last in Hl. unfold L. rewrite toks_parts in Hl |- *. rewrite last_cons2, (last_default _ _ _ (MWord [])). exact Hl.
  - exact T4.
  - exact T5.
Qed.
