(** * Proofs: the texts of trends and changes (C80) *)
From Coq Require Import String Ascii.
From Coq Require Import List NArith ZArith Bool Lia QArith.
From Verif Require Import PyBase PyRegex AeroRegex PyFloat PyTime Utils Base MetarGroups Trend Metar Taf ListText SpecNum SpecFailures SpecVision SpecKept SpecByCode
  StrFacts RegexPaths Captures GroupShapes ProofStation ReprFacts ProofGroups ProofGroups2 ProofValues ProofValues2 ProofValues3 ProofExact ProofFailures ProofVision ProofKeptReport ProofKeptTaf ProofProb ProofVerdict ProofAgree ProofByCode
  SpecGroups SpecTime SpecGrammar TimeFacts ProofTime ProofMeans ProofGrammar ProofGrammarRest SpecStated ProofStated SpecSay SpecPhrase ProofPhrase.
From Verif Require Import ProofAbsent ProofAbsentTaf ProofTafReport ProofTrendReport.
From Verif Require OutTime Outcomes ProofSay SpecMoment ProofMomentReport.
Import ListNotations.
Local Open Scope string_scope.
Local Open Scope nat_scope.
Local Open Scope list_scope.
Local Opaque dt_add_minutes dt_add_hours dt_add_days.
Local Ltac binds E := repeat (match type of E with bind ?r _ = _ => destruct r; [cbn [bind] in E; cbv zeta in E|discriminate E] end).

(** ** Sections, with the place of the handlers *)

Lemma first_match_nth : forall S (hs : list (handler S)) n g k h m, first_match hs n g = Some (k, h, m) ->
  exists j, k = Datatypes.S (n + j) /\ nth_error hs j = Some h /\ re_match (h_regexp h) g = Some m.
Proof.
  intros S hs. induction hs as [|h0 hs IH]; intros n g k h m E; [discriminate|]. cbn [first_match] in E.
  destruct (re_match (h_regexp h0) g) as [m0|] eqn:Em.
  - injection E as <- <- <-. exists 0. split; [lia|]. split; [reflexivity|exact Em].
  - apply IH in E. destruct E as (j & E1 & E2 & E3). exists (Datatypes.S j). split; [lia|]. split; [exact E2|exact E3].
Qed.
Lemma nth_skipn : forall A (l : list A) i j, nth_error (skipn i l) j = nth_error l (i + j).
Proof. intros A l i. revert l. induction i as [|i IH]; intros l j; [reflexivity|]. destruct l as [|a l]; [destruct j; reflexivity|]. exact (IH l j). Qed.
Lemma parse_groups_placed : forall S (I : nat -> S -> Prop) (P : str -> Prop) (hs : list (handler S)),
  (forall i k h g m st st', i <= k -> nth_error hs k = Some h -> P g -> re_match (h_regexp h) g = Some m -> h_handle h m st = Ok st' -> I i st -> I (Datatypes.S k) st') ->
  forall gs i un st st' un', Forall P gs -> I i st -> parse_groups hs gs i un st = Ok (st', un') -> exists n, I n st'.
Proof.
  intros S I P hs Hk gs. induction gs as [|g gs IH]; intros i un st st' un' Hp Hi E; cbn [parse_groups] in E.
  - injection E as <- _. exists i. exact Hi.
  - assert (P0 := Forall_inv Hp). apply Forall_inv_tail in Hp.
    destruct (first_match (skipn i hs) 0 g) as [[[k h] m]|] eqn:F.
    + apply first_match_nth in F. destruct F as (j & -> & F2 & F3). rewrite nth_skipn in F2.
      destruct (h_handle h m st) as [st1|x] eqn:H; [|discriminate]. cbn [bind] in E.
      apply (IH _ _ st1 _ _ Hp) in E; [exact E|]. replace (i + Datatypes.S (0 + j)) with (Datatypes.S (i + j)) by lia. apply (Hk i (i + j) h g m st st1); auto. lia.
    + apply (IH i _ st _ _ Hp Hi) in E. exact E.
Qed.
Lemma parse_section_placed : forall S (I : nat -> S -> Prop) (hs : list (handler S)) sec st st' un',
  (forall i k h g m st st', i <= k -> nth_error hs k = Some h -> unspaced g -> re_match (h_regexp h) g = Some m -> h_handle h m st = Ok st' -> I i st -> I (Datatypes.S k) st') ->
  I 0 st -> parse_section hs sec st = Ok (st', un') -> exists n, I n st'.
Proof.
  intros S I hs sec st st' un' Hk H0. apply (parse_groups_placed S I unspaced hs Hk); [|exact H0]. rewrite Forall_forall. intros w. apply split_on_parts.
Qed.

(** ** The meaning of an indicator *)

Lemma meant_of : forall c, exists t, meant c t.
Proof.
  intro c. destruct (existsb (fun x => str_eqb c (code_of x)) change_meanings) eqn:E.
  - apply existsb_exists in E. destruct E as (x & I & E). apply str_eqb_eq in E. exists (Some (text_of x)). left. exists x. auto.
  - exists None. right. split; [|reflexivity]. intros (x & I & ->). assert (K : existsb (fun y => str_eqb (code_of x) (code_of y)) change_meanings = true) by (apply existsb_exists; exists x; split; [exact I|apply str_eqb_refl]).
    congruence.
Qed.
(** Underscores are blanks: a word with a prefix and no blank in it is the word. *)
Lemma blanked_back : forall w x, ~ In 32%N x -> blanked w = x -> w = x.
Proof.
  intros w x N0 <-. apply eq_sym, unmarked. intro I. apply N0. unfold blanked. apply in_map_iff. exists 95%N. auto.
Qed.
Lemma begun_meant : forall w p, p = py "TEMPO" \/ p = py "BECMG" -> begins p w ->
  exists t, assoc w CHANGE_TRANSLATIONS = t /\ meant (blanked w) t /\ begins p (blanked w).
Proof.
  intros w p Hp (u & ->). eexists. split; [reflexivity|].
  assert (B : blanked (p ++ u) = p ++ blanked u) by (unfold blanked at 1; rewrite map_app; f_equal; destruct Hp as [-> | ->]; reflexivity).
  rewrite B. split; [|exists (blanked u); reflexivity]. destruct u as [|c u].
  - rewrite app_nil_r. destruct Hp as [-> | ->]; left; [exists ("TEMPO", "temporary")|exists ("BECMG", "becoming")]; (split; [unfold change_meanings; cbn [In]; auto|split; vm_compute; reflexivity]).
  - right. cbn [blanked map]. split.
    + intros (x & I & E). unfold change_meanings in I. cbn [In] in I. destruct Hp as [-> | ->]; repeat (destruct I as [<-|I]; [vm_compute in E; discriminate E|]); contradiction.
    + destruct Hp as [-> | ->]; reflexivity.
Qed.

Lemma indicator_meant : forall m c t, begins (py "TEMPO") (m_string m) \/ begins (py "BECMG") (m_string m) \/ m_string m = py "NOSIG" -> change_indicator_new (Some m) = Ok (c, t) ->
  c = Some (blanked (m_string m)) /\ meant (blanked (m_string m)) t
  /\ (begins (py "TEMPO") (blanked (m_string m)) \/ begins (py "BECMG") (blanked (m_string m)) \/ blanked (m_string m) = py "NOSIG").
Proof.
  intros m c t H E. unfold change_indicator_new in E. cbv zeta in E. set (w := m_string m) in *. clearbody w.
  assert (G : group_code (Some w) = Some (blanked w)) by exact (ProofKeptReport.type_code w). rewrite G in E.
  assert (S0 : starts_with (py "PROB") w = false) by (destruct H as [(u & ->)|[(u & ->)| ->]]; reflexivity).
  assert (K : Ok (Some (blanked w), assoc w CHANGE_TRANSLATIONS) = Ok (c, t)).
  { destruct (assoc w CHANGE_TRANSLATIONS); [exact E|]. rewrite S0 in E. exact E. }
  assert (Kc : c = Some (blanked w)) by congruence. assert (Kt : t = assoc w CHANGE_TRANSLATIONS) by congruence. rewrite Kc, Kt. clear Kc Kt K E S0.
  split; [reflexivity|]. destruct H as [H|[H|H]].
  - destruct (begun_meant w (py "TEMPO") (or_introl eq_refl) H) as (s & -> & M & B). auto.
  - destruct (begun_meant w (py "BECMG") (or_intror eq_refl) H) as (s & -> & M & B). auto.
  - subst w. split; [|auto]. left. exists ("NOSIG", "no significant changes"). split; [left; reflexivity|]. split; vm_compute; reflexivity.
Qed.

(** ** Trends *)

Definition prefix_path (q : cpath) : bool :=
  Nat.eqb (length (fst q)) 6 && OutTime.span_is q "prefix" 0 2
  && (Outcomes.spells (py "FM") (OutTime.piece q 0 2) || Outcomes.spells (py "TL") (OutTime.piece q 0 2) || Outcomes.spells (py "AT") (OutTime.piece q 0 2)).
Lemma prefix_paths : starfree r_TREND_TIME_PERIOD && forallb prefix_path (cpaths r_TREND_TIME_PERIOD) = true.
Proof. vm_compute. reflexivity. Qed.
Lemma period_prefix : forall g m, re_match r_TREND_TIME_PERIOD g = Some m -> exists p t, In p ["FM"; "TL"; "AT"] /\ g = py p ++ t /\ group m "prefix" = Some (py p).
Proof.
  intros g m M. pose proof prefix_paths as T. apply andb_true_iff in T. destruct T as [F T].
  destruct (OutTime.path_check r_TREND_TIME_PERIOD g m prefix_path F M T) as (q & x & t & P & Fo). unfold prefix_path in P.
  rewrite !andb_true_iff in P. destruct P as ((L & S1) & P1).
  apply Nat.eqb_eq in L. rewrite <- (OutTime.follows_length _ _ _ _ _ Fo) in L.
  assert (G := OutTime.span_is_group _ _ _ _ _ _ _ _ Fo S1). assert (A := OutTime.piece_along _ _ _ _ _ 0 2 Fo).
  assert (Eg : g = substr x 0 2 ++ (substr x 2 4 ++ substr x 4 6) ++ t).
  { destruct Fo as (-> & _). rewrite (OutTime.cut6 x L) at 1. rewrite <- !app_assoc. reflexivity. }
  rewrite !orb_true_iff in P1. destruct P1 as [[P1|P1]|P1]; rewrite (Outcomes.spells_ok _ _ _ P1 A) in *; eexists _, _; (split; [|split; [exact Eg|exact G]]); cbn [In]; auto.
Qed.

Definition at_word (w : str) : Prop := begins (py "AT") w.
Definition trend_held (i : trend_ind) : Prop :=
  ti_code i = None
  \/ exists w m ws, unspaced w /\ re_match r_CHANGE_INDICATOR w = Some m /\ change_indicator_new (Some m) = Ok (Some (blanked w), ti_trans i)
       /\ Forall (accepts r_TREND_TIME_PERIOD) ws /\ ti_code i = Some (join (py " ") (blanked w :: ws))
       /\ match ti_at i with Some u => time_truthy u = true /\ Exists at_word ws | None => Forall (fun w => ~ at_word w) ws end.

Lemma period_held : forall g m i j, re_match r_TREND_TIME_PERIOD g = Some m -> add_period m i = Ok j -> trend_held i -> trend_held j.
Proof.
  intros g m i j M E H. destruct (period_prefix g m M) as (p & t & Ip & Eg & Gp). pose proof (re_match_string _ _ _ M) as Es.
  unfold add_period in E. rewrite Es, Gp in E. destruct H as [H|(w & mw & ws & U & Mw & Cw & F & C & A)]; [rewrite H in E; discriminate E|].
  rewrite C in E. cbv zeta in E. binds E.
  assert (J : join (py " ") (blanked w :: ws) ++ py " " ++ g = join (py " ") (blanked w :: ws ++ [g])).
  { change (blanked w :: ws ++ [g]) with ((blanked w :: ws) ++ [g]). rewrite join_app by discriminate. reflexivity. }
  rewrite J in E.
  assert (F' : Forall (accepts r_TREND_TIME_PERIOD) (ws ++ [g])) by (apply Forall_app; split; [exact F|constructor; [exact (matched _ _ _ M)|constructor]]).
  assert (N0 : p <> "AT" -> match ti_at i with Some u => time_truthy u = true /\ Exists at_word (ws ++ [g]) | None => Forall (fun w => ~ at_word w) (ws ++ [g]) end).
  { intro Np. destruct (ti_at i) as [u|].
    - destruct A as [A1 A2]. split; [exact A1|]. apply Exists_app. left. exact A2.
    - apply Forall_app. split; [exact A|]. constructor; [|constructor]. intros (s & Es'). subst g. destruct Ip as [<-|[<-|[<-|[]]]]; [discriminate Es'|discriminate Es'|contradiction]. }
  right. exists w, mw, (ws ++ [g]). destruct Ip as [<-|[<-|[<-|[]]]].
  - change (opt_str_eqb (Some (py "FM")) (py "FM")) with true in E. cbn iota in E. match type of E with Ok ?a = Ok _ => assert (K : j = a) by congruence; rewrite K; clear K E end.
    cbn [ti_trans ti_code ti_at]. specialize (N0 ltac:(discriminate)). auto 8.
  - change (opt_str_eqb (Some (py "TL")) (py "FM")) with false in E. change (opt_str_eqb (Some (py "TL")) (py "TL")) with true in E. cbn iota in E.
    match type of E with Ok ?a = Ok _ => assert (K : j = a) by congruence; rewrite K; clear K E end.
    cbn [ti_trans ti_code ti_at]. specialize (N0 ltac:(discriminate)). auto 8.
  - change (opt_str_eqb (Some (py "AT")) (py "FM")) with false in E. change (opt_str_eqb (Some (py "AT")) (py "TL")) with false in E. cbn iota in E.
    match type of E with Ok ?a = Ok _ => assert (K : j = a) by congruence; rewrite K; clear K E end.
    cbn [ti_trans ti_code ti_at]. split; [exact U|]. split; [exact Mw|]. split; [exact Cw|]. split; [exact F'|]. split; [reflexivity|]. split.
    + unfold time_truthy, time_at_code. cbn [t_code]. assert (G : group_code (Some g) = Some (blanked g)) by exact (ProofKeptReport.type_code g). rewrite G. subst g. reflexivity.
    + apply Exists_app. right. constructor. exists t. exact Eg.
Qed.

Definition period_held_in (p : change_period) : Prop := trend_held (cp_ind p).
Lemma trend_held_step : forall h g m p p', In h trend_handlers -> unspaced g -> re_match (h_regexp h) g = Some m -> h_handle h m p = Ok p' -> period_held_in p -> period_held_in p'.
Proof.
  intros h g m p p' I U M E H. unfold trend_handlers in I. cbn [In] in I.
  assert (L : forall f, cp_lift f m p = Ok p' -> period_held_in p').
  { intros f Ef. unfold cp_lift in Ef. destruct (f m (cp_common p)) as [c|] eqn:Ec; [|discriminate Ef]. cbn [bind] in Ef.
    assert (K : p' = cp_set_common c p) by congruence. rewrite K. exact H. }
  repeat (destruct I as [<-|I]; [cbn [h_handle h_regexp] in E, M|]); try contradiction; try exact (L _ E); clear L.
  - unfold handle_trend_indicator in E. destruct (trend_ind_new (Some m) _) as [i|] eqn:Ei; [|discriminate E]. cbn [bind] in E.
    match type of E with Ok ?a = Ok _ => assert (K : p' = a) by congruence; rewrite K; clear K E end. unfold period_held_in. cbn [cp_ind].
    unfold trend_ind_new in Ei. destruct (change_indicator_new (Some m)) as [[c t]|] eqn:Ec; [|discriminate Ei]. cbn [bind] in Ei. cbv zeta in Ei. binds Ei.
    match type of Ei with Ok ?a = Ok _ => assert (K : i = a) by congruence; rewrite K; clear K Ei end.
    right. exists g, m, []. cbn [ti_code ti_trans ti_at fst snd].
    assert (C : c = Some (blanked g)).
    { pose proof Ec as Ec2. unfold change_indicator_new in Ec2. cbv zeta in Ec2. rewrite (re_match_string _ _ _ M) in Ec2.
      assert (G : group_code (Some g) = Some (blanked g)) by exact (ProofKeptReport.type_code g). rewrite G in Ec2.
      repeat match type of Ec2 with context [match ?z with _ => _ end] => destruct z; try discriminate Ec2 end; congruence. }
    subst c. split; [exact U|]. split; [exact M|]. split; [exact Ec|]. split; [constructor|]. split; [reflexivity|constructor].
  - unfold handle_time_period in E. cbv zeta in E. destruct (add_period m (cp_ind p)) as [i|] eqn:Ei; [|discriminate E]. cbn [bind] in E.
    match type of E with Ok ?a = Ok _ => assert (K : p' = a) by congruence; rewrite K; clear K E end. exact (period_held g m _ _ M Ei H).
  - unfold handle_time_period in E. cbv zeta in E. destruct (add_period m (cp_ind p)) as [i|] eqn:Ei; [|discriminate E]. cbn [bind] in E.
    match type of E with Ok ?a = Ok _ => assert (K : p' = a) by congruence; rewrite K; clear K E end. exact (period_held g m _ _ M Ei H).
Qed.

Lemma trend_held_parsed : forall code t p, change_period_new code t = Ok p -> period_held_in p.
Proof.
  intros code t p E. unfold change_period_new in E. cbv zeta in E.
  destruct (common_new []) as [c|]; [|discriminate E]. cbn [bind] in E.
  destruct (trend_ind_new None t) as [i|] eqn:Ei; [|discriminate E]. cbn [bind] in E.
  destruct (parse_section trend_handlers _ _) as [[q un]|] eqn:P; [|discriminate E]. cbn [bind] in E. injection E as <-.
  apply (parse_section_from _ period_held_in) in P; [exact P|exact trend_held_step|]. left. cbn [cp_ind].
  unfold trend_ind_new in Ei. cbn [change_indicator_new bind] in Ei. cbv zeta in Ei. binds Ei. match type of Ei with Ok ?a = Ok _ => assert (K : i = a) by congruence; rewrite K end. reflexivity.
Qed.
Lemma trends_held : forall l x x', handle_trends l x = Ok x' -> Forall period_held_in (gl_list (me_trends x)) -> Forall period_held_in (gl_list (me_trends x')).
Proof.
  intros l. induction l as [|w l IH]; intros x x' E H; cbn [handle_trends] in E; [injection E as <-; exact H|].
  destruct w as [|c w]; [exact (IH _ _ E H)|]. unfold handle_weather_trend in E.
  destruct (change_period_new (c :: w) _) as [p|] eqn:C; [|discriminate E]. cbn [bind] in E. apply trend_held_parsed in C.
  destruct (gl_add p (me_trends x)) as [g|] eqn:G; [|discriminate E]. cbn [bind] in E.
  apply IH in E; [exact E|]. exact (gl_add_forall _ _ _ _ _ G C H).
Qed.
Lemma metar_trends_held : forall e code y mo tr x, metar_parse e code y mo tr = Ok x -> Forall period_held_in (gl_list (me_trends x)).
Proof.
  intros e code y mo tr x E. unfold metar_parse in E. destruct (report_raw_code code) as [raw|]; [|discriminate E]. cbn [bind] in E.
  destruct (metar_init e raw y mo) as [x0|] eqn:E0; [|discriminate E]. cbn [bind] in E.
  assert (T0 : me_trends x0 = gl_new 2).
  { unfold metar_init in E0.
    repeat match type of E0 with bind ?t _ = Ok _ => let v := fresh "v" in let Ev := fresh "Ev" in destruct t as [v|] eqn:Ev; [cbn [bind] in E0|discriminate E0] end.
    match type of E0 with Ok ?a = Ok _ => assert (K : x0 = a) by congruence; rewrite K end. reflexivity. }
  unfold parse_body in E. destruct (parse_section (metar_handlers e y mo) _ x0) as [[x1 un]|] eqn:E1; [|discriminate E].
  cbn [bind] in E. apply (parse_section_from _ (fun x => me_trends x = gl_new 2)) in E1; [| |exact T0].
  2: { intros h g m a b I U M Eh Ha. rewrite (metar_handler_trends _ _ _ _ _ _ _ I Eh). exact Ha. }
  unfold parse_weather_trend in E. destruct (handle_trends _ _) as [x2|] eqn:E2; [|discriminate E]. cbn [bind] in E.
  apply trends_held in E2; [|cbn [me_trends upd_unparsed]; rewrite E1; constructor].
  pose proof (collect_list _ (me_trends x2)) as Cl. destruct (gl_collect (me_trends x2)) as [l g]. cbn [snd] in Cl. cbv zeta in E.
  assert (X : x = upd_unparsed (me_unparsed x2 ++ flat_map cp_unparsed l) (upd_trends g x2)).
  { destruct (me_unparsed (upd_unparsed _ _)) as [|u us] in E; [congruence|]. destruct tr; [discriminate E|congruence]. }
  rewrite X. change (Forall period_held_in (gl_list g)). rewrite Cl. exact E2.
Qed.

Lemma typed_joined : forall w ws, typed (join (py " ") (w :: ws)) -> typed w /\ Forall typed ws.
Proof.
  intros w ws. revert w. induction ws as [|v ws IH]; intros w T; [split; [exact T|constructor]|].
  rewrite join_cons in T by discriminate. apply Forall_app in T. destruct T as [T1 T]. apply Forall_app in T. destruct T as [_ T]. apply IH in T. destruct T as [T2 T3].
  split; [exact T1|constructor; assumption].
Qed.
Lemma span_told : forall a b, real_time a -> real_time b -> span_phrase a b (py "from " ++ dt_str a ++ py " until " ++ dt_str b).
Proof. intros a b Ra Rb. exists (dt_str a), (dt_str b). split; [exact (ProofSay.clock_says a Ra)|]. split; [exact (ProofSay.clock_says b Rb)|reflexivity]. Qed.

Theorem trends_told : forall e code y mo tr x, metar_parse e code y mo tr = Ok x -> explained ti_code (fun c i => trend_phrase i c (trend_ind_str i)) (map cp_ind (gl_list (me_trends x))).
Proof.
  intros e code y mo tr x E i c I C T. apply in_map_iff in I. destruct I as (p & <- & I).
  pose proof (proj1 (Forall_forall _ _) (metar_trends_held _ _ _ _ _ _ E) p I) as H.
  destruct (ProofMomentReport.metar_moments_ok _ _ _ _ _ _ E) as [_ Mo]. pose proof (proj1 (Forall_forall _ _) Mo p I) as (_ & _ & _ & _ & (R1 & _) & (R2 & _) & _ & _ & R3). clear Mo E.
  unfold period_held_in in H. set (i := cp_ind p) in *. clearbody i. destruct H as [H|(w & m & ws & U & M & Cw & F & Ci & A)]; [congruence|].
  assert (Ec : c = join (py " ") (blanked w :: ws)) by congruence. subst c. clear C. destruct (typed_joined _ _ T) as [T1 T2].
  pose proof (re_match_string _ _ _ M) as Es. rewrite <- Es in Cw. apply indicator_meant in Cw; [|rewrite Es; exact (proj1 (change_words w (typed_word _ T1)) (matched _ _ _ M))].
  rewrite Es in Cw. destruct Cw as (_ & Me & Bg). exists (blanked w), ws, (ti_trans i). split; [reflexivity|]. split; [exact Bg|]. split.
  { rewrite Forall_forall in *. intros v Iv. apply (proj1 (period_words v (T2 v Iv))). exact (F v Iv). }
  split; [exact Me|]. unfold trend_ind_str. destruct (ti_at i) as [u|] eqn:Ea.
  - destruct A as [A1 A2]. rewrite A1. left. exists u, (time_str u). split; [exact A2|]. split; [reflexivity|]. split; [exact (ProofSay.clock_says _ (proj1 (R3 u eq_refl)))|reflexivity].
  - right. split; [exact A|]. split; [reflexivity|]. destruct Me as [(z & Iz & _ & Ez)|(_ & En)].
    + rewrite Ez. assert (Tz : truthy (Some (text_of z)) = true).
      { unfold change_meanings in Iz. cbn [In] in Iz. repeat (destruct Iz as [<-|Iz]; [reflexivity|]). contradiction. }
      rewrite Tz. eexists. split; [exact (span_told _ _ R1 R2)|]. cbn [translation_str]. unfold time_str.
      change (py " from ") with (py " " ++ py "from "). rewrite <- !app_assoc. reflexivity.
    + rewrite En. reflexivity.
Qed.

(** ** Changes *)

Definition change_none (i : taf_ind) : Prop := tc_code i = None.
Definition change_from (i : taf_ind) : Prop :=
  exists w m, re_match r_T_CHANGE_INDICATOR w = Some m /\ starts_with (py "FM") w = true /\ tc_code i = Some w /\ tc_trans i = Some (valid_str (tc_valid i)).
Definition change_bare (i : taf_ind) : Prop :=
  exists w m, re_match r_T_CHANGE_INDICATOR w = Some m /\ starts_with (py "FM") w = false /\ change_indicator_new (Some m) = Ok (Some (blanked w), tc_trans i)
    /\ tc_code i = Some (blanked w).
Definition change_timed (i : taf_ind) : Prop :=
  exists w m t u n, re_match r_T_CHANGE_INDICATOR w = Some m /\ starts_with (py "FM") w = false /\ change_indicator_new (Some m) = Ok (Some (blanked w), t)
    /\ re_match r_T_VALID u = Some n /\ tc_code i = Some (blanked w ++ py " " ++ blanked u) /\ tc_trans i = Some (fmt_opt t ++ py " " ++ valid_str (tc_valid i)).
Definition change_held (i : taf_ind) : Prop := change_none i \/ change_from i \/ change_bare i \/ change_timed i.
Definition held_at (n : nat) (i : taf_ind) : Prop :=
  match n with 0 => change_none i | 1 => change_from i \/ change_bare i | _ => change_held i end.
Lemma held_any : forall n i, held_at n i -> change_held i.
Proof. intros [|[|n]] i H; unfold change_held; [left; exact H|destruct H; auto|exact H]. Qed.

Lemma from_blanked : forall w, starts_with (py "FM") (blanked w) = starts_with (py "FM") w.
Proof.
  intro w. unfold blanked. destruct w as [|a [|b w]]; cbn [map]; [reflexivity| |].
  - destruct (N.eqb_spec a 95) as [->|N0]; reflexivity.
  - destruct (N.eqb_spec a 95) as [->|N0]; [reflexivity|]. destruct (N.eqb_spec b 95) as [->|N1]; [|reflexivity]. cbn. destruct (a =? 70)%N; reflexivity.
Qed.
Lemma from_appended : forall a b, starts_with (py "FM") (a ++ py " " ++ b) = starts_with (py "FM") a.
Proof.
  intros a b. destruct a as [|x [|y a]]; [reflexivity| |]; cbn [app]; [|reflexivity].
  cbn. destruct (x =? 70)%N; reflexivity.
Qed.
Lemma indicator_code : forall m c t, change_indicator_new (Some m) = Ok (c, t) -> c = Some (blanked (m_string m)).
Proof.
  intros m c t E. unfold change_indicator_new in E. cbv zeta in E.
  assert (G : group_code (Some (m_string m)) = Some (blanked (m_string m))) by exact (ProofKeptReport.type_code _). rewrite G in E.
  repeat match type of E with context [match ?z with _ => _ end] => destruct z; try discriminate E end; congruence.
Qed.

Lemma change_held_step : forall i k h g m p p', i <= k -> nth_error change_handlers k = Some h -> unspaced g -> re_match (h_regexp h) g = Some m -> h_handle h m p = Ok p' ->
  held_at i (cf_ind p) -> held_at (S k) (cf_ind p').
Proof.
  intros i k h g m p p' L N0 U M E H. destruct k as [|[|k]].
  - assert (K : h = mk_handler r_T_CHANGE_INDICATOR handle_change_indicator) by (cbn in N0; congruence). rewrite K in E, M. cbn [h_handle h_regexp] in E, M. clear K.
    unfold handle_change_indicator in E. destruct (taf_ind_new (Some m) (cf_valid p)) as [j|] eqn:Ej; [|discriminate E]. cbn [bind] in E.
    match type of E with Ok ?a = Ok _ => assert (K : p' = a) by congruence; rewrite K; clear K E end. unfold cf_set_ind. cbn [cf_ind held_at].
    unfold taf_ind_new in Ej. rewrite (re_match_string _ _ _ M) in Ej. destruct (starts_with (py "FM") g) eqn:F.
    + left. cbv zeta in Ej. binds Ej. match type of Ej with Ok ?a = Ok _ => assert (K : j = a) by congruence; rewrite K; clear K Ej end.
      exists g, m. cbn [tc_code tc_trans tc_valid]. auto.
    + right. destruct (change_indicator_new (Some m)) as [[c t]|] eqn:Ec; [|discriminate Ej]. cbn [bind fst snd] in Ej.
      match type of Ej with Ok ?a = Ok _ => assert (K : j = a) by congruence; rewrite K; clear K Ej end. pose proof (indicator_code _ _ _ Ec) as Kc. rewrite (re_match_string _ _ _ M) in Kc. subst c.
      exists g, m. cbn [tc_code tc_trans]. auto.
  - assert (K : h = mk_handler r_T_VALID handle_change_valid) by (cbn in N0; congruence). rewrite K in E, M. cbn [h_handle h_regexp] in E, M. clear K.
    unfold handle_change_valid in E. destruct (set_valid_period m _ (cf_ind p)) as [j|] eqn:Ej; [|discriminate E]. cbn [bind] in E.
    match type of E with Ok ?a = Ok _ => assert (K : p' = a) by congruence; rewrite K; clear K E end. unfold cf_set_ind. cbn [cf_ind held_at]. clear N0.
    unfold set_valid_period in Ej. destruct (valid_from_taf (Some m) _) as [v|] eqn:Ev; [|discriminate Ej]. cbn [bind] in Ej.
    pose proof (ProofKeptReport.valid_code _ _ _ Ev) as Cv. rewrite (re_match_string _ _ _ M) in Cv. set (q := cf_ind p) in *. clearbody q.
    assert (H' : change_none q \/ change_from q \/ change_bare q) by (destruct i as [|[|i]]; [left; exact H|right; exact H|lia]). clear H.
    destruct H' as [H|[(w & mw & Mw & F & C & T)|(w & mw & Mw & F & I & C)]].
    + rewrite H in Ej. discriminate Ej.
    + rewrite C, F in Ej. match type of Ej with Ok ?a = Ok _ => assert (K : j = a) by congruence; rewrite K; clear K Ej end.
      right. left. exists w, mw. cbn [tc_code tc_trans tc_valid]. auto.
    + rewrite C, from_blanked, F, Cv in Ej. match type of Ej with Ok ?a = Ok _ => assert (K : j = a) by congruence; rewrite K; clear K Ej end.
      right. right. right. exists w, mw, (tc_trans q), g, m. cbn [tc_code tc_trans tc_valid fmt_opt]. auto 8.
  - cbn [held_at]. apply held_any in H.
    assert (K : cf_ind p' = cf_ind p); [|rewrite K; exact H].
    assert (I : In h (skipn 2 change_handlers)).
    { apply (nth_error_In _ k). rewrite nth_skipn. exact N0. }
    cbn [skipn change_handlers In] in I.
    repeat (destruct I as [<-|I]; [cbn [h_handle] in E; unfold cf_lift in E; binds E; match type of E with Ok ?a = Ok _ => assert (K : p' = a) by congruence; rewrite K end; reflexivity|]). contradiction.
Qed.
Lemma change_held_parsed : forall code v p, change_fc_new code v = Ok p -> change_held (cf_ind p).
Proof.
  intros code v p E. unfold change_fc_new in E. cbv zeta in E.
  destruct (common_new []) as [c|]; [|discriminate E]. cbn [bind] in E. cbn [taf_ind_new bind] in E.
  destruct (parse_section change_handlers _ _) as [[q un]|] eqn:P; [|discriminate E]. cbn [bind] in E. injection E as <-.
  apply (parse_section_placed _ (fun n p => held_at n (cf_ind p))) in P; [|exact change_held_step|reflexivity]. destruct P as (n & P). exact (held_any n _ P).
Qed.

Definition held_in (p : change_fc) : Prop := change_held (cf_ind p).
Lemma reset_held : forall u i j, reset_until_period u i = Ok j -> change_held i -> change_held j.
Proof.
  intros u i j E H. unfold reset_until_period in E. destruct (dt_add_hours _ _) as [t|]; [|discriminate E]. cbn [bind] in E.
  destruct H as [H|[(w & m & M & F & C & T)|[(w & m & M & F & I & C)|(w & m & t' & v & n & M & F & I & V & C & T)]]].
  - rewrite H in E. discriminate E.
  - rewrite C, F in E. cbv zeta in E. match type of E with Ok ?a = Ok _ => assert (K : j = a) by congruence; rewrite K; clear K E end.
    right. left. exists w, m. cbn [tc_code tc_trans tc_valid]. auto.
  - rewrite C, from_blanked, F in E. injection E as <-. right. right. left. exists w, m. auto.
  - rewrite C, from_appended, from_blanked, F in E. injection E as <-. right. right. right. exists w, m, t', v, n. auto 8.
Qed.
Lemma pop_held : forall u rl temp a b, pop_changes u rl temp = Ok (a, b) -> Forall held_in rl -> Forall held_in temp -> Forall held_in a /\ Forall held_in b.
Proof.
  intros u rl. induction rl as [|l rl IH]; intros temp a b E H T; cbn [pop_changes] in E; [injection E as <- <-; auto|].
  pose proof (Forall_inv H) as Hl. pose proof (Forall_inv_tail H) as Hr. destruct (tc_code (cf_ind l)) as [c|] eqn:Ec; [|discriminate E].
  destruct (_ || _); [exact (IH _ _ _ E Hr (Forall_cons _ Hl T))|].
  destruct (starts_with (py "FM") c) eqn:F; [|injection E as <- <-; split; [exact Hr|constructor; assumption]].
  destruct (reset_until_period u (cf_ind l)) as [j|] eqn:Ej; [|discriminate E]. cbn [bind] in E. injection E as <- <-. split; [exact Hr|].
  constructor; [exact (reset_held _ _ _ Ej Hl)|exact T].
Qed.
Lemma changes_add_held : forall p g g', changes_add p g = Ok g' -> held_in p -> Forall held_in (gl_list g) -> Forall held_in (gl_list g').
Proof.
  intros p g g' E Hp Hg. unfold changes_add in E. cbv zeta in E. destruct (_ && _); [|exact (gl_add_forall _ _ _ _ _ E Hp Hg)].
  destruct (pop_changes _ (rev (gl_list g)) []) as [[rl temp]|] eqn:P; [|discriminate E]. cbn [bind] in E.
  apply pop_held in P; [|apply Forall_rev; exact Hg|constructor]. destruct P as [P1 P2].
  destruct (gl_add_all temp _) as [g1|] eqn:A; [|discriminate E]. cbn [bind] in E.
  apply (add_all_kept _ held_in) in A; [|exact P2|cbn [gl_list]; apply Forall_rev; exact P1].
  exact (gl_add_forall _ _ _ _ _ E Hp A).
Qed.

(** ** TAF *)

Definition cancelled_read (c : cancelled) : Prop := c = cancelled_new None \/ exists w m, re_match r_T_CANCELLED w = Some m /\ c = cancelled_new (Some m).
Definition missing_read (c : Taf.missing) : Prop := c = missing_new None \/ exists w m, re_match r_T_NIL w = Some m /\ c = missing_new (Some (m_string m)).
Definition taf_held (x : taf) : Prop :=
  type_read (ta_type x) /\ cancelled_read (ta_cancelled x) /\ missing_read (ta_missing x) /\ Forall held_in (gl_list (ta_changes x)).

Lemma taf_held_step : forall e y mo h g m x x', In h (taf_handlers e y mo) -> unspaced g -> re_match (h_regexp h) g = Some m -> h_handle h m x = Ok x' -> taf_held x -> taf_held x'.
Proof.
  intros e y mo h g m x x' I U M E H. unfold taf_handlers in I. cbn [In] in I.
  assert (L : forall f, tlift f m x = Ok x' -> taf_held x').
  { intros f Ef. unfold tlift in Ef. destruct (f m (ta_common x)) as [c|] eqn:Ec; [|discriminate Ef]. cbn [bind] in Ef.
    assert (K : x' = tupd_common c x) by congruence. rewrite K. exact H. }
  assert (T : thandle_temperature m x = Ok x' -> taf_held x').
  { intros Et. unfold thandle_temperature in Et. destruct (taf_temp_new m _) as [t|] eqn:W; [|discriminate Et]. cbn [bind] in Et.
    destruct (opt_str_eqb _ _); (destruct (gl_add t _) as [l|] eqn:G; [|discriminate Et]; cbn [bind] in Et;
      match type of Et with Ok ?a = Ok _ => assert (K : x' = a) by congruence end; rewrite K; exact H). }
  repeat (destruct I as [<-|I]; [cbn [h_handle h_regexp] in E, M|]); try contradiction;
    try exact (T E); try exact (L _ E); clear L T; destruct H as (H1 & H2 & H3 & H4);
    unfold thandle_type, thandle_modifier, thandle_station, thandle_time, thandle_missing, thandle_valid, thandle_cancelled in E;
    cbv zeta in E; binds E;
    (match type of E with Ok ?a = Ok _ => assert (K : x' = a) by congruence end; rewrite K; (split; [|split; [|split]]);
     first [assumption|exists g, m; auto|right; exists g, m; auto]).
Qed.
Lemma changes_held : forall l x x', handle_changes l x = Ok x' -> taf_held x -> taf_held x'.
Proof.
  intros l. induction l as [|w l IH]; intros x x' E H; cbn [handle_changes] in E; [injection E as <-; exact H|].
  destruct w as [|c w]; [exact (IH _ _ E H)|]. unfold handle_change_forecasted in E.
  destruct (change_fc_new (c :: w) _) as [p|] eqn:C; [|discriminate E]. cbn [bind] in E. apply change_held_parsed in C.
  destruct (changes_add p (ta_changes x)) as [g|] eqn:G; [|discriminate E]. cbn [bind] in E.
  apply IH in E; [exact E|]. destruct H as (H1 & H2 & H3 & H4). split; [exact H1|]. split; [exact H2|]. split; [exact H3|]. exact (changes_add_held _ _ _ G C H4).
Qed.
Lemma taf_held_parsed : forall e code y mo tr x, taf_parse e code y mo tr = Ok x -> taf_held x.
Proof.
  intros e code y mo tr x E. unfold taf_parse in E. destruct (report_raw_code code) as [raw|]; [|discriminate E]. cbn [bind] in E.
  destruct (taf_init e raw) as [x0|] eqn:E0; [|discriminate E]. cbn [bind] in E.
  assert (H0 : taf_held x0).
  { unfold taf_init in E0. destruct (time_new e None None None None None None); [|discriminate E0]. cbn [bind] in E0. destruct (taf_split raw) as [body codes].
    destruct (common_new []) as [c|]; [|discriminate E0]. cbn [bind] in E0. destruct (valid_from_taf None _); [|discriminate E0]. cbn [bind] in E0. injection E0 as <-.
    split; [exact (first_type "TAF" (or_intror eq_refl))|]. split; [left; reflexivity|]. split; [left; reflexivity|constructor]. }
  unfold taf_parse_body in E. destruct (parse_section (taf_handlers e y mo) _ x0) as [[x1 un]|] eqn:E1; [|discriminate E].
  cbn [bind] in E. apply (parse_section_from _ taf_held) in E1; [|exact (taf_held_step e y mo)|exact H0].
  unfold parse_changes_forecasted in E. destruct (handle_changes _ _) as [x2|] eqn:E2; [|discriminate E]. cbn [bind] in E. apply changes_held in E2; [|exact E1].
  pose proof (collect_list _ (ta_changes x2)) as Cl. destruct (gl_collect (ta_changes x2)) as [l g]. cbn [snd] in Cl. cbv zeta in E.
  assert (X : x = tupd_unparsed (ta_unparsed x2 ++ flat_map cf_unparsed l) (tupd_changes g x2)).
  { destruct (ta_unparsed (tupd_unparsed _ _)) as [|u us] in E; [congruence|]. destruct tr; [discriminate E|congruence]. }
  rewrite X. destruct E2 as (K1 & K2 & K3 & K4). split; [exact K1|]. split; [exact K2|]. split; [exact K3|]. change (Forall held_in (gl_list g)). rewrite Cl. exact K4.
Qed.

Definition prob_words : list str := map (fun x => py x) ["PROB30"; "PROB40"; "PROB30 TEMPO"; "PROB40 TEMPO"].
Lemma prob_meant : forall m p tempo c t, In p ["PROB30"; "PROB40"] -> m_string m = py p ++ flag tempo "_TEMPO" -> change_indicator_new (Some m) = Ok (c, t) ->
  In (blanked (m_string m)) prob_words /\ meant (blanked (m_string m)) t.
Proof.
  intros m p tempo c t Ip Es E. unfold change_indicator_new in E. cbv zeta in E. rewrite Es in *. clear Es.
  destruct Ip as [<-|[<-|[]]]; destruct tempo; vm_compute in E; match type of E with Ok (_, ?a) = Ok _ => assert (K : t = a) by congruence; rewrite K; clear K E end;
    (split; [vm_compute; auto|]); left.
  - exists ("PROB30 TEMPO", "probability 30% temporary"). split; [unfold change_meanings; cbn [In]; auto 8|]. split; vm_compute; reflexivity.
  - exists ("PROB30", "probability 30%"). split; [unfold change_meanings; cbn [In]; auto 8|]. split; vm_compute; reflexivity.
  - exists ("PROB40 TEMPO", "probability 40% temporary"). split; [unfold change_meanings; cbn [In]; auto 8|]. split; vm_compute; reflexivity.
  - exists ("PROB40", "probability 40%"). split; [unfold change_meanings; cbn [In]; auto 8|]. split; vm_compute; reflexivity.
Qed.
(** An indicator that is not FM. *)
Lemma worded : forall w m t, typed w -> re_match r_T_CHANGE_INDICATOR w = Some m -> starts_with (py "FM") w = false -> change_indicator_new (Some m) = Ok (Some (blanked w), t) ->
  (begins (py "TEMPO") (blanked w) \/ begins (py "BECMG") (blanked w) \/ In (blanked w) prob_words) /\ meant (blanked w) t.
Proof.
  intros w m t T M F I. pose proof (re_match_string _ _ _ M) as Es.
  destruct (proj1 (tchange_words w T) (matched _ _ _ M)) as [B|[B|[(x & u & (d & h & mi & _ & _ & _ & ->) & ->)|(p & tempo & Ip & Ew)]]].
  - rewrite <- Es in B. destruct (indicator_meant m _ t (or_introl B) I) as (_ & Me & Bg). rewrite Es in *. split; [|exact Me]. destruct Bg as [Bg|[Bg|Bg]]; auto.
    exfalso. destruct B as (u & ->). discriminate Bg.
  - rewrite <- Es in B. destruct (indicator_meant m _ t (or_intror (or_introl B)) I) as (_ & Me & Bg). rewrite Es in *. split; [|exact Me]. destruct Bg as [Bg|[Bg|Bg]]; auto.
    exfalso. destruct B as (u & ->). discriminate Bg.
  - exfalso. discriminate F.
  - rewrite <- Es in Ew. destruct (prob_meant m p tempo _ t Ip Ew I) as [K1 K2]. rewrite Es in *. auto.
Qed.

Theorem changes_told : forall e code y mo tr x, taf_parse e code y mo tr = Ok x ->
  explained tc_code (fun c i => change_phrase i c (translation_str (tc_trans i))) (map cf_ind (gl_list (ta_changes x))).
Proof.
  intros e code y mo tr x E i c I C T. apply in_map_iff in I. destruct I as (p & <- & I).
  destruct (taf_held_parsed _ _ _ _ _ _ E) as (_ & _ & _ & Hs). pose proof (proj1 (Forall_forall _ _) Hs p I) as H. unfold held_in in H. clear Hs.
  destruct (ProofMomentReport.taf_moments_ok _ _ _ _ _ _ E) as (_ & _ & _ & _ & Mo). pose proof (proj1 (Forall_forall _ _) Mo p I) as (_ & R1 & R2 & _). clear Mo E.
  assert (V : valid_phrase (tc_valid (cf_ind p)) (valid_str (tc_valid (cf_ind p)))) by exact (span_told _ _ R1 R2). clear R1 R2.
  set (i := cf_ind p) in *. clearbody i. destruct H as [H|[(w & m & M & F & Ci & Ti)|[(w & m & M & F & Iw & Ci)|(w & m & t & u & n & M & F & Iw & Mu & Ci & Ti)]]].
  - unfold change_none in H. congruence.
  - left. assert (K : c = w) by congruence. subst c. rewrite Ti. cbn [translation_str].
    destruct (proj1 (tchange_words w T) (matched _ _ _ M)) as [(u & ->)|[(u & ->)|[(z & u & Wz & ->)|(q & tempo & [<-|[<-|[]]] & ->)]]]; try discriminate F.
    exists z, u. auto.
  - right. assert (K : c = blanked w) by congruence. subst c. destruct (worded w m _ (typed_word _ T) M F Iw) as [W1 W2]. exists (blanked w), (tc_trans i).
    split; [exact W1|]. split; [exact W2|]. left. split; [reflexivity|]. destruct (tc_trans i); reflexivity.
  - right. assert (K : c = blanked w ++ py " " ++ blanked u) by congruence. subst c. apply Forall_app in T. destruct T as [T1 T2]. apply Forall_app in T2. destruct T2 as [_ T2].
    destruct (worded w m _ (typed_word _ T1) M F Iw) as [W1 W2]. exists (blanked w), t. split; [exact W1|]. split; [exact W2|]. right. apply typed_word in T2.
    exists u, (valid_str (tc_valid i)). split; [exact (proj1 (valid_words u T2) (matched _ _ _ Mu))|]. rewrite (plain_blank r_T_VALID u n eq_refl T2 Mu).
    split; [reflexivity|]. split; [exact V|]. rewrite Ti. destruct t; reflexivity.
Qed.

Theorem taf_told : forall e code y mo tr x, taf_parse e code y mo tr = Ok x ->
  explained ty_code (fun c t => type_phrase c (type_str t)) [ta_type x]
  /\ explained mo_code (fun c a => modifier_phrase c (modifier_str a)) [ta_modifier x]
  /\ explained (fun a => mo_code (mi_mod a)) (fun c a => c = py "NIL" /\ modifier_str (mi_mod a) = py "missing report") [ta_missing x]
  /\ explained ca_code (fun c a => c = py "CNL" /\ cancelled_str a = py "cancelled") [ta_cancelled x]
  /\ (ca_code (ta_cancelled x) = None -> cancelled_str (ta_cancelled x) = [])
  /\ valid_phrase (ta_valid x) (valid_str (ta_valid x)).
Proof.
  intros e code y mo tr x E. destruct (taf_held_parsed _ _ _ _ _ _ E) as (H1 & H2 & H3 & _). split; [exact (type_read_told _ H1)|].
  destruct (ProofMomentReport.taf_moments_ok _ _ _ _ _ _ E) as (_ & Mo & _).
  split. { apply taf_drawn_parsed in E. destruct E as ((_ & A2) & _). revert A2; apply one_says; [exact modifier_coded|intros a Ea; none Ea|intros w m a; apply modifier_sound_told; auto]. }
  split; [|split; [|split]].
  - intros a c [<-|[]] C T. destruct H3 as [K0|(w & m & M & K0)]; rewrite K0 in *; [discriminate C|]. rewrite (re_match_string _ _ _ M) in *.
    assert (Cm : mo_code (mi_mod (missing_new (Some w))) = Some (blanked w)) by exact (ProofKeptReport.modifier_code w).
    assert (K : c = blanked w) by congruence. subst c. rewrite (proj1 (nil_words w (typed_word _ T)) (matched _ _ _ M)). split; vm_compute; reflexivity.
  - intros a c [<-|[]] C T. destruct H2 as [K0|(w & m & M & K0)]; rewrite K0 in *; [discriminate C|].
    assert (Cm : ca_code (cancelled_new (Some m)) = Some (blanked w)) by (cbn [cancelled_new ca_code]; rewrite (re_match_string _ _ _ M); exact (ProofKeptReport.type_code w)).
    assert (K : c = blanked w) by congruence. subst c. rewrite (proj1 (cancel_words w (typed_word _ T)) (matched _ _ _ M)). split; [vm_compute; reflexivity|reflexivity].
  - destruct H2 as [-> |(w & m & M & ->)]; [reflexivity|]. intro C. discriminate C.
  - apply span_told; unfold SpecMoment.valid_moments in Mo; destruct (va_code (ta_valid x)); [apply Mo|apply Mo|apply Mo|apply Mo].
Qed.
