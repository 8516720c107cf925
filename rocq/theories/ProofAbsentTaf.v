(** * Absent groups of a TAF are empty; dictionaries carry the code (C51, C52) *)
From Coq Require Import String Ascii.
From Coq Require Import List NArith ZArith Bool Lia.
From Verif Require Import PyBase PyRegex AeroRegex PyFloat PyTime Utils Base MetarGroups Trend Metar Taf AsDict
  SpecLists ProofLists SpecAbsent ProofProb ProofAbsent.
Import ListNotations.
Local Open Scope string_scope.
Local Open Scope nat_scope.
Local Open Scope list_scope.

Lemma taf_ind_some : forall m v i, taf_ind_new (Some m) v = Ok i -> exists c, tc_code i = Some c.
Proof.
  intros m v i E. unfold taf_ind_new in E. destruct (starts_with (py "FM") (m_string m)).
  - binds E. injection E as <-. eexists. reflexivity.
  - destruct (change_indicator_new (Some m)) as [ct|] eqn:C; [|discriminate]. cbn [bind] in E.
    apply indicator_some in C. destruct C as (c & C). injection E as <-. exists c. exact C.
Qed.

Lemma change_step : forall h m p p', In h change_handlers -> h_handle h m p = Ok p' -> change_kept p -> change_kept p'.
Proof.
  intros h m p p' I E [H1 H2]. unfold change_handlers in I. cbn [In] in I.
  assert (L : forall f, (forall c c', f m c = Ok c' -> common_kept c -> common_kept c') -> cf_lift f m p = Ok p' -> change_kept p').
  { intros f Hf Ef. unfold cf_lift in Ef. destruct (f m (cf_common p)) as [c|] eqn:Ec; [|discriminate]. cbn [bind] in Ef.
    injection Ef as <-. split; [exact (Hf _ _ Ec H1)|exact H2]. }
  repeat (destruct I as [<-|I]; [cbn [h_handle] in E|]); try contradiction;
    try (apply (L _ (common_wind m) E)); try (apply (L _ (common_prevailing m) E));
    try (apply (L _ (common_weather m) E)); try (apply (L _ (common_cloud m) E)).
  - unfold handle_change_indicator in E. destruct (taf_ind_new (Some m) (cf_valid p)) as [i|] eqn:T; [|discriminate].
    cbn [bind] in E. apply taf_ind_some in T. destruct T as (c & T). injection E as <-. split; [exact H1|].
    exact (kept_some _ _ _ _ _ T).
  - unfold handle_change_valid, set_valid_period in E. destruct (valid_from_taf _ _); [|discriminate]. cbn [bind] in E.
    destruct (tc_code (cf_ind p)) as [c|]; [|discriminate].
    destruct (starts_with (py "FM") c); cbn [bind] in E; injection E as <-; (split; [exact H1|intro K; discriminate K]).
Qed.

Lemma change_parsed : forall code v p, change_fc_new code v = Ok p -> change_kept p.
Proof.
  intros code v p E. unfold change_fc_new in E. cbv zeta in E.
  destruct (common_new []) as [c|] eqn:C; [|discriminate]. cbn [bind] in E. apply common_new_kept in C.
  cbn [taf_ind_new bind] in E.
  destruct (parse_section change_handlers _ _) as [[q un]|] eqn:P; [|discriminate]. cbn [bind] in E. injection E as <-.
  apply (parse_section_inv _ change_kept) in P; [exact P|intros h m q1 q2; apply change_step|].
  split; [exact C|]. intros _. unfold taf_ind_absent, blank. cbn. auto 8.
Qed.

Lemma pop_kept : forall u rl temp a b, pop_changes u rl temp = Ok (a, b) -> Forall change_kept rl -> Forall change_kept temp ->
  Forall change_kept a /\ Forall change_kept b.
Proof.
  intros u rl. induction rl as [|l rl IH]; intros temp a b E H T; cbn [pop_changes] in E; [injection E as <- <-; auto|].
  inversion H as [|? ? Hl Hr]; subst. destruct (tc_code (cf_ind l)) as [c|] eqn:Ec; [|discriminate].
  destruct (_ || _); [exact (IH _ _ _ E Hr (Forall_cons _ Hl T))|].
  destruct (starts_with (py "FM") c) eqn:F; [|injection E as <- <-; split; [exact Hr|constructor; assumption]].
  unfold reset_until_period in E. destruct (dt_add_hours _ _); [|discriminate]. cbn [bind] in E. rewrite Ec, F in E. cbn [bind] in E.
  injection E as <- <-. split; [exact Hr|]. constructor; [|exact T]. split; [apply Hl|]. intro K. discriminate K.
Qed.

Lemma add_all_kept : forall A (P : A -> Prop) l g g', gl_add_all l g = Ok g' -> Forall P l -> Forall P (gl_list g) -> Forall P (gl_list g').
Proof.
  intros A P l. induction l as [|x l IH]; intros g g' E H G; cbn [gl_add_all] in E; [injection E as <-; exact G|].
  inversion H as [|? ? Hx Hl]; subst. destruct (gl_add x g) as [g1|] eqn:Ea; [|discriminate]. cbn [bind] in E.
  exact (IH _ _ E Hl (gl_add_forall _ _ _ _ _ Ea Hx G)).
Qed.

Lemma changes_add_kept : forall p g g', changes_add p g = Ok g' -> change_kept p -> Forall change_kept (gl_list g) ->
  Forall change_kept (gl_list g').
Proof.
  intros p g g' E Hp Hg. unfold changes_add in E. cbv zeta in E. destruct (_ && _); [|exact (gl_add_forall _ _ _ _ _ E Hp Hg)].
  destruct (pop_changes _ (rev (gl_list g)) []) as [[rl temp]|] eqn:P; [|discriminate]. cbn [bind] in E.
  apply pop_kept in P; [|apply Forall_rev; exact Hg|constructor]. destruct P as [P1 P2].
  destruct (gl_add_all temp _) as [g1|] eqn:A; [|discriminate]. cbn [bind] in E.
  apply (add_all_kept _ change_kept) in A; [|exact P2|cbn [gl_list]; apply Forall_rev; exact P1].
  exact (gl_add_forall _ _ _ _ _ E Hp A).
Qed.

Lemma taf_step : forall e y mo h m x x', In h (taf_handlers e y mo) -> h_handle h m x = Ok x' -> taf_kept e x -> taf_kept e x'.
Proof.
  intros e y mo h m x x' I E H. unfold taf_handlers in I. cbn [In] in I.
  assert (L : forall f, (forall c c', f m c = Ok c' -> common_kept c -> common_kept c') -> tlift f m x = Ok x' -> taf_kept e x').
  { intros f Hf Ef. unfold tlift in Ef. destruct (f m (ta_common x)) as [c|] eqn:Ec; [|discriminate]. cbn [bind] in Ef.
    assert (K : x' = tupd_common c x) by congruence. rewrite K. destruct H as [H1 H2]. split; [exact (Hf _ _ Ec H1)|exact H2]. }
  assert (T : thandle_temperature m x = Ok x' -> taf_kept e x').
  { unfold thandle_temperature. intro Et. destruct (taf_temp_new m _) as [t|]; [|discriminate]. cbn [bind] in Et.
    destruct (opt_str_eqb _ _); (destruct (gl_add t _); [|discriminate]; cbn [bind] in Et;
      match type of Et with Ok ?a = Ok _ => assert (K : x' = a) by congruence end; rewrite K; exact H). }
  destruct H as (H0 & H1 & H2 & H3 & H4 & H5).
  repeat (destruct I as [<-|I]; [cbn [h_handle] in E|]); try contradiction;
    try exact (T E);
    try (apply (L _ (common_wind m) E)); try (apply (L _ (common_prevailing m) E));
    try (apply (L _ (common_weather m) E)); try (apply (L _ (common_cloud m) E));
    unfold thandle_type, thandle_modifier, thandle_station, thandle_time, thandle_missing, thandle_valid, thandle_cancelled in E;
    cbv zeta in E; binds E;
    (match type of E with Ok ?a = Ok _ => assert (K : x' = a) by congruence end; rewrite K; unfold taf_kept; cbn;
     repeat (split; [first [assumption|intro N; discriminate N]|]); assumption).
Qed.

Lemma changes_parsed : forall e l x x', handle_changes l x = Ok x' -> taf_kept e x -> taf_kept e x'.
Proof.
  intros e l. induction l as [|w l IH]; intros x x' E H; cbn [handle_changes] in E; [injection E as <-; exact H|].
  destruct w as [|c w]; [exact (IH _ _ E H)|]. unfold handle_change_forecasted in E.
  destruct (change_fc_new (c :: w) _) as [p|] eqn:C; [|discriminate]. cbn [bind] in E. apply change_parsed in C.
  destruct (changes_add p (ta_changes x)) as [g|] eqn:G; [|discriminate]. cbn [bind] in E.
  apply IH in E; [exact E|]. destruct H as (H0 & H1 & H2 & H3 & H4 & H5). repeat (split; [assumption|]).
  exact (changes_add_kept _ _ _ G C H5).
Qed.

Lemma taf_start : forall e raw x, taf_init e raw = Ok x -> taf_kept e x.
Proof.
  intros e raw x E. unfold taf_init in E.
  destruct (time_new e None None None None None None); [|discriminate]. cbn [bind] in E. destruct (taf_split raw) as [body codes].
  destruct (common_new []) as [c|] eqn:C; [|discriminate]. cbn [bind] in E. apply common_new_kept in C.
  destruct (valid_from_taf None _); [|discriminate]. cbn [bind] in E. injection E as <-.
  split; [exact C|]. split; [intros _; apply station_none|]. split; [intros _; exact modifier_none|].
  split; [intros _; exact missing_none|]. split; [intros _; exact cancelled_none|]. constructor.
Qed.

Lemma taf_absent : forall e code y mo tr x, taf_parse e code y mo tr = Ok x -> taf_kept e x.
Proof.
  intros e code y mo tr x E. unfold taf_parse in E. destruct (report_raw_code code) as [raw|]; [|discriminate]. cbn [bind] in E.
  destruct (taf_init e raw) as [x0|] eqn:E0; [|discriminate]. cbn [bind] in E. apply taf_start in E0.
  unfold taf_parse_body in E. destruct (parse_section (taf_handlers e y mo) _ x0) as [[x1 un]|] eqn:E1; [|discriminate].
  cbn [bind] in E.
  apply (parse_section_inv _ (taf_kept e)) in E1; [|intros h m s s'; apply taf_step|exact E0].
  unfold parse_changes_forecasted in E. destruct (handle_changes _ _) as [x2|] eqn:E2; [|discriminate]. cbn [bind] in E.
  apply (changes_parsed e) in E2; [|exact E1].
  pose proof (collect_list _ (ta_changes x2)) as Cl. destruct (gl_collect (ta_changes x2)) as [l g]. cbn [snd] in Cl. cbv zeta in E.
  assert (X : x = tupd_unparsed (ta_unparsed x2 ++ flat_map cf_unparsed l) (tupd_changes g x2)).
  { destruct (ta_unparsed (tupd_unparsed _ _)) as [|u us] in E; [congruence|]. destruct tr; [discriminate|congruence]. }
  rewrite X. destruct E2 as (K0 & K1 & K2 & K3 & K4 & K5). repeat (split; [assumption|]).
  cbn [ta_changes tupd_unparsed tupd_changes]. rewrite Cl. exact K5.
Qed.

(** ** Dictionaries *)

Lemma entry_filter : forall (d : dict) k v, filter (fun kv => str_eqb k (fst kv)) d = [(k, v)] -> entry d k v.
Proof.
  intros d k v. induction d as [|[k' v'] d IH]; cbn [filter fst]; [discriminate|].
  destruct (str_eqb k k') eqn:E.
  - intro H. assert (Hv : v' = v) by congruence. assert (Hd : filter (fun kv => str_eqb k (fst kv)) d = []) by congruence.
    apply str_eqb_eq in E. subst k' v'. exists [], d. split; [reflexivity|]. split; [intros []|].
    intro I. apply in_map_iff in I. destruct I as ([k2 v2] & E2 & I). cbn [fst] in E2. subst k2.
    assert (K : In (k, v2) (filter (fun kv => str_eqb k (fst kv)) d)).
    { apply filter_In. split; [exact I|apply str_eqb_refl]. }
    rewrite Hd in K. exact K.
  - intro H. destruct (IH H) as (a & b & -> & Ha & Hb). exists ((k', v') :: a), b. split; [reflexivity|]. split; [|exact Hb].
    cbn [map fst In]. intros [K|K]; [|exact (Ha K)]. subst k'. rewrite str_eqb_refl in E. discriminate.
Qed.

Ltac entry := apply entry_filter; reflexivity.

Lemma dict_codes :
  (forall w, carries (wind_dict w) (w_code w)) /\ (forall w, carries (wvar_dict w) (wv_code w))
  /\ (forall v, carries (vis_dict v) (v_code v)) /\ (forall v, carries (prevailing_dict v) (v_code v))
  /\ (forall c, carries (cloud_dict c) (cl_code c)) /\ (forall w, carries (weather_dict w) (we_code w))
  /\ (forall w, carries (recent_dict w) (rw_code w)) /\ (forall r, carries (rvr_dict r) (rr_code r))
  /\ (forall t, carries (temps_dict t) (te_code t)) /\ (forall w, carries (ws_dict w) (ws_code w))
  /\ (forall s, carries (sea_dict s) (se_code s)) /\ (forall r, carries (rs_dict r) (rs_code r))
  /\ (forall t, carries (type_dict t) (ty_code t)) /\ (forall m, carries (modifier_dict m) (mo_code m))
  /\ (forall e s, carries (station_dict e s) (st_code s)) /\ (forall t, carries (time_dict t) (t_code t))
  /\ (forall i, carries (trend_ind_dict i) (ti_code i)) /\ (forall v, carries (valid_dict v) (va_code v))
  /\ (forall m, carries (missing_dict m) (mo_code (mi_mod m))) /\ (forall c, carries (cancelled_dict c) (ca_code c))
  /\ (forall i, carries (taf_ind_dict i) (tc_code i)).
Proof. unfold carries. repeat (split; [intros; entry|]). intros; entry. Qed.

Lemma trend_dict_code : forall p, carries (change_period_dict p) (cp_code p).
Proof.
  intro p. unfold change_period_dict, forecast_dict, carries. destruct (gl_collect (c_weathers _)) as [ws gw].
  destruct (gl_collect (c_clouds _)) as [cs gc]. entry.
Qed.
Lemma change_dict_code : forall p, carries (change_fc_dict p) (cf_code p).
Proof.
  intro p. unfold change_fc_dict, forecast_dict, carries. destruct (gl_collect (c_weathers _)) as [ws gw].
  destruct (gl_collect (c_clouds _)) as [cs gc]. entry.
Qed.


Lemma list_shown : forall A (f : A -> dict) g d, list_dict f g = Ok d -> map snd d = map (fun a => VDict (f a)) (gl_list g).
Proof.
  intros A f g d E. rewrite list_dict_spec in E. destruct (Nat.leb (length (gl_list g)) 10) eqn:L; [|discriminate].
  apply Nat.leb_le in L. assert (K : d = labelled f (gl_list g)) by congruence. rewrite K. unfold labelled.
  clear - L. generalize (gl_list g) as l, L. intros l Hl.
  assert (G : forall (a : list str) (b : list pyval), length b <= length a -> map snd (combine a b) = b).
  { intro a. induction a as [|x a IH]; intros [|y b] H; cbn in *; try reflexivity; [lia|]. rewrite IH; [reflexivity|lia]. }
  apply G. rewrite map_length. exact Hl.
Qed.

Lemma metar_dict_codes : forall e x d, metar_dict e x = Ok d ->
  entry d (py "code") (VStr (me_raw x))
  /\ shown d "type_" (ty_code (me_type x)) /\ shown d "station" (st_code (me_station x)) /\ shown d "time" (t_code (me_time x))
  /\ shown d "modifier" (mo_code (me_modifier x)) /\ shown d "wind" (w_code (c_wind (me_common x)))
  /\ shown d "wind_variation" (wv_code (me_wvar x)) /\ shown d "prevailing_visibility" (v_code (c_vis (me_common x)))
  /\ shown d "minimum_visibility" (v_code (me_minvis x)) /\ shown d "temperatures" (te_code (me_temps x))
  /\ shown d "recent_weather" (rw_code (me_recent x)) /\ shown d "sea_state" (se_code (me_sea x))
  /\ shown d "runway_state" (rs_code (me_rwy x))
  /\ shown_list rvr_dict d "runway_ranges" (gl_list (me_rvr x)) rr_code
  /\ shown_list weather_dict d "weathers" (gl_list (c_weathers (me_common x))) we_code
  /\ shown_list cloud_dict d "clouds" (gl_list (c_clouds (me_common x))) cl_code
  /\ shown_list ws_dict d "windshears" (gl_list (me_ws x)) ws_code
  /\ shown_list change_period_dict d "weather_trends" (gl_list (me_trends x)) cp_code.
Proof.
  intros e x d E. unfold metar_dict in E.
  destruct (list_dict rvr_dict _) as [d1|] eqn:E1; [|discriminate]. cbn [bind] in E. apply list_shown in E1.
  destruct (list_dict weather_dict _) as [d2|] eqn:E2; [|discriminate]. cbn [bind] in E. apply list_shown in E2.
  destruct (list_dict cloud_dict _) as [d3|] eqn:E3; [|discriminate]. cbn [bind] in E. apply list_shown in E3.
  destruct (list_dict ws_dict _) as [d4|] eqn:E4; [|discriminate]. cbn [bind] in E. apply list_shown in E4.
  destruct (list_dict change_period_dict _) as [d5|] eqn:E5; [|discriminate]. cbn [bind] in E. apply list_shown in E5.
  match type of E with Ok ?a = Ok d => assert (K : d = a) by congruence end. rewrite K. clear E K.
  destruct dict_codes as (Cw & Cv & Cm & Cp & Ccl & Cwe & Cre & Crv & Cte & Cws & Cse & Crs & Cty & Cmo & Cst & Cti & _).
  split; [entry|].
  do 12 (split; [eexists; split; [entry|solve [eauto]]|]).
  split; [exists d1; split; [entry|split; [exact E1|intros a _; apply Crv]]|].
  split; [exists d2; split; [entry|split; [exact E2|intros a _; apply Cwe]]|].
  split; [exists d3; split; [entry|split; [exact E3|intros a _; apply Ccl]]|].
  split; [exists d4; split; [entry|split; [exact E4|intros a _; apply Cws]]|].
  exists d5. split; [entry|split; [exact E5|intros a _; apply trend_dict_code]].
Qed.

Lemma taf_dict_codes : forall e x d, taf_dict e x = Ok d ->
  entry d (py "code") (VStr (ta_raw x))
  /\ shown d "type_" (ty_code (ta_type x)) /\ shown d "station" (st_code (ta_station x)) /\ shown d "time" (t_code (ta_time x))
  /\ shown d "modifier" (mo_code (ta_modifier x)) /\ shown d "missing" (mo_code (mi_mod (ta_missing x)))
  /\ shown d "valid" (va_code (ta_valid x)) /\ shown d "cancelled" (ca_code (ta_cancelled x))
  /\ shown d "wind" (w_code (c_wind (ta_common x))) /\ shown d "prevailing_visibility" (v_code (c_vis (ta_common x)))
  /\ shown_list weather_dict d "weathers" (gl_list (c_weathers (ta_common x))) we_code
  /\ shown_list cloud_dict d "clouds" (gl_list (c_clouds (ta_common x))) cl_code
  /\ shown_list change_fc_dict d "changes_forecasted" (gl_list (ta_changes x)) cf_code.
Proof.
  intros e x d E. unfold taf_dict in E.
  destruct (list_dict weather_dict _) as [d2|] eqn:E2; [|discriminate]. cbn [bind] in E. apply list_shown in E2.
  destruct (list_dict cloud_dict _) as [d3|] eqn:E3; [|discriminate]. cbn [bind] in E. apply list_shown in E3.
  destruct (list_dict taf_temp_dict _) as [d6|]; [|discriminate]. cbn [bind] in E.
  destruct (list_dict taf_temp_dict _) as [d7|]; [|discriminate]. cbn [bind] in E.
  destruct (list_dict change_fc_dict _) as [d5|] eqn:E5; [|discriminate]. cbn [bind] in E. apply list_shown in E5.
  match type of E with Ok ?a = Ok d => assert (K : d = a) by congruence end. rewrite K. clear E K.
  destruct dict_codes as (Cw & Cv & Cm & Cp & Ccl & Cwe & Cre & Crv & Cte & Cws & Cse & Crs & Cty & Cmo & Cst & Cti & _ & Cva & Cmi & Cca & _).
  split; [entry|].
  do 9 (split; [eexists; split; [entry|solve [eauto]]|]).
  split; [exists d2; split; [entry|split; [exact E2|intros a _; apply Cwe]]|].
  split; [exists d3; split; [entry|split; [exact E3|intros a _; apply Ccl]]|].
  exists d5. split; [entry|split; [exact E5|intros a _; apply change_dict_code]].
Qed.

(** The two classes that lose it. *)
Lemma pressure_no_code : forall e x d, metar_dict e x = Ok d ->
  exists dp, entry d (py "pressure") (VDict dp) /\ ~ In (py "code") (map fst dp).
Proof.
  intros e x d E. unfold metar_dict in E. binds E.
  match type of E with Ok ?a = Ok d => assert (K : d = a) by congruence end. rewrite K.
  eexists. split; [entry|]. cbn. intros [N|[N|[]]]; discriminate N.
Qed.
Lemma taf_temp_no_code : forall m t0 t, taf_temp_new m t0 = Ok t -> tt_code t <> None /\ carries (taf_temp_dict t) None.
Proof.
  intros m t0 t E. unfold taf_temp_new in E. binds E.
  match type of E with Ok ?a = Ok t => assert (K : t = a) by congruence end. rewrite K.
  split; [discriminate|]. unfold carries. entry.
Qed.
