(** * The dictionary of a report (C64): lists and reports *)
From Coq Require Import String Ascii.
From Coq Require Import List NArith ZArith Bool Lia Permutation.
From Verif Require Import PyBase PyRegex AeroRegex PyFloat PyTime Utils Base MetarGroups Trend Metar Taf AsDict SpecNum SpecTime SpecMoment SpecSay SpecDict
  ProofLists ProofProb ProofAbsent ProofAbsentTaf ProofRangeReport ProofKeptTaf ProofJsonReport ProofMoment ProofMomentReport ProofSay ProofDict.
Import ListNotations.
Local Open Scope string_scope.
Local Open Scope nat_scope.
Local Open Scope list_scope.

(** ** Lists of groups *)

Lemma labels_at : forall i, i < 10 -> exists k, nth_error labels i = Some k /\ existsb (str_eqb k) (firstn i labels) = false
  /\ firstn (S i) labels = firstn i labels ++ [k].
Proof.
  intros i H. do 10 (destruct i as [|i]; [eexists; split; [reflexivity|]; split; [lazy; reflexivity|reflexivity]|]). lia.
Qed.

Lemma list_from_new : forall l i d, map fst d = firstn i labels -> i + length l <= 10 ->
  list_dict_from i l d = Ok (d ++ combine (firstn (length l) (skipn i labels)) (map VDict l)).
Proof.
  induction l as [|x l IH]; intros i d K L; cbn [list_dict_from length].
  - cbn [firstn combine]. rewrite app_nil_r. reflexivity.
  - cbn [length] in L. destruct (labels_at i) as (k & A & B & C); [lia|]. rewrite A.
    rewrite (dset_new k (VDict x) d) by (rewrite K; exact B).
    rewrite IH; [|rewrite map_app, K; cbn [map fst]; rewrite C; reflexivity|lia].
    f_equal. rewrite <- app_assoc. f_equal.
    assert (S : skipn i labels = k :: skipn (S i) labels).
    { clear - A. revert A. generalize labels. intro ls. revert i. induction ls as [|a ls IHl]; intros i A; [destruct i; discriminate A|].
      destruct i as [|i]; [injection A as <-; reflexivity|]. exact (IHl i A). }
    rewrite S. reflexivity.
Qed.

Lemma ordinals_labels : map py ordinals = labels.
Proof. reflexivity. Qed.

Lemma numbered_rows : forall A (f : A -> dict) (r : A -> list row) (l : list A) (ks : list string),
  (forall x, In x l -> Permutation (leaves (VDict (f x))) (r x)) -> length l <= length ks ->
  Permutation (key_rows (combine (firstn (length l) (map py ks)) (map VDict (map f l))))
              (flat_map (fun p => at_key (fst p) (r (snd p))) (combine ks l)).
Proof.
  intros A f r l. induction l as [|x l IH]; intros ks H L; [destruct ks; apply perm_nil|].
  destruct ks as [|k ks]; [cbn [length] in L; lia|]. cbn [length map firstn combine key_rows flat_map fst snd].
  apply Permutation_app; [apply under_perm, H; left; reflexivity|]. apply IH; [intros y Hy; apply H; right; exact Hy|cbn [length] in L; lia].
Qed.

Lemma list_rows : forall A (f : A -> dict) (r : A -> list row) (g : grouplist A), few g ->
  (forall x, In x (gl_list g) -> Permutation (leaves (VDict (f x))) (r x)) ->
  exists d, list_dict f g = Ok d /\ Permutation (leaves (VDict d)) (numbered r (gl_list g)).
Proof.
  intros A f r g [F1 F2] H. unfold list_dict. rewrite list_from_new; [|reflexivity|rewrite map_length; lia].
  eexists. split; [reflexivity|]. cbn [app skipn]. rewrite map_length, <- ordinals_labels.
  pose proof (numbered_rows _ f r (gl_list g) ordinals H) as P.
  destruct (gl_list g) as [|a l]; [apply Permutation_refl|]. rewrite leaves_dict by discriminate.
  apply P. change (length ordinals) with 10. lia.
Qed.

Lemma listed_from : forall A (f : A -> dict) (r : A -> list row) (l : list A) i,
  (forall x, In x l -> Permutation (leaves (VDict (f x))) (r x)) ->
  Permutation (item_rows i (map (fun x => VDict (f x)) l))
              (flat_map (fun p => under (Item (fst p)) (r (snd p))) (combine (seq i (length l)) l)).
Proof.
  intros A f r l. induction l as [|x l IH]; intros i H; [apply perm_nil|].
  cbn [length seq map combine item_rows flat_map fst snd].
  apply Permutation_app; [apply under_perm, H; left; reflexivity|]. apply IH. intros y Hy. apply H. right. exact Hy.
Qed.

Lemma listed_rows : forall A (f : A -> dict) (r : A -> list row) (l : list A),
  (forall x, In x l -> Permutation (leaves (VDict (f x))) (r x)) ->
  Permutation (leaves (VList (map (fun x => VDict (f x)) l))) (listed r l).
Proof.
  intros A f r l H. pose proof (listed_from _ f r l 0 H) as P. destruct l as [|a l]; [apply Permutation_refl|].
  rewrite leaves_list by discriminate. exact P.
Qed.

Lemma texts_rows : forall l, Permutation (leaves (VList (map VStr l))) (texts l).
Proof.
  intro l. assert (P : forall i, item_rows i (map VStr l)
    = flat_map (fun p : nat * str => under (Item (fst p)) [([], Word (snd p))]) (combine (seq i (length l)) l)).
  { induction l as [|x l IH]; intro i; [reflexivity|]. cbn [length seq map combine item_rows flat_map fst snd]. rewrite IH. reflexivity. }
  destruct l as [|a l]; [apply Permutation_refl|]. rewrite leaves_list by discriminate. rewrite P. apply Permutation_refl.
Qed.

(** ** The cursors of the lists of a trend or change are at the beginning *)

Definition fresh (c : common) : Prop := gl_n (c_weathers c) = 0 /\ gl_n (c_clouds c) = 0.

Lemma fresh_add : forall A (x : A) g g', gl_add x g = Ok g' -> gl_n g' = gl_n g.
Proof. intros A x g g' E. unfold gl_add in E. destruct (Nat.leb _ _); [discriminate E|]. injection E as <-. reflexivity. Qed.

Lemma fresh_wind : forall m c c', handle_wind m c = Ok c' -> fresh c -> fresh c'.
Proof.
  intros m c c' E H. unfold handle_wind in E. binds E.
  match type of E with Ok ?a = Ok _ => assert (K : c' = a) by congruence end. rewrite K. exact H.
Qed.
Lemma fresh_prevailing : forall m c c', handle_prevailing m c = Ok c' -> fresh c -> fresh c'.
Proof.
  intros m c c' E H. unfold handle_prevailing in E. binds E.
  match type of E with Ok ?a = Ok _ => assert (K : c' = a) by congruence end. rewrite K. exact H.
Qed.
Lemma fresh_weather : forall m c c', handle_weather m c = Ok c' -> fresh c -> fresh c'.
Proof.
  intros m c c' E [H1 H2]. unfold handle_weather in E. cbv zeta in E. destruct (gl_add _ _) as [l|] eqn:G; [|discriminate E].
  cbn [bind] in E. apply fresh_add in G.
  match type of E with Ok ?a = Ok _ => assert (K : c' = a) by congruence end. rewrite K. split; [rewrite <- H1; exact G|exact H2].
Qed.
Lemma fresh_cloud : forall m c c', handle_cloud m c = Ok c' -> fresh c -> fresh c'.
Proof.
  intros m c c' E [H1 H2]. unfold handle_cloud in E. destruct (cloud_from_metar _) as [k|]; [|discriminate E]. cbn [bind] in E.
  destruct (gl_add _ _) as [l|] eqn:G; [|discriminate E].
  cbn [bind] in E. apply fresh_add in G.
  match type of E with Ok ?a = Ok _ => assert (K : c' = a) by congruence end. rewrite K. split; [exact H1|rewrite <- H2; exact G].
Qed.
Lemma common_new_fresh : forall b c, common_new b = Ok c -> fresh c.
Proof.
  intros b c E. unfold common_new in E.
  destruct (metar_wind_new None) as [w|]; [|discriminate E]. cbn [bind] in E.
  destruct (prevailing_new None) as [v|]; [|discriminate E]. cbn [bind] in E.
  match type of E with Ok ?a = Ok _ => assert (K : c = a) by congruence end. rewrite K. split; reflexivity.
Qed.

Lemma trend_fresh_step : forall h (g : str) m p p', In h trend_handlers -> re_match (h_regexp h) g = Some m -> h_handle h m p = Ok p' ->
  fresh (cp_common p) -> fresh (cp_common p').
Proof.
  intros h g m p p' I _ E H. unfold trend_handlers in I. cbn [In] in I.
  assert (L : forall f, (forall c c', f m c = Ok c' -> fresh c -> fresh c') -> cp_lift f m p = Ok p' -> fresh (cp_common p')).
  { intros f Hf Ef. unfold cp_lift in Ef. destruct (f m (cp_common p)) as [c|] eqn:Ec; [|discriminate Ef]. cbn [bind] in Ef.
    assert (K : p' = cp_set_common c p) by congruence. rewrite K. exact (Hf _ _ Ec H). }
  repeat (destruct I as [<-|I]; [cbn [h_handle h_regexp] in E|]); try contradiction;
    try (apply (L _ (fresh_wind m) E)); try (apply (L _ (fresh_prevailing m) E));
    try (apply (L _ (fresh_weather m) E)); try (apply (L _ (fresh_cloud m) E));
    unfold handle_trend_indicator, handle_time_period in E; cbv zeta in E; binds E;
    (match type of E with Ok ?a = Ok _ => assert (K : p' = a) by congruence end); rewrite K; exact H.
Qed.

Lemma trend_fresh : forall code t p, change_period_new code t = Ok p -> fresh (cp_common p).
Proof.
  intros code t p E. unfold change_period_new in E. cbv zeta in E.
  destruct (common_new []) as [c|] eqn:C; [|discriminate E]. cbn [bind] in E. apply common_new_fresh in C.
  destruct (trend_ind_new None t) as [i|]; [|discriminate E]. cbn [bind] in E.
  destruct (parse_section trend_handlers _ _) as [[q un]|] eqn:P; [|discriminate E]. cbn [bind] in E. injection E as <-.
  apply (parse_section_keep _ (fun q => fresh (cp_common q))) in P; [exact P|exact trend_fresh_step|exact C].
Qed.

Definition trends_fresh (x : metar) : Prop := Forall (fun p => fresh (cp_common p)) (gl_list (me_trends x)).

Lemma trends_fresh_parsed : forall l x x', handle_trends l x = Ok x' -> trends_fresh x -> trends_fresh x'.
Proof.
  intros l. induction l as [|w l IH]; intros x x' E T; cbn [handle_trends] in E; [injection E as <-; auto|].
  destruct w as [|c w]; [exact (IH _ _ E T)|]. unfold handle_weather_trend in E.
  destruct (change_period_new (c :: w) _) as [p|] eqn:C; [|discriminate E]. cbn [bind] in E. apply trend_fresh in C.
  destruct (gl_add p (me_trends x)) as [g|] eqn:G; [|discriminate E]. cbn [bind] in E.
  apply IH in E; [exact E|]. exact (gl_add_forall _ _ _ _ _ G C T).
Qed.

Lemma metar_fresh : forall e code y mo tr x, metar_parse e code y mo tr = Ok x -> trends_fresh x.
Proof.
  intros e code y mo tr x E. unfold metar_parse in E. destruct (report_raw_code code) as [raw|]; [|discriminate E]. cbn [bind] in E.
  destruct (metar_init e raw y mo) as [x0|] eqn:E0; [|discriminate E]. cbn [bind] in E.
  assert (T0 : gl_list (me_trends x0) = []).
  { unfold metar_init in E0. binds E0. injection E0 as <-. reflexivity. }
  unfold parse_body in E. destruct (parse_section (metar_handlers e y mo) _ x0) as [[x1 un]|] eqn:E1; [|discriminate E].
  cbn [bind] in E.
  assert (K : me_trends x1 = me_trends x0).
  { apply (parse_section_keep _ (fun x => me_trends x = me_trends x0)) in E1; [exact E1| |reflexivity].
    intros h g m s s' I M Eh K. rewrite <- K. exact (metar_handler_trends _ _ _ _ _ _ _ I Eh). }
  unfold parse_weather_trend in E. destruct (handle_trends _ _) as [x2|] eqn:E2; [|discriminate E]. cbn [bind] in E.
  apply trends_fresh_parsed in E2; [|unfold trends_fresh; cbn [me_trends upd_unparsed]; rewrite K, T0; constructor].
  pose proof (collect_list _ (me_trends x2)) as Cl. destruct (gl_collect (me_trends x2)) as [l g]. cbn [snd] in Cl. cbv zeta in E.
  assert (X : x = upd_unparsed (me_unparsed x2 ++ flat_map cp_unparsed l) (upd_trends g x2)).
  { destruct (me_unparsed (upd_unparsed _ _)) as [|u us] in E; [congruence|]. destruct tr; [discriminate E|congruence]. }
  rewrite X. unfold trends_fresh. cbn [me_trends upd_unparsed upd_trends]. rewrite Cl. exact E2.
Qed.

Definition change_fresh (p : change_fc) : Prop := fresh (cf_common p).

Lemma change_fresh_step : forall h (g : str) m p p', In h change_handlers -> re_match (h_regexp h) g = Some m -> h_handle h m p = Ok p' ->
  change_fresh p -> change_fresh p'.
Proof.
  intros h g m p p' I _ E H. unfold change_handlers in I. cbn [In] in I.
  assert (L : forall f, (forall c c', f m c = Ok c' -> fresh c -> fresh c') -> cf_lift f m p = Ok p' -> change_fresh p').
  { intros f Hf Ef. unfold cf_lift in Ef. destruct (f m (cf_common p)) as [c|] eqn:Ec; [|discriminate Ef]. cbn [bind] in Ef.
    injection Ef as <-. exact (Hf _ _ Ec H). }
  repeat (destruct I as [<-|I]; [cbn [h_handle h_regexp] in E|]); try contradiction;
    try (apply (L _ (fresh_wind m) E)); try (apply (L _ (fresh_prevailing m) E));
    try (apply (L _ (fresh_weather m) E)); try (apply (L _ (fresh_cloud m) E));
    unfold handle_change_indicator, handle_change_valid in E; binds E; injection E as <-; exact H.
Qed.

Lemma change_fresh_parsed : forall code v p, change_fc_new code v = Ok p -> change_fresh p.
Proof.
  intros code v p E. unfold change_fc_new in E. cbv zeta in E.
  destruct (common_new []) as [c|] eqn:C; [|discriminate E]. cbn [bind] in E. apply common_new_fresh in C.
  cbn [taf_ind_new bind] in E.
  destruct (parse_section change_handlers _ _) as [[q un]|] eqn:P; [|discriminate E]. cbn [bind] in E. injection E as <-.
  apply (parse_section_keep _ change_fresh) in P; [exact P|exact change_fresh_step|exact C].
Qed.

Lemma pop_fresh : forall u rl temp a b, pop_changes u rl temp = Ok (a, b) -> Forall change_fresh rl -> Forall change_fresh temp ->
  Forall change_fresh a /\ Forall change_fresh b.
Proof.
  intros u rl. induction rl as [|l rl IH]; intros temp a b E H T; cbn [pop_changes] in E; [injection E as <- <-; auto|].
  pose proof (Forall_inv H) as Hl. pose proof (Forall_inv_tail H) as Hr. destruct (tc_code (cf_ind l)) as [c|] eqn:Ec; [|discriminate E].
  destruct (_ || _); [exact (IH _ _ _ E Hr (Forall_cons _ Hl T))|].
  destruct (starts_with (py "FM") c) eqn:F; [|injection E as <- <-; split; [exact Hr|constructor; assumption]].
  unfold reset_until_period in E. binds E. injection E as <- <-. split; [exact Hr|]. constructor; [exact Hl|exact T].
Qed.

Lemma changes_add_fresh : forall p g g', changes_add p g = Ok g' -> change_fresh p -> Forall change_fresh (gl_list g) ->
  Forall change_fresh (gl_list g').
Proof.
  intros p g g' E Hp Hg. unfold changes_add in E. cbv zeta in E. destruct (_ && _); [|exact (gl_add_forall _ _ _ _ _ E Hp Hg)].
  destruct (pop_changes _ (rev (gl_list g)) []) as [[rl temp]|] eqn:P; [|discriminate E]. cbn [bind] in E.
  apply pop_fresh in P; [|apply Forall_rev; exact Hg|constructor]. destruct P as [P1 P2].
  destruct (gl_add_all temp _) as [g1|] eqn:A; [|discriminate E]. cbn [bind] in E.
  apply (add_all_kept _ change_fresh) in A; [|exact P2|cbn [gl_list]; apply Forall_rev; exact P1].
  exact (gl_add_forall _ _ _ _ _ E Hp A).
Qed.

(** The moments of temperatures have no code. *)
Definition uncoded (g : grouplist taf_temp) : Prop := Forall (fun t => t_code (tt_time t) = None) (gl_list g).
Definition taf_fresh (x : taf) : Prop :=
  uncoded (ta_max x) /\ uncoded (ta_min x) /\ Forall change_fresh (gl_list (ta_changes x)).

Lemma temp_uncoded : forall m t u, taf_temp_new m t = Ok u -> t_code (tt_time u) = None.
Proof. intros m t u E. unfold taf_temp_new in E. binds E. injection E as <-. reflexivity. Qed.

Lemma taf_fresh_step : forall e y mo h (g : str) m x x', In h (taf_handlers e y mo) -> re_match (h_regexp h) g = Some m ->
  h_handle h m x = Ok x' -> taf_fresh x -> taf_fresh x'.
Proof.
  intros e y mo h g m x x' I _ E (H1 & H2 & H3). unfold taf_handlers in I. cbn [In] in I.
  assert (T : thandle_temperature m x = Ok x' -> taf_fresh x').
  { intros Et. unfold thandle_temperature in Et. destruct (taf_temp_new m _) as [t|] eqn:W; [|discriminate Et]. cbn [bind] in Et.
    pose proof (temp_uncoded _ _ _ W) as O.
    destruct (opt_str_eqb _ _); (destruct (gl_add t _) as [l|] eqn:G; [|discriminate Et]; cbn [bind] in Et;
      match type of Et with Ok ?a = Ok _ => assert (K : x' = a) by congruence end; rewrite K; unfold taf_fresh; cbn;
      pose proof (gl_add_forall _ (fun t => t_code (tt_time t) = None) _ _ _ G O) as Q; unfold uncoded in *; auto). }
  repeat (destruct I as [<-|I]; [cbn [h_handle h_regexp] in E|]); try contradiction; try exact (T E);
    unfold tlift, thandle_type, thandle_modifier, thandle_station, thandle_time, thandle_missing, thandle_valid, thandle_cancelled in E;
    cbv zeta in E; binds E;
    (match type of E with Ok ?a = Ok _ => assert (K : x' = a) by congruence end; rewrite K; unfold taf_fresh; cbn; auto).
Qed.

Lemma taf_fresh_changes : forall l x x', handle_changes l x = Ok x' -> taf_fresh x -> taf_fresh x'.
Proof.
  intros l. induction l as [|w l IH]; intros x x' E H; cbn [handle_changes] in E; [injection E as <-; exact H|].
  destruct w as [|c w]; [exact (IH _ _ E H)|]. unfold handle_change_forecasted in E.
  destruct (change_fc_new (c :: w) _) as [p|] eqn:C; [|discriminate E]. cbn [bind] in E. apply change_fresh_parsed in C.
  destruct (changes_add p (ta_changes x)) as [g|] eqn:G; [|discriminate E]. cbn [bind] in E.
  apply IH in E; [exact E|]. destruct H as (H1 & H2 & H3). split; [exact H1|]. split; [exact H2|].
  exact (changes_add_fresh _ _ _ G C H3).
Qed.

Lemma taf_fresh_parsed : forall e code y mo tr x, taf_parse e code y mo tr = Ok x -> taf_fresh x.
Proof.
  intros e code y mo tr x E. unfold taf_parse in E. destruct (report_raw_code code) as [raw|]; [|discriminate E]. cbn [bind] in E.
  destruct (taf_init e raw) as [x0|] eqn:E0; [|discriminate E]. cbn [bind] in E.
  assert (F0 : taf_fresh x0).
  { unfold taf_init in E0. destruct (time_new e None None None None None None); [|discriminate E0]. cbn [bind] in E0.
    destruct (taf_split raw) as [body codes]. destruct (common_new []) as [c|]; [|discriminate E0]. cbn [bind] in E0.
    destruct (valid_from_taf None _); [|discriminate E0]. cbn [bind] in E0. injection E0 as <-.
    split; [constructor|]. split; constructor. }
  unfold taf_parse_body in E. destruct (parse_section (taf_handlers e y mo) _ x0) as [[x1 un]|] eqn:E1; [|discriminate E].
  cbn [bind] in E.
  apply (parse_section_keep _ taf_fresh) in E1; [|exact (taf_fresh_step e y mo)|exact F0].
  unfold parse_changes_forecasted in E. destruct (handle_changes _ _) as [x2|] eqn:E2; [|discriminate E]. cbn [bind] in E.
  apply taf_fresh_changes in E2; [|exact E1].
  pose proof (collect_list _ (ta_changes x2)) as Cl. destruct (gl_collect (ta_changes x2)) as [l g]. cbn [snd] in Cl. cbv zeta in E.
  assert (X : x = tupd_unparsed (ta_unparsed x2 ++ flat_map cf_unparsed l) (tupd_changes g x2)).
  { destruct (ta_unparsed (tupd_unparsed _ _)) as [|u us] in E; [congruence|]. destruct tr; [discriminate E|congruence]. }
  rewrite X. destruct E2 as (K1 & K2 & K3). split; [exact K1|]. split; [exact K2|].
  cbn [ta_changes tupd_unparsed tupd_changes]. rewrite Cl. exact K3.
Qed.

(** ** Forecasts *)

Lemma forecast_rows_ok : forall code c, fresh c -> Permutation (leaves (VDict (fst (forecast_dict code c)))) (forecast_rows code c).
Proof.
  intros code c [F1 F2]. unfold forecast_dict. rewrite (gl_collect_fresh (c_weathers c) F1), (gl_collect_fresh (c_clouds c) F2).
  cbn [fst]. unfold group_dict. rewrite dupdate_new by (lazy; reflexivity). cbn [app]. rewrite leaves_dict by discriminate.
  cbn [key_rows]. rewrite !leaves_vopt. unfold forecast_rows, code_row, field, at_key.
  apply Permutation_sym. cbn [app]. rewrite app_nil_r.
  match goal with |- Permutation (?a :: ?l) _ => apply (Permutation_trans (Permutation_cons_append l a)) end.
  rewrite <- !app_assoc.
  repeat (apply Permutation_app; [apply under_perm, Permutation_sym|]);
    [apply wind_rows_ok|apply prevailing_rows_ok|apply listed_rows; intros; apply weather_rows_ok|
     apply listed_rows; intros; apply cloud_rows_ok|apply Permutation_refl].
Qed.

(** ** Reports *)

Lemma field_under : forall k v, field k v = under (Key (py k)) [([], v)].
Proof. reflexivity. Qed.

Lemma valid_rows_ok : forall v, real_valid v -> Permutation (leaves (VDict (valid_dict v))) (valid_rows v).
Proof.
  intros v [V1 V2]. unfold valid_dict, group_dict. rewrite dupdate_new by (lazy; reflexivity). cbn [app]. rewrite leaves_dict by discriminate.
  cbn [key_rows]. rewrite leaves_vopt. unfold valid_rows, code_row, field, at_key. cbn [app]. rewrite app_nil_r.
  apply Permutation_sym. match goal with |- Permutation (?a :: ?l) _ => apply (Permutation_trans (Permutation_cons_append l a)) end.
  rewrite <- app_assoc. repeat (apply Permutation_app; [apply under_perm, Permutation_sym|]);
    [exact (time_rows_ok _ V1)|exact (time_rows_ok _ V2)|apply Permutation_refl].
Qed.

(** ** Indicators *)

Lemma taf_ind_rows_ok : forall i, real_valid (tc_valid i) -> Permutation (leaves (VDict (taf_ind_dict i))) (taf_ind_rows i).
Proof.
  intros i V. unfold taf_ind_dict, group_dict. rewrite !dupdate_new by (lazy; reflexivity). cbn [app]. rewrite leaves_dict by discriminate.
  cbn [key_rows]. rewrite !leaves_vopt. unfold taf_ind_rows, translation_rows, code_row, at_key. rewrite !field_under, app_nil_r, <- !app_assoc.
  rewrite (app_assoc (under _ [([], word (tc_code i))])). eapply Permutation_trans; [|apply Permutation_app_comm].
  apply Permutation_app; [apply under_perm, valid_rows_ok, V|]. apply Permutation_app_comm.
Qed.

Lemma trend_ind_rows_ok : forall i, real_time (t_dt (ti_init i)) -> real_time (t_dt (ti_end i)) -> real_time (t_dt (ti_from i)) ->
  real_time (t_dt (ti_until i)) -> (forall a, ti_at i = Some a -> real_time (t_dt a)) ->
  Permutation (leaves (VDict (trend_ind_dict i))) (trend_ind_rows i).
Proof.
  intros i R1 R2 R3 R4 R5. unfold trend_ind_dict, group_dict.
  set (at_ := match ti_at i with Some a => if time_truthy a then VDict (time_dict a) else VNone | None => VNone end).
  assert (A : exists r, Permutation (under (Key (py "at")) (leaves at_)) r /\ r =
    match ti_at i with
    | Some a => match t_code a with Some (_ :: _) => at_key "at" (time_rows a) | _ => field "at" Nothing end
    | None => field "at" Nothing
    end).
  { eexists. split; [|reflexivity]. subst at_. destruct (ti_at i) as [a|]; [|apply Permutation_refl].
    specialize (R5 a eq_refl). pose proof (time_rows_ok _ R5) as T. unfold time_truthy.
    destruct (t_code a) as [[|c s]|] eqn:C; [apply Permutation_refl| |apply Permutation_refl].
    apply under_perm. exact T. }
  destruct A as (r & A & Er). unfold trend_ind_rows. rewrite <- Er. clear Er.
  rewrite !dupdate_new by (lazy; reflexivity). cbn [app]. rewrite leaves_dict by discriminate.
  cbn [key_rows]. rewrite !leaves_vopt. rewrite leaves_dict by discriminate. cbn [key_rows].
  unfold translation_rows, code_row, at_key. rewrite !field_under, !app_nil_r, <- !app_assoc.
  rewrite (app_assoc (under _ [([], word (ti_code i))])). eapply Permutation_trans; [|apply Permutation_app_comm]. rewrite <- !app_assoc.
  apply Permutation_app.
  { apply under_perm, Permutation_app; apply under_perm; [exact (time_rows_ok _ R1)|exact (time_rows_ok _ R2)]. }
  apply Permutation_app; [apply under_perm; exact (time_rows_ok _ R3)|].
  apply Permutation_app; [apply under_perm; exact (time_rows_ok _ R4)|].
  apply Permutation_app; [exact A|]. apply Permutation_app_comm.
Qed.

Theorem metar_indicators : forall e code y mo tr x, metar_parse e code y mo tr = Ok x ->
  Forall (fun p => Permutation (leaves (VDict (trend_ind_dict (cp_ind p)))) (trend_ind_rows (cp_ind p))) (gl_list (me_trends x)).
Proof.
  intros e code y mo tr x P. destruct (metar_moments_ok _ _ _ _ _ _ P) as [R T]. eapply Forall_impl; [|exact T].
  intros p (_ & M1 & M2 & _ & M3 & M4 & _ & _ & M5). apply trend_ind_rows_ok.
  - rewrite M1. exact R.
  - exact M2.
  - exact (proj1 M3).
  - exact (proj1 M4).
  - intros a Ha. exact (proj1 (M5 a Ha)).
Qed.

Theorem taf_indicators : forall e code y mo tr x, taf_parse e code y mo tr = Ok x ->
  Forall (fun p => Permutation (leaves (VDict (taf_ind_dict (cf_ind p)))) (taf_ind_rows (cf_ind p))) (gl_list (ta_changes x)).
Proof.
  intros e code y mo tr x P. destruct (taf_moments_ok _ _ _ _ _ _ P) as (_ & _ & _ & _ & T). eapply Forall_impl; [|exact T].
  intros p (_ & M1 & M2 & _). apply taf_ind_rows_ok. split; assumption.
Qed.

Theorem metar_dict_rows : forall e code y mo tr x, metar_parse e code y mo tr = Ok x ->
  exists d, metar_dict e x = Ok d /\ Permutation (leaves (VDict d)) (metar_rows e x).
Proof.
  intros e code y mo tr x P. destruct (metar_short _ _ _ _ _ _ P) as ((F1 & F2) & F3 & F4 & F5).
  pose proof (metar_fresh _ _ _ _ _ _ P) as Fr. destruct (metar_moments_ok _ _ _ _ _ _ P) as [R _]. clear P.
  destruct (list_rows _ rvr_dict rvr_rows _ F3) as (rvr & E1 & G1); [intros; apply rvr_rows_ok|].
  destruct (list_rows _ weather_dict weather_rows _ F1) as (wea & E2 & G2); [intros; apply weather_rows_ok|].
  destruct (list_rows _ cloud_dict cloud_rows _ F2) as (clo & E3 & G3); [intros; apply cloud_rows_ok|].
  destruct (list_rows _ ws_dict ws_rows _ F4) as (ws & E4 & G4); [intros; apply ws_rows_ok|].
  destruct (list_rows _ change_period_dict (fun p => forecast_rows (cp_code p) (cp_common p)) _ F5) as (trd & E5 & G5).
  { intros p Hp. apply forecast_rows_ok. exact (proj1 (Forall_forall _ _) Fr p Hp). }
  unfold metar_dict. rewrite E1, E2, E3, E4, E5. cbn [bind]. eexists. split; [reflexivity|].
  unfold report_dict. rewrite dupdate_new by (lazy; reflexivity). cbn [app]. rewrite leaves_dict by discriminate.
  cbn [key_rows]. rewrite !leaves_vopt. unfold metar_rows, report_rows, at_key. rewrite !field_under, <- !app_assoc. rewrite app_nil_r.
  repeat (apply Permutation_app; [apply under_perm|]);
    first [exact G1|exact G2|exact G3|exact G4|exact G5|apply texts_rows|apply type_rows_ok|apply station_rows_ok|exact (time_rows_ok _ R)
      |apply modifier_rows_ok|apply wind_rows_ok|apply wvar_rows_ok|apply prevailing_rows_ok|apply vis_rows_ok|apply temps_rows_ok
      |rewrite pressure_rows_ok; apply Permutation_refl|apply recent_rows_ok|apply sea_rows_ok|apply rs_rows_ok|apply Permutation_refl].
Qed.

Theorem taf_dict_rows : forall e code y mo tr x, taf_parse e code y mo tr = Ok x ->
  exists d, taf_dict e x = Ok d /\ Permutation (leaves (VDict d)) (taf_rows e x).
Proof.
  intros e code y mo tr x P. destruct (taf_short _ _ _ _ _ _ P) as ((F1 & F2) & F3 & F4 & F5).
  destruct (taf_fresh_parsed _ _ _ _ _ _ P) as (U1 & U2 & Fr). destruct (taf_moments_ok _ _ _ _ _ _ P) as (R & V & M1 & M2 & _). clear P.
  apply valid_moments_real in V.
  destruct (list_rows _ weather_dict weather_rows _ F1) as (wea & E1 & G1); [intros; apply weather_rows_ok|].
  destruct (list_rows _ cloud_dict cloud_rows _ F2) as (clo & E2 & G2); [intros; apply cloud_rows_ok|].
  destruct (list_rows _ taf_temp_dict taf_temp_rows _ F3) as (mx & E3 & G3).
  { intros t Ht. apply taf_temp_rows_ok; [exact (proj1 (proj1 (Forall_forall _ _) M1 t Ht))|exact (proj1 (Forall_forall _ _) U1 t Ht)]. }
  destruct (list_rows _ taf_temp_dict taf_temp_rows _ F4) as (mn & E4 & G4).
  { intros t Ht. apply taf_temp_rows_ok; [exact (proj1 (proj1 (Forall_forall _ _) M2 t Ht))|exact (proj1 (Forall_forall _ _) U2 t Ht)]. }
  destruct (list_rows _ change_fc_dict (fun p => forecast_rows (cf_code p) (cf_common p)) _ F5) as (ch & E5 & G5).
  { intros p Hp. apply forecast_rows_ok. exact (proj1 (Forall_forall _ _) Fr p Hp). }
  pose proof (valid_rows_ok _ V) as Vr.
  unfold taf_dict. rewrite E1, E2, E3, E4, E5. cbn [bind]. eexists. split; [reflexivity|].
  unfold report_dict. rewrite dupdate_new by (lazy; reflexivity). cbn [app]. rewrite leaves_dict by discriminate.
  cbn [key_rows]. unfold taf_rows, report_rows, at_key. rewrite !field_under, <- !app_assoc. rewrite app_nil_r.
  repeat (apply Permutation_app; [apply under_perm|]);
    first [exact G1|exact G2|exact G3|exact G4|exact (under_perm _ _ _ G5)|exact Vr|apply texts_rows|apply type_rows_ok|apply station_rows_ok|exact (time_rows_ok _ R)
      |apply modifier_rows_ok|apply wind_rows_ok|apply prevailing_rows_ok|apply missing_rows_ok|apply cancelled_rows_ok|apply Permutation_refl].
Qed.
