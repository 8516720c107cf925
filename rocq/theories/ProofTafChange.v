(** * Parsing one change of a well-formed TAF *)
From Coq Require Import String Ascii.
From Coq Require Import List NArith ZArith Bool Lia.
From Verif Require Import PyBase PyRegex AeroRegex PyFloat PyTime Utils Base MetarGroups Trend Metar Taf SpecNum SpecGroups SpecTime
  SpecText SpecTaf SpecWords SpecMetar SpecTafReport SymRegex TimeFacts StrFacts ProofGroups ProofGroups2 ProofValues ProofTime
  TextFacts ProofSections ProofMerge ProofTafText ProofWords GroupShapes ProofSlots Dispatch ProofFields ProofMetar ProofMetarText
  ProofWx TafShapes ProofTafBody.
Import ListNotations.
Local Open Scope string_scope.
Local Open Scope nat_scope.
Local Open Scope list_scope.

(** ** The words of wind, visibility, weather and clouds *)

Lemma int_ordinary : forall two n, ordinary (one_or_two two n).
Proof.
  intros two n. apply (ordinary_inst _ (dsym (if two then 2 else 1))); [|destruct two; vm_compute; reflexivity].
  destruct two; apply inst_digits.
Qed.
Lemma frac_ordinary : forall a b, ordinary (frac_word a b).
Proof.
  intros a b. apply (ordinary_inst _ (dsym 1 ++ lit "/" ++ dsym 1 ++ lit "SM")); [|vm_compute; reflexivity].
  unfold frac_word. auto with inst.
Qed.

Definition flat_tok (t : mtok) : Prop := match t with MWord v => word v | MMixed _ _ _ _ => True | MWs _ _ => False end.
Definition ordinary_tok_words (t : mtok) : Prop := Forall ordinary (m_words t) /\ flat_tok t.

Lemma ordinary_word_tok : forall w, ordinary w -> ordinary_tok_words (MWord w).
Proof. intros w H. split; [constructor; [exact H|constructor]|apply H]. Qed.

Lemma vis_tok_ordinary : forall g, vis_wf g -> vis_spellable g -> ordinary_tok_words (vis_tok g).
Proof.
  intros g H Hs. destruct (two_words g) eqn:E.
  - destruct g as [| | |[l|] [[two n]|] [[a b]|]|]; try discriminate E; [destruct Hs|].
    split; [|exact I]. constructor; [apply int_ordinary|]. constructor; [apply frac_ordinary|constructor].
  - assert (K : vis_tok g = MWord (vis_code g)) by (destruct g as [| | |l [[two n]|] [[a b]|]|]; try reflexivity; discriminate E).
    rewrite K. apply ordinary_word_tok. apply vis_ordinary; assumption.
Qed.

Lemma wx_ordinary : forall g, wx_wf g -> Forall ordinary_tok_words (wx_toks g).
Proof.
  intros g (H1 & H2 & (H3 & _) & (H4 & _)). unfold wx_toks. parts.
  - apply (of_opt _ _ _ _ _ _ H1). intros x [K _]. apply ordinary_word_tok. apply wind_plain. exact K.
  - apply (of_opt _ _ _ _ _ _ H2). intros x [K1 K2]. apply vis_tok_ordinary; assumption.
  - apply (of_list _ _ _ _ _ _ H3). intros x [K1 K2]. apply ordinary_word_tok. apply weather_plain; assumption.
  - apply (of_list _ _ _ _ _ _ H4). intros x K1. apply ordinary_word_tok. apply cloud_plain; assumption.
Qed.

Lemma wx_words_ordinary : forall g, wx_wf g -> Forall ordinary (flat_map m_words (wx_toks g)).
Proof.
  intros g H. apply Forall_flat_map. eapply Forall_impl; [|apply wx_ordinary; exact H]. intros t K. apply K.
Qed.

Lemma wx_unmixed : forall g P Q, wx_wf g -> Forall no_dig P -> Forall no_frac Q -> unmixed (P ++ wx_toks g ++ Q).
Proof.
  intros g P Q (H1 & H2 & (H3 & _) & (H4 & _)) HP HQ. unfold wx_toks.
  rewrite <- !app_assoc, app_assoc. apply unmixed_mid.
  - apply Forall_app. split; [exact HP|]. apply (of_opt _ _ _ _ _ _ H1). intros x [K _]. apply wind_plain. exact K.
  - apply of_option_length.
  - parts; [| |exact HQ].
    + apply (of_list _ _ _ _ _ _ H3). intros x [K1 K2]. apply weather_plain; assumption.
    + apply (of_list _ _ _ _ _ _ H4). intros x K1. apply cloud_plain; assumption.
Qed.

Lemma wx_joined : forall g, wx_wf g -> map m_joined (wx_toks g) = wx_groups g.
Proof.
  intros g (_ & H2 & _). unfold wx_toks, wx_groups. rewrite !map_app, !map_map. cbn [m_joined].
  assert (Z2 : forall A (f : A -> str) o, map m_joined (of_option (fun x => MWord (f x)) o) = of_option f o)
    by (intros A f [x|]; reflexivity).
  rewrite Z2. do 2 f_equal. destruct (x_vis g) as [v|]; [|reflexivity]. destruct H2 as [V1 V2]. cbn [of_option map].
  rewrite (proj2 (vis_tok_ok v V1 V2)). reflexivity.
Qed.

Lemma wx_mixed : forall g, length (filter is_mixed (wx_toks g)) <= 1.
Proof.
  intro g. unfold wx_toks. rewrite !filter_app, !app_length.
  assert (Z : forall A (f : A -> str) l, length (filter is_mixed (map (fun x => MWord (f x)) l)) = 0)
    by (intros A f l; induction l as [|x l IH]; [reflexivity|exact IH]).
  rewrite !Z. pose proof (filter_len _ is_mixed (of_option vis_tok (x_vis g))).
  pose proof (of_option_length _ _ vis_tok (x_vis g)).
  replace (length (filter is_mixed (of_option (fun x => MWord (wind_code x)) (x_wind g)))) with 0
    by (destruct (x_wind g); reflexivity). lia.
Qed.

(** ** The words of a change *)

Lemma fm_shaped : forall d h mi, (1 <= d <= 31)%N -> (h <= 23)%N -> (mi <= 59)%N ->
  inst (fm_code d h mi) (lit "FM" ++ dsym 2 ++ dsym 2 ++ dsym 2).
Proof. intros d h mi _ _ _. unfold fm_code. auto 8 with inst. Qed.

(** Words without special characters that do not end like a keyword. *)
Definition quiet_word (s : str) : Prop :=
  word s /\ ~ In 124%N s /\ ~ In 61%N s /\ ~ In 95%N s /\ ends_with (py "TAF") s = false.
Lemma ordinary_quiet : forall s, ordinary s -> quiet_word s.
Proof. intros s (H1 & H2 & H3 & H4 & _ & _ & H5 & _). unfold quiet_word. auto. Qed.

Lemma fm_quiet : forall d h mi, (1 <= d <= 31)%N -> (h <= 23)%N -> (mi <= 59)%N ->
  quiet_word (fm_code d h mi) /\ ends_with (py "PROB30") (fm_code d h mi) = false /\ ends_with (py "PROB40") (fm_code d h mi) = false
  /\ forallb is_digit (fm_code d h mi) = false.
Proof.
  intros d h mi H1 H2 H3. pose proof (fm_shaped d h mi H1 H2 H3) as Hi.
  set (y := lit "FM" ++ dsym 2 ++ dsym 2 ++ dsym 2) in *.
  assert (O : ordinary (tl (fm_code d h mi))).
  { apply (ordinary_inst _ (tl y)).
    - unfold y in *. clear y. destruct (fm_code d h mi) as [|c s]; inversion Hi; subst; assumption.
    - vm_compute. reflexivity. }
  unfold fm_code in *. change (py "FM") with [70; 77]%N in *. cbn [app tl] in *.
  set (s := digits 2 d ++ digits 2 h ++ digits 2 mi) in *.
  destruct O as ((O0 & O1) & O2 & O3 & O4 & _ & _ & O5 & O6 & O7).
  assert (L : forall p, length p <= 7 -> ends_with p (77%N :: s) = false -> ends_with p (70%N :: 77%N :: s) = false).
  { intros p Hp K. unfold ends_with in *. change (rev (70%N :: 77%N :: s)) with (rev (77%N :: s) ++ [70%N]).
    assert (Ls : length (rev (77%N :: s)) = 7) by (rewrite rev_length; unfold s; cbn [length]; rewrite !app_length, !digits_length; reflexivity).
    rewrite <- (rev_length p) in Hp. revert K Ls Hp. generalize (rev (77%N :: s)) (rev p). clear.
    intros l p K Ls Hp. rewrite <- Ls in Hp. clear Ls. revert l K Hp. induction p as [|c p IH]; intros l K Hp; [discriminate K|].
    destruct l as [|d l]; [cbn in Hp; lia|]. cbn [starts_with app] in *. apply andb_false_iff in K. apply andb_false_iff.
    destruct K as [K|K]; [left; exact K|right]. apply IH; [exact K|cbn in Hp; lia]. }
  unfold quiet_word, word. conjs.
  - discriminate.
  - constructor; [intro K; discriminate K|exact O1].
  - intros [K|K]; [discriminate|contradiction].
  - intros [K|K]; [discriminate|contradiction].
  - intros [K|K]; [discriminate|contradiction].
  - apply L; [cbn; lia|exact O5].
  - apply L; [cbn; lia|exact O6].
  - apply L; [cbn; lia|exact O7].
  - reflexivity.
Qed.

Lemma kind_quiet : forall k, match kind_tok k with Plain w => quiet_word w /\ forallb is_digit w = false | ProbTempo _ => True end.
Proof.
  assert (Q : forall w, word w -> ~ In 124%N w -> ~ In 61%N w -> ~ In 95%N w -> ends_with (py "TAF") w = false -> quiet_word w)
    by (intros w; unfold quiet_word; auto).
  intros [| |[|]|n]; cbn [kind_tok prob_code]; try exact I; (split; [apply Q|reflexivity]);
    try (split; [discriminate|repeat constructor; discriminate]); try reflexivity; cbn; intuition discriminate.
Qed.

(** The words after the indicator. *)
Definition after_ind (g : change_g) : list mtok :=
  match h_ind g with IFrom _ _ _ => [] | IDuring _ p => [MWord (span_code p)] end ++ wx_toks (h_wx g).
Definition ind_tok (i : change_ind) : ctok :=
  match i with IFrom d h mi => Plain (fm_code d h mi) | IDuring k _ => kind_tok k end.

Lemma change_toks_eq : forall g, change_toks g = ind_tok (h_ind g) :: map Plain (flat_map m_words (after_ind g)).
Proof.
  intros [[d h mi|k p] w]; unfold change_toks, after_ind; cbn [h_ind h_wx ind_toks ind_tok app]; [reflexivity|].
  cbn [flat_map m_words app map]. reflexivity.
Qed.

Lemma after_ordinary : forall s g, change_wf s g -> Forall ordinary_tok_words (after_ind g).
Proof.
  intros s g (Hi & Hw & _). unfold after_ind. apply Forall_app. split; [|apply wx_ordinary; exact Hw].
  destruct (h_ind g) as [d h mi|k p]; [constructor|]. constructor; [|constructor]. apply ordinary_word_tok.
  apply (period_plain s p Hi).
Qed.
Lemma after_words : forall s g, change_wf s g -> Forall ordinary (flat_map m_words (after_ind g)).
Proof.
  intros s g H. apply Forall_flat_map. eapply Forall_impl; [|exact (after_ordinary s g H)]. intros t K. apply K.
Qed.

Lemma ind_tok_quiet : forall s i, ind_wf s i ->
  match ind_tok i with Plain w => quiet_word w /\ forallb is_digit w = false | ProbTempo _ => True end.
Proof.
  intros s [d h mi|k p] H; cbn [ind_tok]; [|apply kind_quiet]. destruct H as (H1 & H2 & H3 & _).
  destruct (fm_quiet d h mi H1 H2 H3) as (K1 & _ & _ & K2). auto.
Qed.

Lemma change_tok_facts : forall s g, change_wf s g ->
  Forall plain_tok (change_toks g)
  /\ Forall (fun t => match t with Plain w => quiet_word w | ProbTempo _ => True end) (change_toks g).
Proof.
  intros s g H. rewrite change_toks_eq.
  assert (F : Forall (fun t => match t with Plain w => quiet_word w | ProbTempo _ => True end)
    (ind_tok (h_ind g) :: map Plain (flat_map m_words (after_ind g)))).
  { constructor.
    - destruct H as (Hi & _). pose proof (ind_tok_quiet s _ Hi) as K. destruct (ind_tok (h_ind g)); [apply K|exact I].
    - apply Forall_map. eapply Forall_impl; [|exact (after_words s g H)]. intros w K. apply ordinary_quiet. exact K. }
  split; [|exact F]. eapply Forall_impl; [|exact F]. intros [w|n] K; [|exact I]. split; apply K.
Qed.

Lemma ordinary_not_tempo : forall w, ordinary w -> starts_with (py "TEMPO") w = false.
Proof.
  intros w (_ & _ & _ & _ & H & _). unfold begins_any, some_keywords, section_words, trend_words in H. cbn [app existsb] in H.
  apply orb_false_iff in H. destruct H as [_ H]. apply orb_false_iff in H. apply H.
Qed.

Lemma ordinary_not_change : forall w, ordinary w -> begins_any change_words w = false.
Proof.
  intros w (_ & _ & _ & _ & H & _). unfold begins_any, some_keywords in *. rewrite existsb_app in H.
  apply orb_false_iff in H. apply H.
Qed.

(** [Plain] words after the first: none begins with TEMPO. *)
Lemma stray_free : forall t ws, match t with Plain w => word w | ProbTempo _ => True end -> Forall word ws ->
  Forall (fun w => starts_with (py "TEMPO") w = false) ws -> no_stray_pair (t :: map Plain ws).
Proof.
  intros t ws Ht Hw Hn. split.
  - constructor; [exact Ht|]. apply Forall_map. exact Hw.
  - intros A u v B E.
    assert (I : In (Plain v) (map Plain ws)).
    { destruct A as [|a A]; cbn [app] in E.
      - apply (f_equal (@tl ctok)) in E. cbn [tl] in E. rewrite E. left. reflexivity.
      - apply (f_equal (@tl ctok)) in E. cbn [tl] in E. rewrite E. apply in_or_app. right. right. left. reflexivity. }
    apply in_map_iff in I. destruct I as (v' & Ev & I). injection Ev as ->. rewrite Forall_forall in Hn.
    rewrite (Hn v I). apply andb_false_r.
Qed.

Lemma change_stray : forall s g, change_wf s g -> no_stray_pair (change_toks g).
Proof.
  intros s g H. rewrite change_toks_eq. pose proof (after_words s g H) as A. apply stray_free.
  - destruct H as (Hi & _). pose proof (ind_tok_quiet s _ Hi) as K. destruct (ind_tok (h_ind g)); [apply K|exact I].
  - eapply Forall_impl; [|exact A]. intros w K. apply K.
  - eapply Forall_impl; [|exact A]. intros w K. apply ordinary_not_tempo. exact K.
Qed.

(** The groups as the dispatch loop of the change sees them. *)
Definition change_groups (g : change_g) : list str :=
  ct_joined (ind_tok (h_ind g))
  :: match h_ind g with IFrom _ _ _ => [] | IDuring _ p => [span_code p] end ++ wx_groups (h_wx g) ++ [].

Lemma plain_ct_joined : forall ws, map ct_joined (map Plain ws) = ws.
Proof. intro ws. rewrite map_map. cbn [ct_joined]. apply map_id. Qed.

Lemma change_sanitized : forall s g, change_wf s g ->
  sanitize_visibility (sanitize_change_indicator (sentence (change_text g))) = sentence (change_groups g)
  /\ split_on 32%N (sentence (change_groups g)) = change_groups g.
Proof.
  intros s g H. pose proof H as (Hi & Hw & Hl).
  assert (E1 : sanitize_change_indicator (sentence (change_text g)) = sentence (map ct_joined (change_toks g))).
  { unfold sanitize_change_indicator, change_text. apply sanitize_prob; [exact (change_stray s g H)|].
    rewrite change_toks_eq. unfold ProofMerge.pairs.
    assert (Z : forall t ws, length (filter is_pair (t :: map Plain ws)) <= 1).
    { intros t ws. assert (Z : filter is_pair (map Plain ws) = []) by (induction ws as [|w ws IH]; [reflexivity|exact IH]).
      cbn [filter]. rewrite Z. destruct (is_pair t); cbn; lia. }
    specialize (Z (ind_tok (h_ind g)) (flat_map m_words (after_ind g))). lia. }
  rewrite E1, change_toks_eq. cbn [map]. rewrite plain_ct_joined.
  assert (W : word (ct_joined (ind_tok (h_ind g))) /\ forallb is_digit (ct_joined (ind_tok (h_ind g))) = false).
  { pose proof (ind_tok_quiet s _ Hi) as K. destruct (ind_tok (h_ind g)) as [w|[|]]; cbn [ct_joined].
    - split; apply K.
    - split; [split; [discriminate|repeat constructor; discriminate]|reflexivity].
    - split; [split; [discriminate|repeat constructor; discriminate]|reflexivity]. }
  destruct W as [W1 W2]. pose proof (after_ordinary s g H) as A.
  assert (J : map m_joined (after_ind g)
    = match h_ind g with IFrom _ _ _ => [] | IDuring _ p => [span_code p] end ++ wx_groups (h_wx g) ++ []).
  { unfold after_ind. rewrite map_app, (wx_joined _ Hw), app_nil_r. destruct (h_ind g); reflexivity. }
  assert (G : change_groups g = map m_joined (MWord (ct_joined (ind_tok (h_ind g))) :: after_ind g)).
  { cbn [map m_joined]. rewrite J. reflexivity. }
  rewrite G. split.
  - apply (vis_joined (ct_joined (ind_tok (h_ind g))) (after_ind g)).
    + exact W1.
    + eapply Forall_impl; [|exact A]. intros t K. apply K.
    + unfold after_ind. rewrite <- (app_nil_r (wx_toks (h_wx g))). apply wx_unmixed; [exact Hw| |constructor].
      destruct (h_ind g) as [d h mi|k p]; [constructor|]. constructor; [|constructor]. apply (period_plain s p Hi).
    + unfold after_ind. destruct (wx_toks (h_wx g)) as [|t l] eqn:Et.
      * rewrite app_nil_r. destruct (h_ind g); reflexivity.
      * rewrite ProofWords.last_app by discriminate. rewrite (last_default t l _ (MWord [])). exact Hl.
    + unfold after_ind. rewrite filter_app, app_length. pose proof (wx_mixed (h_wx g)).
      destruct (h_ind g); cbn [filter is_mixed length]; lia.
  - apply split_sentence_ink; [discriminate|]. apply joined_ink. constructor; [exact W1|].
    eapply Forall_impl; [|exact A]. intros [w|two n a b|wy t] [_ K]; [exact K|exact I|destruct K].
Qed.

(** ** Dates *)

Lemma real_moment : forall b h mi, real b -> (h < 24)%N -> (mi < 60)%N -> real_time (moment b h mi).
Proof.
  intros [[y m] d] h mi H Hh Hm. split; [exact H|]. unfold moment. cbn [dt_hour dt_minute]. lia.
Qed.

Lemma days_later_fun : forall k a b c, days_later k a b -> days_later k a c -> b = c.
Proof.
  induction k as [|k IH]; intros a b c H1 H2; inversion H1 as [|k1 a1 b1 c1 D1 S1]; inversion H2 as [|k2 a2 b2 c2 D2 S2]; subst.
  - reflexivity.
  - apply day_after_fun in D1, D2. subst. exact (IH _ _ _ S1 S2).
Qed.

Lemma first_with_day_fun : forall a d b c, first_with_day a d b -> first_with_day a d c -> b = c.
Proof.
  intros a d b c (k & K1 & K2 & K3) (j & J1 & J2 & J3).
  destruct (Nat.lt_trichotomy k j) as [L|[->|L]].
  - destruct (J3 k b L K1 K2).
  - exact (days_later_fun _ _ _ _ K1 J1).
  - destruct (K3 j c L J1 J2).
Qed.

Lemma falls_fun : forall t d h u v, falls t d h u -> falls t d h v -> u = v.
Proof.
  intros t d h u v (b & B1 & B2) (c & C1 & C2). rewrite <- (first_with_day_fun _ _ _ _ B1 C1) in C2.
  destruct (h =? 24)%N.
  - destruct B2 as (x & X1 & ->). destruct C2 as (z & Z1 & ->). apply day_after_fun in X1, Z1. congruence.
  - congruence.
Qed.

Lemma near_real : forall t d b, near t d -> first_with_day (date_of t) (Z.of_N d) b -> real b /\ forall e, day_after b e -> real e.
Proof.
  intros t d b (b' & be & F & _ & R & D & E) H. rewrite (first_with_day_fun _ _ _ _ H F). split; [exact R|].
  intros e De. apply day_after_fun in D, De. subst. exact E.
Qed.

Lemma falls_real : forall t d h u, near t d -> (h <= 24)%N -> falls t d h u -> real_time u.
Proof.
  intros t d h u Hn Hh (b & B1 & B2). destruct (near_real t d b Hn B1) as [R1 R2].
  destruct (N.eqb_spec h 24) as [E|E].
  - destruct B2 as (be & D & ->). apply real_moment; [exact (R2 be D)|lia|lia].
  - subst u. apply real_moment; [exact R1|lia|lia].
Qed.

(** The year does not go back. *)
Lemma days_later_year : forall k y m d y' m' d', days_later k (y, m, d) (y', m', d') -> (y <= y')%Z.
Proof.
  induction k as [|k IH]; intros y m d y' m' d' H; inversion H as [|k1 a1 b1 c1 D1 S1]; subst; [lia|].
  destruct b1 as [[y1 m1] d1]. apply day_after_mono in D1. apply IH in S1. lia.
Qed.

Lemma first_year : forall t d b, first_with_day (date_of t) d b -> (dt_year t <= fst (fst b))%Z.
Proof. intros t d [[y m] d'] (k & K & _). apply days_later_year in K. exact K. Qed.

Lemma moment_year : forall b h mi, dt_year (moment b h mi) = fst (fst b).
Proof. intros [[y m] d] h mi. reflexivity. Qed.

Lemma falls_year : forall t d h u, falls t d h u -> (dt_year t <= dt_year u)%Z.
Proof.
  intros t d h u (b & B1 & B2). apply first_year in B1. destruct (h =? 24)%N.
  - destruct B2 as (be & D & ->). rewrite moment_year. destruct b as [[y m] d0]. destruct be as [[y' m'] d'].
    apply day_after_mono in D. cbn [fst] in *. lia.
  - subst u. rewrite moment_year. exact B1.
Qed.

(** ** The indicator *)

Lemma change_handlers_0 : nth_error change_handlers 0 = Some (mk_handler r_T_CHANGE_INDICATOR handle_change_indicator).
Proof. reflexivity. Qed.

Lemma kind_match : forall k, exists m, re_match r_T_CHANGE_INDICATOR (ct_joined (kind_tok k)) = Some m
  /\ m_string m = ct_joined (kind_tok k)
  /\ forall v, exists tr, taf_ind_new (Some m) v = Ok (mk_tci (Some (sentence (ct_words (kind_tok k)))) tr v).
Proof.
  intros k. assert (D : exists m, re_match r_T_CHANGE_INDICATOR (ct_joined (kind_tok k)) = Some m
    /\ m_string m = ct_joined (kind_tok k) /\ exists tr, change_indicator_new (Some m) = Ok (Some (sentence (ct_words (kind_tok k))), tr)).
  { destruct k as [| |[|]|[|]]; (eexists; split; [vm_compute; reflexivity|]); (split; [vm_compute; reflexivity|]);
      eexists; vm_compute; reflexivity. }
  destruct D as (m & Em & Es & tr & D). exists m. split; [exact Em|]. split; [exact Es|]. intro v. exists tr.
  unfold taf_ind_new. rewrite D, Es.
  replace (starts_with (py "FM") (ct_joined (kind_tok k))) with false by (destruct k as [| |[|]|[|]]; reflexivity).
  reflexivity.
Qed.

Lemma kind_not_fm : forall k, starts_with (py "FM") (sentence (ct_words (kind_tok k))) = false.
Proof. intros [| |[|]|[|]]; reflexivity. Qed.

Section ChangeSlots.
Notation hs := change_handlers.
Lemma in_c_wind : forall r, In r (between hs 1 2) -> In r change_wind. Proof. tslots_in. Qed.
Lemma in_c_vis : forall r, In r (between hs 1 3) -> In r change_vis. Proof. tslots_in. Qed.
Lemma in_c_weather : forall r, In r (between hs 1 4) -> In r change_weather. Proof. tslots_in. Qed.
Lemma in_c_cloud : forall r, In r (between hs 1 7) -> In r change_cloud. Proof. tslots_in. Qed.
End ChangeSlots.

Definition cf_put (c : common) (p : change_fc) : change_fc := mk_cf (cf_code p) (cf_valid p) c (cf_ind p) (cf_unparsed p).

Lemma change_wx : forall g i x, wx_wf g -> 1 <= i <= 2 -> calm (cf_common x) ->
  exists c, wx_holds g c /\ parse_groups change_handlers (wx_groups g ++ []) i [] x = Ok (cf_put c x, []).
Proof.
  intros g i x (Hwi & Hvi & (Hwx & Lwx) & (Hcl & Lcl)) Hi C.
  destruct (wx_phase cf_common cf_put) with (hs := change_handlers) (rw := r_T_WIND) (rv := r_VISIBILITY) (lo := 1) (pw := 2)
    (g := g) (i := i) (rest := @nil str) (x := x) as (i8 & c8 & I8 & V8 & P8).
  { intros []; reflexivity. } { reflexivity. } { reflexivity. } { lia. } { reflexivity. } { reflexivity. } { slot. } { slot. }
  { eapply opt_all_impl; [|exact Hwi]. intros w [Hw1 Hw2]. split; [|exact (twind_decodes w Hw1 Hw2)].
    apply passes_between. intros r Hr. apply (cwind_free w r Hw1). exact (in_c_wind r Hr). }
  { eapply opt_all_impl; [|exact Hvi]. intros w [Hw1 Hw2]. split; [|exact (r_VISIBILITY_decodes w Hw1)].
    apply passes_between. intros r Hr. apply (cvis_free w r Hw1). exact (in_c_vis r Hr). }
  { destruct (x_vis g) as [w|].
    - eapply Forall_impl; [|exact Hwx]. intros w' [Hw1 _]. split; [exact Hw1|]. intros j h Hj. lia.
    - eapply Forall_impl; [|exact Hwx]. intros w' [Hw1 Hw2]. split; [exact Hw1|].
      apply passes_between. intros r Hr. apply (cweather_free w' r Hw1 Hw2). exact (in_c_weather r Hr). }
  { exact Lwx. }
  { eapply Forall_impl; [|exact Hcl]. intros w Hw. split; [exact Hw|].
    apply passes_between. intros r Hr. apply (ccloud_free w r Hw). exact (in_c_cloud r Hr). }
  { exact Lcl. } { exact C. }
  exists c8. split; [exact V8|]. rewrite P8. reflexivity.
Qed.

Lemma change_parse : forall g v, real_time (t_dt (va_from v)) -> change_wf (t_dt (va_from v)) g ->
  exists c, change_fc_new (sentence (map ct_joined (change_toks g))) v = Ok c
    /\ change_is (t_dt (va_from v)) g c
    /\ (is_fm g -> t_dt (va_until (tc_valid (cf_ind c))) = t_dt (va_until v))
    /\ real_time (starts_at c) /\ (dt_year (t_dt (va_from v)) <= dt_year (starts_at c))%Z.
Proof.
  intros g v R H. set (s := t_dt (va_from v)) in *.
  destruct (change_tok_facts s g H) as [F1 F2]. destruct (change_sanitized s g H) as [S1 S2].
  unfold change_fc_new. rewrite (replace_joined _ F1). fold (change_text g).
  destruct (common_calm []) as (c0 & -> & C0). cbn [bind taf_ind_new].
  rewrite S1. unfold parse_section. rewrite S2. unfold change_groups.
  pose proof H as (Hi & Hw & _). set (x0 := mk_cf _ _ _ _ _).
  destruct (h_ind g) as [d h mi|k p] eqn:Ei; cbn [ind_tok ct_joined ind_wf] in *.
  - destruct Hi as (H1 & H2 & H3 & b & B1 & B2).
    destruct (fm_captures d h mi [] H1 H2 H3) as (m & Em & Es & _).
    destruct (fm_start v d h mi [] R H1 H2 H3) as (b' & F & K & _).
    assert (b' = b) by exact (first_with_day_fun _ _ _ _ F B1). subst b'. destruct (K B2) as (i & E & T1 & T2 & T3).
    rewrite app_nil_r in Em, Es, T1, E. rewrite Em in E.
    rewrite (parse_at change_handlers 0 0 _ _ (mk_handler r_T_CHANGE_INDICATOR handle_change_indicator) m);
      [|lia|intros j hh Hj; lia|reflexivity|exact Em].
    cbn [h_handle]. unfold handle_change_indicator. change (cf_valid x0) with v. rewrite E. cbn [bind app].
    destruct (change_wx (h_wx g) 1 (cf_set_ind i x0) Hw ltac:(lia) C0) as (c & Hc & P). rewrite P. cbn [bind].
    eexists. split; [reflexivity|]. unfold change_is, starts_at. cbn [cf_put cf_set_ind cf_code cf_valid cf_common cf_ind cf_unparsed x0 app].
    rewrite Ei. cbn [ind_is]. conjs.
    + reflexivity.
    + reflexivity.
    + exact T1.
    + exists b. split; [exact B1|exact T2].
    + exact Hc.
    + intros _. rewrite T3. reflexivity.
    + rewrite T2. apply real_moment; [exact B2|lia|lia].
    + rewrite T2, moment_year. exact (first_year _ _ _ B1).
  - destruct (kind_match k) as (m & Em & Es & K). destruct (K v) as (tr & E).
    rewrite (parse_at change_handlers 0 0 _ _ (mk_handler r_T_CHANGE_INDICATOR handle_change_indicator) m);
      [|lia|intros j hh Hj; lia|reflexivity|exact Em].
    cbn [h_handle]. unfold handle_change_indicator at 1. change (cf_valid x0) with v. rewrite E. cbn [bind app].
    destruct (period_decodes s p R Hi) as (m2 & w & Em2 & Es2 & Ew & Hw2).
    rewrite (parse_at change_handlers 1 1 _ _ (mk_handler r_T_VALID handle_change_valid) m2);
      [|lia|intros j hh Hj; lia|reflexivity|exact Em2].
    cbn [h_handle]. unfold handle_change_valid, set_valid_period. cbn [cf_valid cf_ind cf_set_ind tc_code tc_trans x0].
    change (t_dt (va_from v)) with s. rewrite Ew. cbn [bind]. rewrite kind_not_fm. cbn [bind].
    match goal with |- context [parse_groups change_handlers _ 2 [] ?x1] =>
      destruct (change_wx (h_wx g) 2 x1 Hw ltac:(lia) C0) as (c & Hc & P) end.
    rewrite P. cbn [bind].
    eexists. split; [reflexivity|]. unfold change_is, starts_at, is_fm.
    cbn [cf_put cf_set_ind cf_code cf_valid cf_common cf_ind cf_unparsed x0 app tc_code tc_valid].
    rewrite Ei. cbn [ind_is tc_code tc_valid]. destruct Hw2 as (W1 & W2 & W3). conjs.
    + reflexivity.
    + reflexivity.
    + rewrite W1. cbn [fmt_opt]. destruct k as [| |[|]|[|]]; reflexivity.
    + split; [exact W1|]. split; [exact W2|exact W3].
    + exact Hc.
    + intros [].
    + destruct Hi as (_ & P2 & _ & _ & N1 & _). apply (falls_real s (p_fd p) (p_fh p)); [exact N1|lia|exact W2].
    + exact (falls_year _ _ _ _ W2).
Qed.
