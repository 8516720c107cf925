(** * Proofs: exactly when a TAF is refused (C84) *)
From Coq Require Import String Ascii.
From Coq Require Import List NArith ZArith Bool Lia.
From Verif Require Import PyBase PyRegex AeroRegex PyTime Utils Base MetarGroups Trend Taf SpecNum SpecTime SpecMetar SpecFailures SpecTafFailures SpecVision SpecGrammar
  SpecRefused SpecRefusedTaf StrFacts RegexPaths Captures Outcomes TextFacts ProofText TimeFacts ProofTime SymRegex ProofGroups ProofValues ProofFailures
  OutTime OutMetar OutReport Keeps OutTafTime OutTafChange OutTafBody OutTaf ProofVision ProofLists ProofRefused ProofSight.
Import ListNotations.
Local Open Scope string_scope.
Local Open Scope nat_scope.
Local Open Scope list_scope.

(** ** The body *)

Lemma temps_snoc : forall p a k g, temps p (a ++ [(k, g)]) = temps p a + (if Nat.leb 16 k && starts_with p g then 1 else 0).
Proof. intros p a k g. unfold temps. rewrite filter_app, app_length. cbn [filter fst snd]. destruct (Nat.leb 16 k && starts_with p g); reflexivity. Qed.

Section Body.
Variables (e : env) (year month : option Z) (codes : list str).
Hypothesis W : month_wf e year month.
Notation y := (opt_default (now_year e) year).
Notation mo := (opt_default (now_month e) month).
Hypothesis NL : ~ last_month y mo.

Definition taf_state (a : list (nat * str)) (k : nat) (x : taf) : Prop :=
  room 3 (k - 9) (c_weathers (ta_common x)) /\ room 4 (k - 12) (c_clouds (ta_common x))
  /\ (gl_max (ta_max x) = 2 /\ length (gl_list (ta_max x)) = temps (py "TX") a)
  /\ (gl_max (ta_min x) = 2 /\ length (gl_list (ta_min x)) = temps (py "TN") a)
  /\ sound False 0 (t_dt (ta_time x)) /\ sound_valid False 0 (ta_valid x)
  /\ ta_changes x = gl_new 8 /\ ta_codes x = codes /\ ta_unparsed x = [].

Lemma taf_state_mono : forall a i j x, i <= j -> taf_state a i x -> taf_state a j x.
Proof.
  intros a i j x H (A & B & R). split; [|split; [|exact R]].
  - apply (room_mono _ _ (i - 9)); [lia|exact A].
  - apply (room_mono _ _ (i - 12)); [lia|exact B].
Qed.
Lemma taf_next : forall a k g x, k < 16 -> taf_state a k x -> taf_state (a ++ [(k, g)]) (S k) x.
Proof.
  intros a k g x L H. apply (taf_state_mono _ k); [lia|]. destruct H as (A & B & C & D & R).
  split; [exact A|]. split; [exact B|]. rewrite !temps_snoc. replace (Nat.leb 16 k) with false by (symmetry; apply Nat.leb_gt; lia).
  cbn [andb]. rewrite !Nat.add_0_r. split; [exact C|]. split; [exact D|exact R].
Qed.

Notation settled a k g r :=
  ((exists x', r = Ok x' /\ taf_state (a ++ [(k, g)]) (S k) x' /\ forall ex, ~ taf_bad y mo a (k, g) ex)
   \/ (exists ex, r = Raise ex /\ forall e', taf_bad y mo a (k, g) e' <-> e' = ex)).

Lemma taf_fine : forall a k g (r : result taf), k <> 3 -> k <> 8 -> k < 16 -> (exists x', r = Ok x' /\ taf_state (a ++ [(k, g)]) (S k) x') -> settled a k g r.
Proof.
  intros a k g r N1 N2 L (x' & E & H). left. exists x'. split; [exact E|]. split; [exact H|]. intros ex B.
  unfold taf_bad in B. cbn [fst] in B. do 16 (destruct k as [|k]; [congruence || exact B|]). lia.
Qed.

Lemma taf_wea : forall a k g m x, 9 <= k < 12 -> taf_state a k x -> settled a k g (tlift handle_weather m x).
Proof.
  intros a k g m x Hk H. apply taf_fine; try lia. assert (H' := taf_next a k g x ltac:(lia) H). destruct H as (A & _). destruct H' as (_ & B & R).
  unfold tlift, handle_weather. cbv zeta. destruct (room_add _ _ _ (weather_new (Some m)) _ A) as (l & -> & A'); [lia|]. cbn [bind].
  eexists. split; [reflexivity|]. split; [apply (room_mono _ _ (S (k - 9))); [lia|exact A']|]. split; [exact B|exact R].
Qed.
Lemma taf_clo : forall a k g m x, 12 <= k < 16 -> re_match r_CLOUD g = Some m -> taf_state a k x -> settled a k g (tlift handle_cloud m x).
Proof.
  intros a k g m x Hk M H. apply taf_fine; try lia. assert (H' := taf_next a k g x ltac:(lia) H). destruct H as (_ & A & _). destruct H' as (B & _ & R).
  unfold tlift, handle_cloud. destruct (cloud_fine g m M) as (cl & ->). cbn [bind]. destruct (room_add _ _ _ cl _ A) as (l & -> & A'); [lia|]. cbn [bind].
  eexists. split; [reflexivity|]. split; [exact B|]. split; [apply (room_mono _ _ (S (k - 12))); [lia|exact A']|exact R].
Qed.

Lemma taf_time : forall a g m x, re_match r_TIME g = Some m -> taf_state a 3 x -> settled a 3 g (thandle_time e year month m x).
Proof.
  intros a g m x M H. apply (taf_next a 3 g x ltac:(lia)) in H. destruct (time_any_at e g m year month M W) as (d & h & mi & P & Bh & E). unfold thandle_time. rewrite E. unfold taf_bad. cbn [fst snd].
  assert (K : valid_date y mo (Z.of_N d) && (h <? 24)%N = true <-> ~ impossible y mo d h).
  { unfold impossible. rewrite andb_true_iff, valid_date_spec, N.ltb_lt. split.
    - intros [A B] [C|C]; [exact (C A)|lia].
    - intro A. split.
      + destruct (valid_date y mo (Z.of_N d)) eqn:V; [apply valid_date_spec; exact V|]. exfalso. apply A. left. intro R. apply valid_date_spec in R. congruence.
      + destruct (N.eq_dec h 24) as [->|D]; [exfalso; apply A; right; reflexivity|lia]. }
  destruct (valid_date y mo (Z.of_N d) && (h <? 24)%N) eqn:V; cbn [bind].
  - left. eexists. split; [reflexivity|]. split.
    + destruct H as (A & B & C & D & T & R). split; [exact A|]. split; [exact B|]. split; [exact C|]. split; [exact D|]. split; [|exact R].
      cbn [tout_string tupd_common tupd_time ta_time t_dt]. apply month_sound; [destruct W; lia| |exact (fun Q => False_ind _ (NL Q))].
      apply andb_true_iff in V. destruct V as [V Lh]. apply valid_date_spec in V. apply N.ltb_lt in Lh. split; [exact V|]. cbn [dt_hour dt_minute].
      destruct P as (z & r & _ & sa & sb & sc & _ & _ & _ & _ & _ & _ & _ & _ & _ & Bm). lia.
    + intros ex (_ & d' & h' & mi' & P' & B). destruct (stamped_one _ _ _ _ _ _ _ P P') as (-> & -> & ->). exact (proj1 K eq_refl B).
  - right. exists ValueError. split; [reflexivity|]. intro e'. split; [intros [B _]; exact B|]. intros ->. split; [reflexivity|].
    exists d, h, mi. split; [exact P|]. destruct (N.eq_dec h 24) as [D|D]; [right; exact D|left]. intro R.
    assert (~ impossible y mo d h) as C by (intros [C|C]; [exact (C R)|exact (D C)]). apply K in C. discriminate C.
Qed.

Lemma tx_tn : forall g, starts_with (py "TX") g = true -> starts_with (py "TN") g = true -> False.
Proof. intros g A B. apply starts_with_app in A. destruct A as (t & ->). discriminate B. Qed.

Lemma taf_temps : forall a k g m x, 16 <= k < 20 -> re_match r_T_TEMPERATURE g = Some m -> taf_state a k x -> settled a k g (thandle_temperature m x).
Proof.
  intros a k g m x Hk M H. assert (H' := taf_state_mono a k (S k) x ltac:(lia) H). clear H. destruct H' as (A & B & C & D & T & R). unfold thandle_temperature.
  pose proof (ttemp_outcome False 0 _ g m T ltac:(lia) M) as P.
  destruct (taf_temp_new m (t_dt (ta_time x))) as [t|ex]; cbn [bind outcome] in *; [|destruct ex; contradiction].
  assert (BAD : forall ex, taf_bad y mo a (k, g) ex <-> ex = RangeError /\ exists p, In p [py "TX"; py "TN"] /\ starts_with p g = true /\ 2 <= temps p a).
  { intro ex. unfold taf_bad. cbn [fst snd]. do 16 (destruct k as [|k]; [lia|]). destruct k as [|[|[|[|k]]]]; try reflexivity. lia. }
  assert (K16 : Nat.leb 16 k = true) by (apply Nat.leb_le; lia).
  destruct (type_match g m M) as [[-> Sg]|[-> Sg]]; unfold gl_add.
  - assert (NN : starts_with (py "TN") g = false) by (destruct (starts_with (py "TN") g) eqn:Q; [exfalso; exact (tx_tn g Sg Q)|reflexivity]).
    destruct C as [C1 C2]. rewrite C1, C2. destruct (Nat.leb_spec 2 (temps (py "TX") a)) as [L|L]; cbn [bind].
    + right. exists RangeError. split; [reflexivity|]. intro e'. rewrite BAD. split; [intros [Q _]; exact Q|]. intros ->. split; [reflexivity|].
      exists (py "TX"). split; [left; reflexivity|]. split; [exact Sg|exact L].
    + left. eexists. split; [reflexivity|]. split.
      * split; [exact A|]. split; [exact B|]. rewrite !temps_snoc, K16, Sg, NN. cbn [andb]. rewrite Nat.add_0_r.
        split; [split; [reflexivity|]|split; [exact D|split; [exact T|exact R]]].
        cbn [tout_string tupd_common tupd_max ta_max gl_list]. rewrite app_length, C2. reflexivity.
      * intros ex Q. apply BAD in Q. destruct Q as (_ & p & Ip & Sp & Lp). destruct Ip as [<-|[<-|[]]]; [lia|congruence].
  - assert (NN : starts_with (py "TX") g = false) by (destruct (starts_with (py "TX") g) eqn:Q; [exfalso; exact (tx_tn g Q Sg)|reflexivity]).
    destruct D as [D1 D2]. rewrite D1, D2. destruct (Nat.leb_spec 2 (temps (py "TN") a)) as [L|L]; cbn [bind].
    + right. exists RangeError. split; [reflexivity|]. intro e'. rewrite BAD. split; [intros [Q _]; exact Q|]. intros ->. split; [reflexivity|].
      exists (py "TN"). split; [right; left; reflexivity|]. split; [exact Sg|exact L].
    + left. eexists. split; [reflexivity|]. split.
      * split; [exact A|]. split; [exact B|]. rewrite !temps_snoc, K16, Sg, NN. cbn [andb]. rewrite Nat.add_0_r.
        split; [exact C|]. split; [split; [reflexivity|]|split; [exact T|exact R]].
        cbn [tout_string tupd_common tupd_min ta_min gl_list]. rewrite app_length, D2. reflexivity.
      * intros ex Q. apply BAD in Q. destruct Q as (_ & p & Ip & Sp & Lp). destruct Ip as [<-|[<-|[]]]; [congruence|lia].
Qed.

Lemma taf_step : forall a k h g m x, nth_error (taf_handlers e year month) k = Some h -> re_match (h_regexp h) g = Some m -> taf_state a k x ->
  settled a k g (h_handle h m x).
Proof.
  intros a k h g m x E M H. unfold taf_handlers in E.
  nth_cases k E.
  - apply taf_fine; try lia. eexists. split; [reflexivity|]. exact (taf_next a 0 g x ltac:(lia) H).
  - apply taf_fine; try lia. eexists. split; [reflexivity|]. exact (taf_next a 1 g x ltac:(lia) H).
  - apply taf_fine; try lia. eexists. split; [reflexivity|]. exact (taf_next a 2 g x ltac:(lia) H).
  - exact (taf_time a g m x M H).
  - apply taf_fine; try lia. eexists. split; [reflexivity|]. exact (taf_next a 4 g x ltac:(lia) H).
  - apply taf_fine; try lia. unfold thandle_valid. apply (taf_next a 5 g x ltac:(lia)) in H. destruct H as (A & B & C & D & T & V & R).
    pose proof (valid_some False 0 _ g m T ltac:(lia) M) as P.
    destruct (valid_from_taf (Some m) (t_dt (ta_time x))) as [v|ex]; cbn [bind outcome] in *; [|destruct ex; contradiction].
    eexists. split; [reflexivity|]. split; [exact A|]. split; [exact B|]. split; [exact C|]. split; [exact D|]. split; [exact T|]. split; [exact P|exact R].
  - apply taf_fine; try lia. eexists. split; [reflexivity|]. exact (taf_next a 6 g x ltac:(lia) H).
  - apply taf_fine; try lia. unfold tlift, handle_wind. destruct (wind_fine r_T_WIND g m (proj2 wind_checks_ok) M) as (w & ->). cbn [bind].
    eexists. split; [reflexivity|]. exact (taf_next a 7 g x ltac:(lia) H).
  - unfold tlift, handle_prevailing, taf_bad. cbn [fst snd]. destruct (prevailing_new (Some m)) as [v|ex] eqn:P; cbn [bind].
    + left. eexists. split; [reflexivity|]. split; [exact (taf_next a 8 g x ltac:(lia) H)|]. intros ex B. apply (sight_exact g m ex M) in B. congruence.
    + right. exists ex. split; [reflexivity|]. intro e'. rewrite <- (sight_exact g m e' M), P. split; [congruence|intros ->; reflexivity].
  - apply taf_wea; [lia|exact H].
  - apply taf_wea; [lia|exact H].
  - apply taf_wea; [lia|exact H].
  - apply taf_clo; [lia|exact M|exact H].
  - apply taf_clo; [lia|exact M|exact H].
  - apply taf_clo; [lia|exact M|exact H].
  - apply taf_clo; [lia|exact M|exact H].
  - apply taf_temps; [lia|exact M|exact H].
  - apply taf_temps; [lia|exact M|exact H].
  - apply taf_temps; [lia|exact M|exact H].
  - apply taf_temps; [lia|exact M|exact H].
  - destruct k; discriminate E.
Qed.
End Body.

Lemma init_state : forall e raw, clock_wf e -> ~ last_month (now_year e) (now_month e) ->
  exists x, taf_init e raw = Ok x /\ ta_body x = fst (taf_split raw) /\ taf_state (snd (taf_split raw)) [] 0 x.
Proof.
  intros e raw [C1 C2] NC. unfold taf_init.
  destruct (default_first e None None C1 C2) as (t0 & -> & Et). cbn [bind opt_default] in *.
  destruct (taf_split raw) as [body codes]. destruct (common_fresh []) as (c & -> & E1 & E2). cbn [bind].
  assert (S0 : sound False 0 (t_dt t0)).
  { rewrite Et. apply month_sound; [lia| |exact (fun Q => False_ind _ (NC Q))]. split; cbn [dt_year dt_month dt_day dt_hour dt_minute]; [apply OutReport.first_real; lia|lia]. }
  pose proof (valid_none False 0 _ S0 ltac:(lia)) as P.
  destruct (valid_from_taf None (t_dt t0)) as [v|ex]; cbn [bind outcome fst snd] in *; [|destruct ex; contradiction].
  eexists. split; [reflexivity|]. split; [reflexivity|]. unfold taf_state.
  cbn [ta_common ta_max ta_min ta_time ta_valid ta_changes ta_codes ta_unparsed]. rewrite E1, E2.
  split; [split; [reflexivity|apply le_n]|]. split; [split; [reflexivity|apply le_n]|].
  split; [split; reflexivity|]. split; [split; reflexivity|].
  split; [exact S0|]. split; [exact P|]. split; [reflexivity|]. split; reflexivity.
Qed.

(** ** A change *)

Definition occ (c : str) : bool := starts_with (py "PROB") c || starts_with (py "TEMPO") c.
Definition mark_rel (o c : option str) : Prop :=
  match o with None => c = None | Some g => exists c', c = Some c' /\ occ c' = occ g end.

Lemma starts_under : forall p s, ~ In 32%N p -> ~ In 95%N p -> starts_with p (subst_char 95 32 s) = starts_with p s.
Proof.
  intro p. induction p as [|c p IH]; intros s A B; [reflexivity|]. destruct s as [|d s]; [reflexivity|]. cbn [subst_char map starts_with].
  fold (subst_char 95 32 s). rewrite IH; [|intro K; apply A; right; exact K|intro K; apply B; right; exact K]. f_equal.
  destruct (N.eqb_spec d 95) as [->|N]; [|reflexivity]. transitivity false; [|symmetry]; apply N.eqb_neq; intros ->; [apply A|apply B]; left; reflexivity.
Qed.
Lemma occ_under : forall s, occ (replace (py "_") (py " ") s) = occ s.
Proof.
  intro s. change (replace (py "_") (py " ") s) with (replace [95%N] [32%N] s). rewrite replace_char. unfold occ.
  rewrite !starts_under by (cbn; intuition discriminate). reflexivity.
Qed.
Lemma occ_more : forall c t, occ (c ++ py " " ++ t) = occ c.
Proof. intros c t. unfold occ. change (c ++ py " " ++ t) with (c ++ 32%N :: t). rewrite !starts_cut32 by (cbn; intuition discriminate). reflexivity. Qed.

Lemma ind_mark : forall g m v i, re_match r_T_CHANGE_INDICATOR g = Some m -> taf_ind_new (Some m) v = Ok i -> mark_rel (Some g) (tc_code i).
Proof.
  intros g m v i M E. unfold taf_ind_new in E. rewrite (re_match_string _ _ _ M) in E. destruct (starts_with (py "FM") g).
  - destruct (int_of_opt (group m "day")); [|discriminate E]. destruct (int_of_opt (group m "hour")); [|discriminate E].
    destruct (int_of_opt (group m "minute")); [|discriminate E]. cbn [bind] in E.
    destruct (roll_to_day _ _ _) as [t|]; [|discriminate E]. cbn [bind] in E. destruct (dt_replace_hour t _) as [t1|]; [|discriminate E]. cbn [bind] in E.
    destruct (dt_replace_minute t1 _) as [t2|]; [|discriminate E]. cbn [bind] in E. cbv zeta in E. injection E as <-. exists g. split; reflexivity.
  - destruct (change_indicator_new (Some m)) as [[c tr]|] eqn:Ec; [|discriminate E]. cbn [bind fst snd] in E. injection E as <-. cbn [tc_code].
    exists (replace (py "_") (py " ") g). split; [|apply occ_under]. revert Ec. unfold change_indicator_new. rewrite (re_match_string _ _ _ M). cbv zeta.
    destruct (assoc g CHANGE_TRANSLATIONS); [intro Q; injection Q as <- _; reflexivity|].
    destruct (starts_with (py "PROB") g); [|intro Q; injection Q as <- _; reflexivity].
    destruct (split_on 95%N g) as [|c0 [|c1 l]]; [discriminate|destruct (assoc c0 CHANGE_TRANSLATIONS); discriminate|].
    destruct (assoc c0 CHANGE_TRANSLATIONS); [|discriminate]. destruct (assoc c1 CHANGE_TRANSLATIONS); [|discriminate].
    intro Q; injection Q as <- _; reflexivity.
Qed.

Section Change.
Variables (v : valid) (w : str).
Hypothesis Sv : sound False 1 (t_dt (va_from v)).
Hypothesis Nw : forall g, In g (words_of_change w) -> ~ In 10%N g.

Definition change_state (a : list (nat * str)) (k : nat) (p : change_fc) : Prop :=
  (k = 0 -> a = []) /\ (forall g, In (0, g) a <-> mark_of a = Some g) /\ mark_rel (mark_of a) (tc_code (cf_ind p))
  /\ sound False 31 (t_dt (va_from (tc_valid (cf_ind p))))
  /\ cf_valid p = v /\ cf_code p = Some (change_text w) /\ cf_unparsed p = []
  /\ room 3 (k - 4) (c_weathers (cf_common p)) /\ room 4 (k - 7) (c_clouds (cf_common p)).

Lemma change_state_mono : forall a i j p, i <= j -> change_state a i p -> change_state a j p.
Proof.
  intros a i j p L (Z & A & B & C & D & E & F & G & H). split; [intro K; apply Z; lia|].
  do 6 (split; [assumption|]). split; [apply (room_mono _ _ (i - 4)); [lia|exact G]|apply (room_mono _ _ (i - 7)); [lia|exact H]].
Qed.

Lemma mark_snoc : forall a k g, k <> 0 -> mark_of (a ++ [(k, g)]) = mark_of a.
Proof. intros [|z a] k g N; [|reflexivity]. cbn. destruct k; [congruence|reflexivity]. Qed.
Lemma change_next : forall a k g p, k <> 0 -> change_state a k p -> change_state (a ++ [(k, g)]) (S k) p.
Proof.
  intros a k g p N H. apply (change_state_mono a k (S k) p ltac:(lia)) in H. destruct H as (Z & A & B & R). split; [discriminate|]. rewrite (mark_snoc a k g N).
  split; [|split; [exact B|exact R]]. intro g'. rewrite <- A, in_app_iff. split; [intros [K|[K|[]]]; [exact K|congruence]|auto].
Qed.

Notation settled a k g r :=
  ((exists x', r = Ok x' /\ change_state (a ++ [(k, g)]) (S k) x' /\ forall ex, ~ change_bad a (k, g) ex)
   \/ (exists ex, r = Raise ex /\ forall e', change_bad a (k, g) e' <-> e' = ex)).

Lemma change_fine : forall a k g (r : result change_fc), k <> 1 -> k <> 3 -> (exists x', r = Ok x' /\ change_state (a ++ [(k, g)]) (S k) x') -> settled a k g r.
Proof.
  intros a k g r N1 N2 (x' & E & H). left. exists x'. split; [exact E|]. split; [exact H|]. intros ex B.
  unfold change_bad in B. cbn [fst] in B. do 4 (destruct k as [|k]; [congruence || exact B|]). exact B.
Qed.
Lemma change_wea : forall a k g m p, 4 <= k < 7 -> change_state a k p -> settled a k g (cf_lift handle_weather m p).
Proof.
  intros a k g m p Hk H. apply change_fine; try lia. assert (H' := change_next a k g p ltac:(lia) H). destruct H as (_ & _ & _ & _ & _ & _ & _ & A & _).
  destruct H' as (B0 & B1 & B2 & B3 & B4 & B5 & B6 & _ & B7). unfold cf_lift, handle_weather. cbv zeta.
  destruct (room_add _ _ _ (weather_new (Some m)) _ A) as (l & -> & A'); [lia|]. cbn [bind].
  eexists. split; [reflexivity|]. do 7 (split; [assumption|]). split; [apply (room_mono _ _ (S (k - 4))); [lia|exact A']|exact B7].
Qed.
Lemma change_clo : forall a k g m p, 7 <= k < 11 -> re_match r_CLOUD g = Some m -> change_state a k p -> settled a k g (cf_lift handle_cloud m p).
Proof.
  intros a k g m p Hk M H. apply change_fine; try lia. assert (H' := change_next a k g p ltac:(lia) H). destruct H as (_ & _ & _ & _ & _ & _ & _ & _ & A).
  destruct H' as (B0 & B1 & B2 & B3 & B4 & B5 & B6 & B7 & _). unfold cf_lift, handle_cloud. destruct (cloud_fine g m M) as (cl & ->). cbn [bind].
  destruct (room_add _ _ _ cl _ A) as (l & -> & A'); [lia|]. cbn [bind].
  eexists. split; [reflexivity|]. do 8 (split; [assumption|]). apply (room_mono _ _ (S (k - 7))); [lia|exact A'].
Qed.

Lemma change_step : forall a k h g m p, nth_error change_handlers k = Some h -> In g (words_of_change w) -> re_match (h_regexp h) g = Some m -> change_state a k p ->
  settled a k g (h_handle h m p).
Proof.
  intros a k h g m p E Ig M H. unfold change_handlers in E.
  nth_cases k E.
  - apply change_fine; try lia. unfold handle_change_indicator. destruct H as (Z & A & B & C & D & R). rewrite D.
    pose proof (ind_outcome False g m v M (Nw g Ig) Sv) as P. destruct (taf_ind_new (Some m) v) as [i|ex] eqn:Ei; cbn [bind outcome] in *; [|destruct ex; contradiction].
    destruct P as [_ P]. rewrite (Z eq_refl). eexists. split; [reflexivity|]. split; [discriminate|]. cbn [app mark_of].
    split; [intro g'; split; [intros [K|[]]; congruence|intro K; left; congruence]|]. split; [exact (ind_mark g m v i M Ei)|].
    split; [exact P|]. split; [exact D|exact R].
  - assert (H' := change_next a 1 g p ltac:(discriminate) H). destruct H as (_ & A0 & B0 & _ & D0 & _). destruct H' as (Z & A & B & C & D & R).
    unfold handle_change_valid, set_valid_period, change_bad. cbn [fst snd]. rewrite D.
    pose proof (valid_some False 1 _ g m Sv ltac:(lia) M) as P.
    destruct (valid_from_taf (Some m) (t_dt (va_from v))) as [vv|ex]; cbn [bind outcome] in *; [|destruct ex; contradiction].
    destruct P as [Pf _]. assert (Sf : sound False 31 (t_dt (va_from vv))) by (apply (sound_mono False (1 + 1)); [lia|exact Pf]).
    destruct (mark_of a) as [g0|] eqn:Ma.
    + destruct B0 as (c & Ec & Oc). rewrite Ec. left.
      assert (NB : forall ex, ~ (ex = AttributeError /\ forall g1, ~ In (0, g1) a)) by (intros ex [_ K]; apply (K g0), A0; reflexivity).
      rewrite mark_snoc, Ma in B by discriminate.
      destruct (starts_with (py "FM") c); cbn [bind]; eexists; (split; [reflexivity|]); (split; [|exact NB]); (split; [exact Z|]); (split; [exact A|]);
        rewrite mark_snoc, Ma by discriminate; (split; [|split; [exact Sf|split; [exact D|exact R]]]); cbn [cf_ind cf_set_ind tc_code mark_rel]; eexists; (split; [reflexivity|]);
        [exact Oc|rewrite occ_more; exact Oc].
    + cbn [mark_rel] in B0. rewrite B0. right. exists AttributeError. split; [reflexivity|]. intro e'. split; [intros [K _]; exact K|]. intros ->. split; [reflexivity|].
      intros g1 K. apply A0 in K. discriminate K.
  - apply change_fine; try lia. unfold cf_lift, handle_wind. destruct (wind_fine r_T_WIND g m (proj2 wind_checks_ok) M) as (x & ->). cbn [bind].
    eexists. split; [reflexivity|]. exact (change_next a 2 g p ltac:(discriminate) H).
  - unfold cf_lift, handle_prevailing, change_bad. cbn [fst snd]. destruct (prevailing_new (Some m)) as [x|ex] eqn:P; cbn [bind].
    + left. eexists. split; [reflexivity|]. split; [exact (change_next a 3 g p ltac:(discriminate) H)|]. intros ex B. apply (prevailing_exact g m ex M) in B. congruence.
    + right. exists ex. split; [reflexivity|]. intro e'. rewrite <- (prevailing_exact g m e' M), P. split; [congruence|intros ->; reflexivity].
  - apply change_wea; [lia|exact H].
  - apply change_wea; [lia|exact H].
  - apply change_wea; [lia|exact H].
  - apply change_clo; [lia|exact M|exact H].
  - apply change_clo; [lia|exact M|exact H].
  - apply change_clo; [lia|exact M|exact H].
  - apply change_clo; [lia|exact M|exact H].
  - destruct k; discriminate E.
Qed.

Lemma run_change :
  (exists ex, change_fc_new w v = Raise ex /\ forall e', change_refused w e' <-> e' = ex)
  \/ (exists p t u, change_fc_new w v = Ok p /\ change_read w t u /\ length (cf_unparsed p) = length u /\ mark_rel (mark_of t) (tc_code (cf_ind p))
       /\ sound False 31 (t_dt (va_from (tc_valid (cf_ind p)))) /\ cf_code p = Some (change_text w)).
Proof.
  unfold change_fc_new. cbv zeta. destruct (common_fresh []) as (c & -> & E1 & E2). cbn [bind taf_ind_new].
  set (p0 := mk_cf _ _ _ _ _).
  assert (I0 : change_state [] 0 p0).
  { unfold change_state, p0. cbn [cf_ind cf_valid cf_code cf_unparsed cf_common tc_code tc_valid mark_of mark_rel]. rewrite E1, E2. split; [reflexivity|].
    split; [intro g; split; [intros []|discriminate]|]. split; [reflexivity|]. split; [apply (sound_mono False 1); [lia|exact Sv]|].
    do 3 (split; [reflexivity|]). split; (split; [reflexivity|cbn; lia]). }
  destruct (takes_total change_order (words_of_change w) 0) as (tk & u & T).
  destruct (run_section _ change_handlers change_state change_bad _ p0 tk u change_state_mono change_step T I0) as [(ex & P1 & P2)|(p & un & k & P1 & P2 & P3 & P4)];
    unfold change_text in P1; rewrite P1; cbn [bind].
  - left. exists ex. split; [reflexivity|]. intro e'. unfold change_refused. split.
    + intros (t' & u' & T' & F). destruct (takes_one _ _ _ _ _ T _ _ T') as [-> ->]. apply P2. exact F.
    + intros ->. exists tk, u. split; [exact T|]. apply P2. reflexivity.
  - right. destruct P2 as (_ & _ & Q1 & Q2 & _ & Q3 & Q4 & _).
    exists (mk_cf (cf_code p) (cf_valid p) (cf_common p) (cf_ind p) (cf_unparsed p ++ un)), tk, u.
    split; [reflexivity|]. split; [split; [exact T|exact P3]|]. cbn [cf_unparsed cf_ind cf_code]. rewrite Q4. cbn [app]. auto.
Qed.
End Change.

(** ** The list of changes *)

Definition rel (p : change_fc) (o : option str) : Prop := mark_rel o (tc_code (cf_ind p)).
Notation over_all l := (length (flat_map cf_unparsed l)).
Definition stuck (mr : list (option str)) : Prop := exists b a, mr = b ++ None :: a /\ Forall passed b.

Lemma forall2_rev : forall A B (R : A -> B -> Prop) l l', Forall2 R l l' -> Forall2 R (rev l) (rev l').
Proof. intros A B R l l' H. induction H as [|a b l l' Hab H IH]; [constructor|]. cbn [rev]. apply Forall2_app; [exact IH|]. constructor; [exact Hab|constructor]. Qed.
Lemma over_app : forall l l' : list change_fc, over_all (l ++ l') = over_all l + over_all l'.
Proof. intros. rewrite flat_map_app, app_length. reflexivity. Qed.
Lemma over_rev : forall l : list change_fc, over_all (rev l) = over_all l.
Proof. intro l. induction l as [|p l IH]; [reflexivity|]. cbn [rev]. rewrite over_app, IH. cbn [flat_map]. rewrite app_nil_r, app_length. lia. Qed.

Lemma passed_occ : forall g, passed (Some g) <-> occ g = true.
Proof.
  intro g. unfold passed, occ. rewrite orb_true_iff. split; [intros (g' & E & K); injection E as ->; exact K|intro K; exists g; split; [reflexivity|exact K]].
Qed.

Lemma pop_exact : forall until rl temp mr, sound False 31 (t_dt until) -> Forall2 rel rl mr ->
  (pop_changes until rl temp = Raise AttributeError /\ stuck mr)
  \/ (~ stuck mr /\ exists rl' mid, pop_changes until rl temp = Ok (rl', mid ++ temp) /\ Forall2 rel (rev mid ++ rl') mr
        /\ over_all (rev mid ++ rl') = over_all rl).
Proof.
  intros until rl. induction rl as [|p rl IH]; intros temp mr Su F; inversion F as [|p' o rl' mr' Hp Hr]; subst; cbn [pop_changes].
  - right. split; [intros (b & a & E & _); destruct b; discriminate E|]. exists [], []. split; [reflexivity|]. split; [constructor|reflexivity].
  - unfold rel in Hp. destruct o as [g|].
    2:{ cbn [mark_rel] in Hp. rewrite Hp. left. split; [reflexivity|]. exists [], mr'. split; [reflexivity|constructor]. }
    destruct Hp as (c & Ec & Oc). rewrite Ec. fold (occ c).
    assert (Rp : rel p (Some g)) by (exists c; auto).
    destruct (occ c) eqn:Q.
    + assert (Pg : passed (Some g)) by (apply passed_occ; congruence).
      destruct (IH (p :: temp) mr' Su Hr) as [[E K]|(K & rl' & mid & E & F' & O)].
      * left. split; [exact E|]. destruct K as (b & a & -> & Fb). exists (Some g :: b), a. split; [reflexivity|constructor; assumption].
      * right. split.
        { intros (b & a & Eb & Fb). destruct b as [|o b]; [discriminate Eb|]. injection Eb as <- Eb. apply K. inversion Fb; subst. exists b, a. auto. }
        exists rl', (mid ++ [p]). split; [rewrite <- app_assoc; exact E|]. rewrite rev_app_distr. cbn [rev app].
        split; [constructor; assumption|]. cbn [flat_map]. rewrite !app_length, O. reflexivity.
    + right. split.
      { intros (b & a & Eb & Fb). destruct b as [|o b]; [discriminate Eb|]. injection Eb as <- Eb. inversion Fb as [|? ? Pg _]; subst.
        apply passed_occ in Pg. congruence. }
      destruct (starts_with (py "FM") c) eqn:Fm.
      * unfold reset_until_period. destruct (sound_back False 31 _ Su) as (x & ->). cbn [bind]. rewrite Ec, Fm. cbn [bind].
        eexists rl, [_]. split; [reflexivity|]. split; [|reflexivity]. cbn [rev app]. constructor; [|exact Hr]. exists c. split; [reflexivity|congruence].
      * exists rl, [p]. split; [reflexivity|]. split; [constructor; assumption|reflexivity].
Qed.

Lemma gl_add_all_ok : forall (l : list change_fc) g, length (gl_list g) + length l <= gl_max g ->
  gl_add_all l g = Ok (mk_gl (gl_n g) (gl_max g) (gl_list g ++ l)).
Proof.
  intro l. induction l as [|p l IH]; intros g H; cbn [gl_add_all length] in *; [rewrite app_nil_r; destruct g; reflexivity|].
  unfold gl_add. replace (Nat.leb (gl_max g) (length (gl_list g))) with false by (symmetry; apply Nat.leb_gt; lia). cbn [bind].
  rewrite IH; cbn [gl_n gl_max gl_list]; [rewrite <- app_assoc; reflexivity|rewrite app_length; cbn [length]; lia].
Qed.

Lemma stuck_rev : forall marks, stuck (rev marks) <-> exists a b, marks = a ++ None :: b /\ Forall passed b.
Proof.
  intro marks. split.
  - intros (b & a & E & F). exists (rev a), (rev b). split; [|apply Forall_rev; exact F]. rewrite <- (rev_involutive marks), E, rev_app_distr. cbn [rev].
    rewrite <- app_assoc. reflexivity.
  - intros (a & b & -> & F). exists (rev b), (rev a). split; [|apply Forall_rev; exact F]. rewrite rev_app_distr. cbn [rev]. rewrite <- app_assoc. reflexivity.
Qed.

Lemma add_exact : forall p w o g marks, cf_code p = Some (change_text w) -> sound False 31 (t_dt (va_from (tc_valid (cf_ind p)))) -> rel p o ->
  gl_max g = 8 -> Forall2 rel (gl_list g) marks -> length marks <= 8 ->
  (changes_add p g = Raise AttributeError /\ blocked marks w)
  \/ (changes_add p g = Raise RangeError /\ ~ blocked marks w /\ length marks = 8)
  \/ (~ blocked marks w /\ length marks < 8 /\ exists g', changes_add p g = Ok g' /\ gl_n g' = gl_n g /\ gl_max g' = 8
      /\ Forall2 rel (gl_list g') (marks ++ [o]) /\ over_all (gl_list g') = over_all (gl_list g) + length (cf_unparsed p)).
Proof.
  intros p w o g marks Ec Su Rp Em F Lm. pose proof (forall2_length _ _ _ _ _ F) as Lg.
  assert (ADD : forall g1, gl_n g1 = gl_n g -> gl_max g1 = 8 -> Forall2 rel (gl_list g1) marks -> over_all (gl_list g1) = over_all (gl_list g) ->
    ~ blocked marks w ->
    (gl_add p g1 = Raise AttributeError /\ blocked marks w)
    \/ (gl_add p g1 = Raise RangeError /\ ~ blocked marks w /\ length marks = 8)
    \/ (~ blocked marks w /\ length marks < 8 /\ exists g', gl_add p g1 = Ok g' /\ gl_n g' = gl_n g /\ gl_max g' = 8
        /\ Forall2 rel (gl_list g') (marks ++ [o]) /\ over_all (gl_list g') = over_all (gl_list g) + length (cf_unparsed p))).
  { intros g1 N1 M1 F1 O1 NB. right. unfold gl_add. rewrite M1, (forall2_length _ _ _ _ _ F1). destruct (Nat.leb_spec 8 (length marks)) as [L|L].
    - left. split; [reflexivity|]. split; [exact NB|lia].
    - right. split; [exact NB|]. split; [exact L|]. eexists. split; [reflexivity|]. cbn [gl_n gl_max gl_list]. split; [exact N1|]. split; [reflexivity|].
      split; [apply Forall2_app; [exact F1|constructor; [exact Rp|constructor]]|]. rewrite over_app, O1. cbn [flat_map]. rewrite app_nil_r. reflexivity. }
  unfold changes_add. cbv zeta. rewrite Ec. destruct (Nat.ltb 0 (length (gl_list g))) eqn:L0; cbn [andb].
  2:{ apply ADD; try assumption; try reflexivity. intros (_ & a & b & -> & _). rewrite Lg, app_length in L0. cbn [length] in L0. apply Nat.ltb_ge in L0. lia. }
  destruct (starts_with (py "FM") (change_text w) || starts_with (py "BECMG") (change_text w)) eqn:Sw.
  2:{ apply ADD; try assumption; try reflexivity. intros ([K|K] & _); rewrite K in Sw; [|rewrite orb_true_r in Sw]; discriminate Sw. }
  apply orb_true_iff in Sw.
  destruct (pop_exact (va_from (tc_valid (cf_ind p))) (rev (gl_list g)) [] (rev marks) Su (forall2_rev _ _ _ _ _ F)) as [[E K]|(K & rl' & mid & E & F' & O)]; rewrite E; cbn [bind].
  - left. split; [reflexivity|]. split; [exact Sw|]. apply stuck_rev. exact K.
  - rewrite app_nil_r. apply forall2_rev in F'. rewrite rev_app_distr, !rev_involutive in F'. rewrite <- (over_rev (rev mid ++ rl')), rev_app_distr, rev_involutive, over_rev in O.
    pose proof (forall2_length _ _ _ _ _ F') as L'. rewrite app_length in L'.
    rewrite gl_add_all_ok by (cbn [gl_list gl_max]; rewrite Em; lia). cbn [bind gl_n gl_max gl_list].
    apply ADD; try assumption; try reflexivity. intros (_ & B). apply K, stuck_rev. exact B.
Qed.

(** ** All changes *)

Lemma change_read_one : forall w t u t' u', change_read w t u -> change_read w t' u' -> t' = t /\ u' = u.
Proof. intros w t u t' u' [T _] [T' _]. destruct (takes_one _ _ _ _ _ T _ _ T') as [-> ->]. auto. Qed.
Lemma change_read_refused : forall w t u e, change_read w t u -> change_refused w e -> False.
Proof.
  intros w t u e [T N] (t' & u' & T' & a & z & b & E & _ & B). destruct (takes_one _ _ _ _ _ T _ _ T') as [-> ->]. exact (N a z b e E B).
Qed.

Lemma changes_one : forall ws m u, changes_read ws m u -> forall m' u', changes_read ws m' u' -> m' = m /\ u' = u.
Proof.
  intros ws m u H. induction H as [|ws m u w t v H IH R B L]; intros m' u' H'.
  - inversion H' as [E|ws1 m1 u1 w1 t1 v1 H1 R1 B1 L1 E]; [auto|]. destruct ws1; discriminate E.
  - inversion H' as [E|ws1 m1 u1 w1 t1 v1 H1 R1 B1 L1 E]; [destruct ws; discriminate E|]. apply app_inj_tail in E. destruct E as [-> ->].
    destruct (IH _ _ H1) as [-> ->]. destruct (change_read_one _ _ _ _ _ R R1) as [-> ->]. auto.
Qed.

Lemma changes_prefix : forall ws m u, changes_read ws m u -> forall a w b, ws = a ++ w :: b ->
  exists m1 u1 t v, changes_read a m1 u1 /\ change_read w t v /\ ~ blocked m1 w /\ length a < 8.
Proof.
  intros ws m u H. induction H as [|ws m u w0 t v H IH R B L]; intros a w b E.
  - destruct a; discriminate E.
  - destruct b as [|b0 b] using rev_ind.
    + apply app_inj_tail in E. destruct E as [<- <-]. exists m, u, t, v. auto.
    + rewrite app_comm_cons, app_assoc in E. apply app_inj_tail in E. destruct E as [-> _]. exact (IH a w b eq_refl).
Qed.

Definition stops (a : list str) (marks : list (option str)) (w : str) (e : exn) : Prop :=
  change_refused w e
  \/ (exists t v, change_read w t v) /\ ((blocked marks w /\ e = AttributeError) \/ (~ blocked marks w /\ length a = 8 /\ e = RangeError)).

Lemma stopped_not_read : forall a w b m u marks v e, changes_read (a ++ w :: b) m u -> changes_read a marks v -> stops a marks w e -> False.
Proof.
  intros a w b m u marks v e H Ha D. destruct (changes_prefix _ _ _ H a w b eq_refl) as (m1 & u1 & t & x & H1 & R & B & L).
  destruct (changes_one _ _ _ Ha _ _ H1) as [-> ->]. destruct D as [D|(_ & [[D _]|(_ & D & _)])]; [exact (change_read_refused _ _ _ _ R D)|exact (B D)|lia].
Qed.

Lemma two_splits : forall (a : list str) w b a' w' b', a ++ w :: b = a' ++ w' :: b' ->
  (a = a' /\ w = w' /\ b = b') \/ (exists c, a = a' ++ w' :: c) \/ (exists c, a' = a ++ w :: c).
Proof.
  intro a. induction a as [|x a IH]; intros w b a' w' b' E; destruct a' as [|x' a']; cbn [app] in E.
  - injection E as -> ->. auto.
  - injection E as -> ->. right. right. exists a'. reflexivity.
  - injection E as -> <-. right. left. exists a. reflexivity.
  - injection E as -> E. destruct (IH _ _ _ _ _ E) as [(-> & -> & ->)|[(c & ->)|(c & ->)]]; [auto|right; left; exists c; reflexivity|right; right; exists c; reflexivity].
Qed.

Lemma refused_here : forall a w b marks u ex, changes_read a marks u -> (forall e', stops a marks w e' <-> e' = ex) ->
  forall e', changes_refused (a ++ w :: b) e' <-> e' = ex.
Proof.
  intros a w b marks u ex H D e'. split.
  - intros (a' & w' & b' & m' & u' & E & H' & D'). destruct (two_splits _ _ _ _ _ _ E) as [(<- & <- & <-)|[(c & ->)|(c & ->)]].
    + destruct (changes_one _ _ _ H _ _ H') as [-> ->]. apply D. exact D'.
    + exfalso. exact (stopped_not_read _ _ _ _ _ _ _ _ H H' D').
    + exfalso. exact (stopped_not_read _ _ _ _ _ _ _ _ H' H (proj2 (D ex) eq_refl)).
  - intros ->. exists a, w, b, marks, u. split; [reflexivity|]. split; [exact H|]. apply D. reflexivity.
Qed.

Notation held := (fun w : str => match w with [] => false | _ => true end).

Lemma changes_marks : forall ws m u, changes_read ws m u -> length m = length ws /\ length ws <= 8.
Proof.
  intros ws m u H. induction H as [|ws m u w t v H IH R B L]; [auto with arith|]. rewrite !app_length. cbn [length]. lia.
Qed.

Lemma run_changes : forall l a x marks u, sound False 1 (t_dt (va_from (ta_valid x))) ->
  (forall w g, In w l -> In g (words_of_change w) -> ~ In 10%N g) ->
  gl_max (ta_changes x) = 8 -> gl_n (ta_changes x) = 0 -> Forall2 rel (gl_list (ta_changes x)) marks ->
  changes_read a marks u -> over_all (gl_list (ta_changes x)) = length u ->
  (exists ex, handle_changes l x = Raise ex /\ forall e', changes_refused (a ++ filter held l) e' <-> e' = ex)
  \/ (exists x' marks' u', handle_changes l x = Ok x' /\ changes_read (a ++ filter held l) marks' u' /\ ta_unparsed x' = ta_unparsed x
       /\ gl_n (ta_changes x') = 0 /\ over_all (gl_list (ta_changes x')) = length u').
Proof.
  intro l. induction l as [|w l IH]; intros a x marks u Sv Nw Em En F H O.
  - right. exists x, marks, u. cbn [handle_changes filter]. rewrite app_nil_r. auto.
  - assert (Nl : forall w g, In w l -> In g (words_of_change w) -> ~ In 10%N g) by (intros w' g I1 I2; apply (Nw w' g); [right; exact I1|exact I2]).
    destruct w as [|c w]; [cbn [handle_changes filter]; exact (IH a x marks u Sv Nl Em En F H O)|].
    cbn [handle_changes filter]. set (cw := c :: w) in *. unfold handle_change_forecasted.
    destruct (run_change (ta_valid x) cw Sv (fun g => Nw cw g (or_introl eq_refl))) as [(ex & E & R)|(p & t & v & E & R & Lu & Mp & Sp & Cp)]; rewrite E; cbn [bind].
    + left. exists ex. split; [reflexivity|]. apply (refused_here _ _ _ marks u _ H). intro e'. rewrite <- R. split; [|left; assumption].
      intros [K|((t & v & K) & _)]; [exact K|]. exfalso. exact (change_read_refused _ _ _ ex K (proj2 (R ex) eq_refl)).
    + destruct (changes_marks _ _ _ H) as [Lm La].
      assert (NR : forall e', ~ change_refused cw e') by (intros e' K; exact (change_read_refused _ _ _ e' R K)).
      destruct (add_exact p cw (mark_of t) (ta_changes x) marks Cp Sp Mp Em F ltac:(lia)) as [[Q B]|[(Q & B & L8)|(B & L8 & g' & Q & N' & M' & F' & O')]]; rewrite Q; cbn [bind].
      * left. exists AttributeError. split; [reflexivity|]. apply (refused_here _ _ _ marks u _ H). intro e'. split.
        -- intros [K|(_ & [[_ K]|(K & _)])]; [exfalso; exact (NR _ K)|exact K|contradiction].
        -- intros ->. right. split; [exists t, v; exact R|]. left. auto.
      * left. exists RangeError. split; [reflexivity|]. apply (refused_here _ _ _ marks u _ H). intro e'. split.
        -- intros [K|(_ & [[K _]|(_ & _ & K)])]; [exfalso; exact (NR _ K)|contradiction|exact K].
        -- intros ->. right. split; [exists t, v; exact R|]. right. split; [exact B|]. split; [lia|reflexivity].
      * assert (H' : changes_read (a ++ [cw]) (marks ++ [mark_of t]) (u ++ v)) by (apply read_next; [exact H|exact R|exact B|lia]).
        destruct (IH (a ++ [cw]) (tout_string (change_fc_str p) (tupd_changes g' x)) _ _ Sv Nl M' (eq_trans N' En) F' H') as [(ex & P1 & P2)|(x' & m' & u' & P1 & P2 & P3 & P4 & P5)].
        -- cbn [tout_string tupd_common tupd_changes ta_changes]. rewrite O', O, app_length, Lu. reflexivity.
        -- left. exists ex. split; [exact P1|]. rewrite <- app_assoc in P2. exact P2.
        -- right. exists x', m', u'. rewrite <- app_assoc in P2. auto.
Qed.

(** ** The report *)

Theorem taf_refused_exactly : forall e code year month tr ex, clock_wf e -> month_wf e year month ->
  ~ last_month (opt_default (now_year e) year) (opt_default (now_month e) month) -> ~ last_month (now_year e) (now_month e) ->
  (taf_parse e code year month tr = Raise ex
   <-> taf_refused (opt_default (now_year e) year) (opt_default (now_month e) month) tr code ex).
Proof.
  intros e code year month tr ex C W NL NN.
  set (y := opt_default (now_year e) year) in *. set (mo := opt_default (now_month e) month) in *.
  assert (K : (exists ex', taf_parse e code year month tr = Raise ex' /\ forall ex, taf_refused y mo tr code ex <-> ex = ex')
    \/ (exists x, taf_parse e code year month tr = Ok x /\ forall ex, ~ taf_refused y mo tr code ex)).
  { unfold taf_parse. destruct code as [|c code0].
    { left. exists AssertionError. split; [reflexivity|]. intro e'. split; [intros [[_ K]|[K _]]; [exact K|contradiction]|]. intros ->. left. auto. }
    change (report_raw_code (c :: code0)) with (Ok (normalise (c :: code0))).
    assert (RC : report_raw_code (c :: code0) = Ok (normalise (c :: code0))) by reflexivity.
    set (code := c :: code0) in *. assert (NC : code <> []) by discriminate. clearbody code. cbn [bind].
    destruct (init_state e (normalise code) C NN) as (x0 & Ei & Eb & I0). rewrite Ei. cbn [bind].
    destruct (takes_total taf_order (words_of_taf code) 0) as (t & u & T).
    assert (NB : forall ex, taf_refused y mo tr code ex <->
      (first_bad (taf_bad y mo) t ex
       \/ (none_bad (taf_bad y mo) t
           /\ (changes_refused (changes_of code) ex
               \/ (exists marks v, changes_read (changes_of code) marks v /\ tr = true /\ u ++ v <> [] /\ ex = ParserError))))).
    { intro e'. unfold taf_refused. split.
      - intros [[K _]|(_ & t' & u' & T' & K)]; [contradiction|]. destruct (takes_one _ _ _ _ _ T _ _ T') as [-> ->]. exact K.
      - intro K. right. split; [exact NC|]. exists t, u. split; [exact T|exact K]. }
    unfold taf_parse_body. rewrite Eb.
    destruct (run_section _ (taf_handlers e year month) (taf_state (snd (taf_split (normalise code)))) (taf_bad y mo)
      (sanitize_visibility (fst (taf_split (normalise code)))) x0 t u (taf_state_mono _)
      (fun a k h g m st E _ M J => taf_step e year month _ W NL a k h g m st E M J) T I0)
      as [(e1 & P1 & P2)|(x1 & un & k & P1 & P2 & P3 & P4)]; rewrite P1; cbn [bind].
    - left. exists e1. split; [reflexivity|]. intro e'. rewrite NB, <- P2. split; [|auto]. intros [K|[K _]]; [exact K|].
      exfalso. destruct (proj2 (P2 e1) eq_refl) as (a & z & b & E & _ & B). exact (K a z b e1 E B).
    - assert (NF : forall ex, ~ first_bad (taf_bad y mo) t ex) by (intros e' (a & z & b & E & _ & B); exact (P3 a z b e' E B)).
      destruct P2 as (_ & _ & _ & _ & _ & [Sv _] & Ec1 & Es1 & Eu1).
      set (x2 := tupd_unparsed (ta_unparsed x1 ++ un) x1).
      assert (Eu2 : length (ta_unparsed x2) = length u) by (unfold x2; cbn [tupd_unparsed ta_unparsed]; rewrite Eu1; exact P4).
      assert (Ec2 : ta_changes x2 = gl_new 8) by exact Ec1.
      unfold parse_changes_forecasted. replace (ta_codes x2) with (snd (taf_split (normalise code))) by (symmetry; exact Es1).
      assert (Hn : forall c g, In c (snd (taf_split (normalise code))) -> In g (words_of_change c) -> ~ In 10%N g).
      { intros c' g Ic Ig J. pose proof (weaker_char _ _ 10%N (taf_change_groups _ c' g Ic Ig) eq_refl J) as J1.
        destruct (raw_clean _ _ RC) as (R1 & _). contradiction. }
      destruct (run_changes (snd (taf_split (normalise code))) [] x2 [] [] Sv Hn) as [(e1 & Q1 & Q2)|(x3 & marks & v & Q1 & Q2 & Q3 & Q4 & Q5)];
        [rewrite Ec2; reflexivity|rewrite Ec2; reflexivity|rewrite Ec2; constructor|constructor|rewrite Ec2; reflexivity| |]; rewrite Q1; cbn [bind]; cbn [app] in Q2; change (filter held (snd (taf_split (normalise code)))) with (changes_of code) in Q2.
      + left. exists e1. split; [reflexivity|]. intro e'. rewrite NB, <- Q2. split.
        * intros [K|(_ & [K|(m & v & F & _)])]; [exfalso; exact (NF e' K)|exact K|].
          exfalso. destruct (proj2 (Q2 e1) eq_refl) as (a & w & b & m' & u' & E & H' & D). rewrite E in F. exact (stopped_not_read _ _ _ _ _ _ _ _ F H' D).
        * intro K. right. split; [exact P3|]. left. exact K.
      + assert (NT : forall ex, ~ changes_refused (changes_of code) ex).
        { intros e' (a & w & b & m' & u' & E & H' & D). rewrite E in Q2. exact (stopped_not_read _ _ _ _ _ _ _ _ Q2 H' D). }
        rewrite gl_collect_spec, Q4. cbn [skipn]. cbv zeta. set (x4 := tupd_unparsed _ _).
        assert (U4 : length (ta_unparsed x4) = length (u ++ v)).
        { unfold x4. cbn [tupd_unparsed tupd_changes ta_unparsed]. rewrite !app_length, Q3, Eu2, Q5. reflexivity. }
        assert (NR : forall ex, taf_refused y mo tr code ex <-> tr = true /\ u ++ v <> [] /\ ex = ParserError).
        { intro e'. rewrite NB. split.
          - intros [K|(_ & [K|(m & v' & F & K)])]; [exfalso; exact (NF e' K)|exfalso; exact (NT e' K)|].
            destruct (changes_one _ _ _ Q2 _ _ F) as [-> ->]. exact K.
          - intro K. right. split; [exact P3|]. right. exists marks, v. split; [exact Q2|exact K]. }
        destruct (ta_unparsed x4) as [|z zs].
        * right. exists x4. split; [reflexivity|]. intros e' K. apply NR in K. destruct K as (_ & K & _). apply K, nil_length. symmetry. exact U4.
        * destruct tr.
          -- left. exists ParserError. split; [reflexivity|]. intro e'. rewrite NR. split; [intros (_ & _ & K); exact K|]. intros ->. split; [reflexivity|]. split; [|reflexivity].
             intro K. rewrite K in U4. discriminate U4.
          -- right. exists x4. split; [reflexivity|]. intros e' K. apply NR in K. destruct K as (K & _). discriminate K. }
  destruct K as [(e' & P1 & P2)|(x & P1 & P2)]; rewrite P1.
  - rewrite P2. split; congruence.
  - split; [discriminate|]. intro K. exfalso. exact (P2 ex K).
Qed.

Theorem taf_accepted_exactly : forall e code year month tr, clock_wf e -> month_wf e year month ->
  ~ last_month (opt_default (now_year e) year) (opt_default (now_month e) month) -> ~ last_month (now_year e) (now_month e) ->
  ((exists x, taf_parse e code year month tr = Ok x)
   <-> forall ex, ~ taf_refused (opt_default (now_year e) year) (opt_default (now_month e) month) tr code ex).
Proof.
  intros e code year month tr C W NL NN. split.
  - intros (x & E) ex K. apply (taf_refused_exactly e code year month tr ex C W NL NN) in K. congruence.
  - intro K. destruct (taf_parse e code year month tr) as [x|ex] eqn:E; [exists x; reflexivity|].
    exfalso. apply (K ex), (taf_refused_exactly e code year month tr ex C W NL NN). exact E.
Qed.
