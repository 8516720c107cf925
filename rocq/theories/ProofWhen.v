(** * Proofs: the exact behaviour of the code where a property fails *)
From Coq Require Import String Ascii.
From Coq Require Import List NArith ZArith Bool Lia.
From Verif Require Import PyBase PyRegex AeroRegex PyFloat PyTime Utils Base MetarGroups Trend Taf SpecNum SpecGroups
  SpecTime SpecTaf SpecExact TimeFacts ProofGroups ProofValues ProofTime ProofTaf Captures Outcomes OutTime ProofFailures.
Import ListNotations.
Local Open Scope string_scope.
Local Open Scope Z_scope.
Local Open Scope list_scope.

Lemma year_real : forall x, real x -> year_of x <= 9999.
Proof. intros [[a b] c] H. apply real_date_range in H. unfold year_of. cbn. lia. Qed.

Lemma pick_any : forall y m d h mi day b, real_date y m d -> 0 <= h < 24 ->
  today_or_after (mk_dt y m d h mi) day b -> real b ->
  (if day =? d then Ok (mk_dt y m d h 0) else dt_add_days (mk_dt y m d h 0) 1) = Ok (at_date b h 0).
Proof.
  intros y m d h mi day b R Hh [[-> ->]|[N A]] Rb; cbn [dt_day] in *.
  - rewrite Z.eqb_refl. reflexivity.
  - replace (day =? d) with false by (symmetry; apply Z.eqb_neq; exact N).
    rewrite dt_add_day by (assumption || lia). unfold date_of in A. cbn [dt_year dt_month dt_day] in A.
    apply day_after_fun in A. rewrite <- A. apply year_real in Rb.
    destruct b as [[y' m'] d']. unfold year_of in Rb. cbn in Rb. cbn [at_date dt_year].
    apply Z.leb_le in Rb. rewrite Rb. reflexivity.
Qed.

Lemma valid_any : forall t fd fh td th bf bt be, real_time t ->
  (1 <= fd <= 31)%N -> (fh <= 23)%N -> (1 <= td <= 31)%N -> (th <= 24)%N ->
  today_or_after t (Z.of_N fd) bf -> today_or_after t (Z.of_N td) bt ->
  real bf -> real bt -> day_after bt be -> (th = 24%N -> real be) ->
  exists v, valid_from_taf (re_match r_T_VALID (valid_code fd fh td th)) t = Ok v
    /\ va_code v = Some (valid_code fd fh td th)
    /\ t_dt (va_from v) = moment bf fh 0
    /\ ((th < 24)%N -> t_dt (va_until v) = moment bt th 0)
    /\ (th = 24%N -> t_dt (va_until v) = moment be 0 0).
Proof.
  intros t fd fh td th bf bt be R H1 H2 H3 H4 Ff Ft Rf Rt Be Re.
  destruct (valid_captures fd fh td th H1 H2 H3 H4) as (m & Em & Es & Hc). rewrite Em.
  unfold valid_from_taf. destruct t as [y mo d h mi]. destruct R as (Rd & Rh & Rm).
  cbn [dt_year dt_month dt_day dt_hour dt_minute] in Rd, Rh, Rm.
  change (dt_replace_minute (mk_dt y mo d h mi) 0) with (Ok (mk_dt y mo d h 0)). cbn [bind].
  captured Hc ["fmday"; "fmhour"; "tlday"; "tlhour"].
  change (lookup "fmday" (valid_text fd fh td th)) with (Some (digits 2 fd)).
  change (lookup "fmhour" (valid_text fd fh td th)) with (Some (digits 2 fh)).
  change (lookup "tlday" (valid_text fd fh td th)) with (Some (digits 2 td)).
  change (lookup "tlhour" (valid_text fd fh td th)) with (Some (digits 2 th)).
  unfold int_of_opt. rewrite !int_digits by (try lia; change (10 ^ N.of_nat 2)%N with 100%N; lia).
  cbn [bind dt_day].
  rewrite (pick_any y mo d h mi _ bf Rd Rh Ff Rf). cbn [bind].
  rewrite (pick_any y mo d h mi _ bt Rd Rh Ft Rt). cbn [bind].
  assert (U : (if Z.of_N th =? 24 then dt_add_days (at_date bt h 0) 1 else Ok (at_date bt h 0))
              = Ok (at_date (if (th =? 24)%N then be else bt) h 0)).
  { destruct (N.eqb_spec th 24) as [->|N24].
    - change (Z.of_N 24 =? 24) with true. cbv iota. specialize (Re eq_refl). apply year_real in Re.
      destruct bt as [[yt mt] dt']. cbn [at_date].
      apply day_after_fun in Be. rewrite dt_add_day by (assumption || lia). rewrite <- Be.
      destruct be as [[ye me] de]. unfold year_of in Re. cbn in Re. apply Z.leb_le in Re. cbn [at_date dt_year].
      rewrite Re. reflexivity.
    - replace (Z.of_N th =? 24) with false by (symmetry; apply Z.eqb_neq; lia). reflexivity. }
  rewrite U. cbn [bind].
  assert (RH : forall x h', 0 <= h' <= 23 -> dt_replace_hour (at_date x h 0) h' = Ok (at_date x h' 0)).
  { intros [[a b] c] h' Hh'. unfold dt_replace_hour, at_date.
    replace ((0 <=? h') && (h' <=? 23)) with true by (symmetry; apply andb_true_iff; rewrite !Z.leb_le; lia).
    reflexivity. }
  rewrite RH by lia. cbn [bind].
  assert (TH : (if Z.of_N th =? 24 then 0 else Z.of_N th) = (if (th =? 24)%N then 0 else Z.of_N th)).
  { destruct (N.eqb_spec th 24) as [->|N24]; [reflexivity|].
    replace (Z.of_N th =? 24) with false by (symmetry; apply Z.eqb_neq; lia). reflexivity. }
  rewrite TH. rewrite RH by (destruct (N.eqb_spec th 24); lia). cbn [bind].
  eexists. split; [reflexivity|]. unfold valid_new. cbn [va_code va_from va_until time_at t_dt].
  rewrite Es, group_code_id by (unfold valid_code; auto 8 with nou).
  split; [reflexivity|]. split; [destruct bf as [[a b] c]; reflexivity|].
  destruct (N.eqb_spec th 24) as [->|N24]; split; intro K; try lia.
  - destruct be as [[a b] c]; reflexivity.
  - destruct bt as [[a b] c]; reflexivity.
Qed.

Lemma moment_inj : forall a b h mi, moment a h mi = moment b h mi -> a = b.
Proof. intros [[y m] d] [[y' m'] d'] h mi H. unfold moment in H. congruence. Qed.

(** The day picked is the right one exactly when that one is not after tomorrow. *)
Lemma right_day : forall t day a b, real_time t -> first_with_day (date_of t) day a -> today_or_after t day b ->
  (b = a <-> by_tomorrow t a).
Proof.
  intros t day a b R F P. assert (OK := real_date_ok t R). assert (FF := F).
  destruct F as (k & Hk & Ek & Mk). split.
  - intros ->. destruct P as [[-> ->]|[N A]].
    + exists 0%nat. split; [lia|constructor].
    + exists 1%nat. split; [lia|]. apply Succ with a; [exact A|constructor].
  - intros (j & Hj & Jb).
    assert (L : (k <= 1)%nat).
    { destruct (le_lt_dec k j) as [L|G]; [lia|]. exfalso. exact (Mk j a G Jb Ek). }
    destruct P as [[-> ->]|[N A]].
    + destruct k as [|k]; [inversion Hk; reflexivity|]. exfalso.
      apply (Mk 0%nat (date_of t)); [lia|constructor|reflexivity].
    + destruct k as [|[|k]]; [| |lia].
      * exfalso. inversion Hk. subst. apply N. reflexivity.
      * apply days_later_on in Hk; [|exact OK]. cbn [days_on] in Hk. rewrite Hk. apply day_after_fun. exact A.
Qed.

Lemma picked : forall t day, real_time t -> exists b, today_or_after t day b.
Proof.
  intros t day R. destruct (Z.eq_dec day (dt_day t)) as [->|N].
  - exists (date_of t). left. split; reflexivity.
  - exists (tomorrow (date_of t)). right. split; [exact N|]. destruct R as [R _].
    apply real_date_range in R. destruct R as (_ & Hm & Hd). apply tomorrow_ok; assumption.
Qed.

Lemma after_fun : forall a b c, day_after a b -> day_after a c -> b = c.
Proof. intros a b c H K. apply day_after_fun in H. apply day_after_fun in K. congruence. Qed.

(** Tomorrow of dates determines them. *)
Lemma after_inj : forall a b c, date_ok a -> date_ok b -> day_after a c -> day_after b c -> a = b.
Proof.
  intros [[y m] d] [[y' m'] d'] [[u v] w] A B H K.
  assert (Oa : ord2ymd (ymd2ord y m d) = (y, m, d)) by (apply ord2ymd_ymd2ord; apply A).
  assert (Ob : ord2ymd (ymd2ord y' m' d') = (y', m', d')) by (apply ord2ymd_ymd2ord; apply B).
  apply day_after_ord in H; [|apply A]. apply day_after_ord in K; [|apply B]. rewrite <- Oa, <- Ob. f_equal. lia.
Qed.

Lemma taf_temp_any : forall t (mx neg : bool) n d h b rest, real_time t -> ~ In 95%N rest ->
  (n < 100)%N -> (1 <= d <= 31)%N -> (h <= 23)%N -> today_or_after t (Z.of_N d) b -> real b ->
  exists m v, re_match r_T_TEMPERATURE (taf_temp_code mx neg n d h ++ rest) = Some m
    /\ group m "type" = Some (py (if mx then "X" else "N"))
    /\ taf_temp_new m t = Ok v
    /\ tt_code v = Some (taf_temp_code mx neg n d h ++ rest)
    /\ temp_is (tt_value v) (celsius (TValue (if neg then Some true else None) n))
    /\ t_dt (tt_time v) = moment b h 0.
Proof.
  intros t mx neg n d h b rest R Hr Hn Hd Hh F Rb.
  destruct (ttemp_captures mx neg n d h rest Hd Hh) as (m & Em & Es & Hc).
  destruct (ttemp_value neg n Hn) as (v & Ev & Hv).
  exists m. eexists. split; [exact Em|]. split; [rewrite (Hc "type") by names; destruct neg; reflexivity|].
  unfold taf_temp_new. destruct t as [y mo dd hh mi]. destruct R as (Rd & Rh & Rm).
  cbn [dt_year dt_month dt_day dt_hour dt_minute] in Rd, Rh, Rm.
  change (dt_replace_minute (mk_dt y mo dd hh mi) 0) with (Ok (mk_dt y mo dd hh 0)). cbn [bind].
  captured Hc ["sign"; "temp"; "day"; "hour"].
  assert (L : lookup "sign" (ttemp_text mx neg n d h) = (if neg then Some (py "M") else None)
    /\ lookup "temp" (ttemp_text mx neg n d h) = Some (digits 2 n)
    /\ lookup "day" (ttemp_text mx neg n d h) = Some (digits 2 d)
    /\ lookup "hour" (ttemp_text mx neg n d h) = Some (digits 2 h)) by (destruct neg; repeat split; reflexivity).
  destruct L as (-> & -> & -> & ->).
  replace (truthy (if neg then Some (py "M") else None)) with neg by (destruct neg; reflexivity).
  rewrite Ev. cbn [bind].
  unfold int_of_opt. rewrite !int_digits by (try lia; change (10 ^ N.of_nat 2)%N with 100%N; lia).
  cbn [bind]. unfold dt_replace_hour. replace ((0 <=? Z.of_N h) && (Z.of_N h <=? 23)) with true
    by (symmetry; apply andb_true_iff; rewrite !Z.leb_le; lia).
  cbn [bind dt_year dt_month dt_day dt_hour dt_minute].
  assert (F' : today_or_after (mk_dt y mo dd (Z.of_N h) mi) (Z.of_N d) b) by exact F.
  rewrite (pick_any y mo dd (Z.of_N h) mi _ b Rd ltac:(lia) F' Rb).
  cbn [bind]. split; [reflexivity|]. cbn [tt_code tt_value tt_time time_at t_dt].
  rewrite Es, group_code_id.
  2:{ apply nou_app; [|exact Hr]. unfold taf_temp_code. destruct mx, neg; auto 12 with nou. }
  split; [reflexivity|]. split; [exact Hv|]. destruct b as [[a b'] c]. reflexivity.
Qed.

(** ** The statements *)

Lemma real_today : forall t, real_time t -> real (date_of t).
Proof. intros t [R _]. exact R. Qed.

(** A date picked in a result is real as soon as its tomorrow is. *)
Lemma picked_real : forall t day b nx, real_time t -> today_or_after t day b -> day_after (date_of t) nx -> real nx ->
  real b.
Proof.
  intros t day b nx R [[_ ->]|[_ A]] N X; [apply real_today; exact R|]. rewrite (after_fun _ _ _ A N). exact X.
Qed.

Lemma real_ok : forall x, real x -> date_ok x.
Proof. intros [[y m] d] H. apply real_date_range in H. split; apply H. Qed.

Lemma first_ok : forall t day a, real_time t -> first_with_day (date_of t) day a -> date_ok a.
Proof.
  intros t day a R (k & Hk & _). assert (OK := real_date_ok t R). apply days_later_on in Hk; [|exact OK]. subst a.
  revert OK. generalize (date_of t). clear. induction k as [|k IH]; intros x Hx; [exact Hx|]. apply IH.
  apply tomorrow_date_ok. exact Hx.
Qed.

Lemma valid_right : forall t fd fh td th nx nn af at_ ae v, real_time t ->
  (1 <= fd <= 31)%N -> (fh <= 23)%N -> (1 <= td <= 31)%N -> (th <= 24)%N ->
  day_after (date_of t) nx -> day_after nx nn -> real nx -> real nn ->
  first_with_day (date_of t) (Z.of_N fd) af -> first_with_day (date_of t) (Z.of_N td) at_ -> day_after at_ ae ->
  valid_from_taf (re_match r_T_VALID (valid_code fd fh td th)) t = Ok v ->
  (t_dt (va_from v) = moment af fh 0 <-> by_tomorrow t af)
  /\ ((th < 24)%N -> (t_dt (va_until v) = moment at_ th 0 <-> by_tomorrow t at_))
  /\ (th = 24%N -> (t_dt (va_until v) = moment ae 0 0 <-> by_tomorrow t at_)).
Proof.
  intros t fd fh td th nx nn af at_ ae v R H1 H2 H3 H4 Nx Nn Rx Rn Ff Ft Ae E.
  destruct (picked t (Z.of_N fd) R) as (bf & Pf). destruct (picked t (Z.of_N td) R) as (bt & Pt).
  assert (Rf := picked_real _ _ _ _ R Pf Nx Rx). assert (Rt := picked_real _ _ _ _ R Pt Nx Rx).
  assert (B : exists be, day_after bt be /\ real be).
  { destruct Pt as [[_ ->]|[_ A]]; [exists nx; auto|]. rewrite (after_fun _ _ _ A Nx). exists nn. auto. }
  destruct B as (be & Be & Re).
  destruct (valid_any t fd fh td th bf bt be R H1 H2 H3 H4 Pf Pt Rf Rt Be (fun _ => Re)) as (v' & E' & _ & A & B & C).
  rewrite E in E'. injection E' as <-.
  assert (Qf := right_day t _ af bf R Ff Pf). assert (Qt := right_day t _ at_ bt R Ft Pt).
  split; [|split].
  - rewrite A, <- Qf. split; [apply moment_inj|congruence].
  - intro L. rewrite (B L), <- Qt. split; [apply moment_inj|congruence].
  - intro L. rewrite (C L), <- Qt. split.
    + intro M. apply moment_inj in M. subst be. apply (after_inj _ _ _ (real_ok _ Rt) (first_ok _ _ _ R Ft) Be Ae).
    + intro M. subst at_. rewrite (after_fun _ _ _ Be Ae). reflexivity.
Qed.

Lemma temp_right : forall t (mx neg : bool) n d h b nx m v, real_time t ->
  (n < 100)%N -> (1 <= d <= 31)%N -> (h <= 23)%N ->
  day_after (date_of t) nx -> real nx -> first_with_day (date_of t) (Z.of_N d) b ->
  re_match r_T_TEMPERATURE (taf_temp_code mx neg n d h) = Some m -> taf_temp_new m t = Ok v ->
  (t_dt (tt_time v) = moment b h 0 <-> by_tomorrow t b).
Proof.
  intros t mx neg n d h b nx m v R Hn Hd Hh Nx Rx F Em Ev.
  destruct (picked t (Z.of_N d) R) as (c & P). assert (Rc := picked_real _ _ _ _ R P Nx Rx).
  destruct (taf_temp_any t mx neg n d h c [] R (fun H => H) Hn Hd Hh P Rc) as (m' & v' & Em' & _ & Ev' & _ & _ & T).
  rewrite app_nil_r in Em'. rewrite Em in Em'. injection Em' as <-. rewrite Ev in Ev'. injection Ev' as <-.
  rewrite T, <- (right_day t _ b c R F P). split; [apply moment_inj|congruence].
Qed.

(** ** Trend periods *)

Lemma set_minute : forall w mi, real_time w -> 0 <= mi <= 59 ->
  dt_add_minutes w (mi - dt_minute w) = Ok (mk_dt (dt_year w) (dt_month w) (dt_day w) (dt_hour w) mi).
Proof.
  intros [y m d h m0] mi (Rd & Rh & Rm) H. cbn [dt_year dt_month dt_day dt_hour dt_minute] in *.
  apply dt_add_minutes_ok.
  - split; [exact Rd|]. cbn [dt_year dt_month dt_day dt_hour dt_minute]. lia.
  - unfold dt_minutes. cbn [dt_year dt_month dt_day dt_hour dt_minute]. lia.
Qed.

Lemma period_any : forall i c e p h mi,
  let t := t_dt (ti_init i) in
  ti_code i = Some c -> t_dt (ti_end i) = e -> real_time t -> minutes_later 120 t e -> dt_year e <= 9999 ->
  (h <= 24)%N -> (mi <= 59)%N ->
  exists u m i', trend_moment t h mi u
    /\ re_match r_TREND_TIME_PERIOD (period_code p h mi) = Some m
    /\ add_period m i = Ok i' /\ ti_code i' = Some (c ++ py " " ++ period_code p h mi)
    /\ ti_init i' = ti_init i /\ ti_end i' = ti_end i /\ ti_trans i' = ti_trans i /\ period_set p u i i'.
Proof.
  intros i c e p h mi t Ec Ee R He Hy Hh Hm.
  destruct (period_captures p h mi Hh Hm) as (m & Em & Es & Hc).
  destruct (steps_split _ _ 60 60 _ _ He) as (a & S1 & _).
  destruct (between 120 60 t e a R He Hy ltac:(lia) S1) as [Ra Ma].
  destruct (between 120 120 t e e R He Hy (le_n _) He) as [Re Me].
  assert (P : exists u, trend_moment t h mi u /\ period_time i (Z.of_N h) (Z.of_N mi) = Ok u).
  { unfold period_time. fold t. rewrite Ee. unfold dt_add_hours.
    rewrite (dt_add_minutes_ok t (1 * 60) a Ra) by lia. cbn [bind].
    destruct (Z.eqb_spec (Z.of_N h) (dt_hour t)) as [E1|E1].
    - eexists. split; [|apply set_minute; [exact R|lia]].
      exists a, e. split; [exact S1|]. split; [exact He|]. exists t. split; [left; auto|reflexivity].
    - destruct (Z.eqb_spec (Z.of_N h) (dt_hour a)) as [E2|E2].
      + eexists. split; [|apply set_minute; [exact Ra|lia]].
        exists a, e. split; [exact S1|]. split; [exact He|]. exists a. split; [right; left; auto|reflexivity].
      + eexists. split; [|apply set_minute; [exact Re|lia]].
        exists a, e. split; [exact S1|]. split; [exact He|]. exists e. split; [right; right; auto|reflexivity]. }
  destruct P as (u & Tu & P). exists u, m.
  unfold add_period. rewrite Ec. captured Hc ["prefix"; "hour"; "min"].
  change (lookup "prefix" (period_text p h mi)) with (Some (period_prefix p)).
  change (lookup "hour" (period_text p h mi)) with (Some (digits 2 h)).
  change (lookup "min" (period_text p h mi)) with (Some (digits 2 mi)).
  unfold int_of_opt. rewrite !int_digits by (try lia; change (10 ^ N.of_nat 2)%N with 100%N; lia).
  cbn [bind]. rewrite P, Es. cbn [bind]. destruct p; cbn [period_prefix].
  - change (opt_str_eqb (Some (py "FM")) (py "FM")) with true. cbv iota.
    eexists. split; [exact Tu|]. split; [exact Em|]. split; [reflexivity|]. cbn. repeat split; reflexivity.
  - change (opt_str_eqb (Some (py "TL")) (py "FM")) with false.
    change (opt_str_eqb (Some (py "TL")) (py "TL")) with true. cbv iota.
    eexists. split; [exact Tu|]. split; [exact Em|]. split; [reflexivity|]. cbn. repeat split; reflexivity.
  - change (opt_str_eqb (Some (py "AT")) (py "FM")) with false.
    change (opt_str_eqb (Some (py "AT")) (py "TL")) with false. cbv iota.
    eexists. split; [exact Tu|]. split; [exact Em|]. split; [reflexivity|]. cbn. repeat split; try reflexivity.
    eexists. split; reflexivity.
Qed.

(** ** Covers *)

Lemma cover_first : forallb (fun q => span_is q "cover" 0 2 || span_is q "cover" 0 3) (cpaths r_CLOUD) = true.
Proof. vm_compute. reflexivity. Qed.

Lemma cover_begins : forall g m, re_match r_CLOUD g = Some m ->
  exists c t, group m "cover" = Some c /\ g = c ++ t /\ (In c cover_words \/ c = py "0VC").
Proof.
  intros g m M. pose proof cloud_checks as C. apply andb_prop in C. destruct C as [C _]. apply andb_prop in C. destruct C as [F _].
  destruct (path_check r_CLOUD g m _ F M cover_first) as (q & x & t & P & Fo).
  assert (G : exists k, group m "cover" = Some (substr x 0 k)).
  { apply orb_prop in P. destruct P as [P|P]; eexists; exact (span_is_group _ _ _ _ _ _ _ _ Fo P). }
  destruct G as (k & G). exists (substr x 0 k), (skipn k x ++ t). split; [exact G|]. split.
  - destruct Fo as (-> & _). unfold substr. rewrite skipn_O, Nat.sub_0_r, app_assoc, firstn_skipn. reflexivity.
  - exact (cover_cases g m _ M G).
Qed.

Lemma cover_known : forall g m c, re_match r_CLOUD g = Some m -> cloud_from_metar (Some m) = Ok c ->
  (cl_cover c = None <-> exists t, g = py "0VC" ++ t).
Proof.
  intros g m c M E. destruct (cover_begins g m M) as (cv & t & Ec & Eg & W).
  assert (Cv : cl_cover c = assoc cv SKY_COVER).
  { unfold cloud_from_metar in E. rewrite Ec in E. cbv zeta in E.
    destruct (group m "height") as [h|]; [|injection E as <-; reflexivity].
    destruct (str_eqb h (py "///")); [injection E as <-; reflexivity|].
    destruct (float_of_str (h ++ py "00")) as [x|ex]; [|discriminate E]. cbn [bind] in E. injection E as <-. reflexivity. }
  rewrite Cv. destruct W as [I| ->].
  - split.
    + intro N. exfalso. unfold cover_words in I. cbn [In] in I.
      repeat (destruct I as [<-|I]; [vm_compute in N; discriminate N|]). exact I.
    + intros (u & U). exfalso. rewrite Eg in U. unfold cover_words in I. cbn [In] in I.
      repeat (destruct I as [<-|I]; [discriminate U|]). exact I.
  - split; [intros _; exists t; exact Eg|reflexivity].
Qed.
