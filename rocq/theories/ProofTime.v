(** * Proofs: report times, trend periods, forecast validity *)
From Coq Require Import String Ascii.
From Coq Require Import List NArith ZArith Bool Lia.
From Verif Require Import PyBase PyRegex AeroRegex PyFloat PyTime Utils Base MetarGroups Trend Taf
  SpecNum SpecTime SpecTaf SymRegex SymFirst ReprFacts FloatFacts SpecGroups ProofGroups ProofValues ProofValues3 TimeFacts.
Import ListNotations.
Local Open Scope string_scope.
Local Open Scope Z_scope.
Local Open Scope list_scope.

(** ** C30: report time *)

Definition time_text (d h mi : N) : text :=
  [("day", digits 2 d); ("hour", digits 2 h); ("min", digits 2 mi); ("", py "Z")].
Definition time_shape (d h mi : N) : shape :=
  [("day", from1 3 1 d); ("hour", upto2 2 4 h); ("min", sym60); ("", lit "Z")].

Lemma time_text_code : forall d h mi, tcode (time_text d h mi) = stamp_code d h mi.
Proof. reflexivity. Qed.

Lemma time_captures : forall d h mi, (1 <= d <= 31)%N -> (h <= 24)%N -> (mi <= 59)%N ->
  exists m, re_match r_TIME (stamp_code d h mi) = Some m /\ m_string m = stamp_code d h mi
    /\ forall n, In n ["day"; "hour"; "min"] -> group m n = lookup n (time_text d h mi).
Proof.
  intros d h mi Hd Hh Hm. rewrite <- time_text_code.
  apply (captures r_TIME _ _ (time_shape d h mi)).
  - unfold time_text, time_shape. auto 8 with inst.
  - unfold time_shape, from1, upto2.
    destruct (d <? 10)%N; destruct (d <? 10 * 3)%N; destruct (h <? 10 * 2)%N; vm_compute; reflexivity.
Qed.

(** The text given to strptime. *)
Definition stamp_text (y mo d h mi : N) : text :=
  [("Y", digits 4 y); ("m", digits 2 mo); ("d", digits 2 d); ("H", digits 2 h); ("M", digits 2 mi)].

Lemma inst_1_12 : forall n, (1 <= n <= 12)%N -> inst (digits 2 n) (from1 1 2 n).
Proof.
  intros n H. apply inst_b_sound.
  assert (E : ((n =? 0) || inst_b (digits 2 n) (from1 1 2 n))%N%bool = true).
  { apply (upto_forall 13 (fun n => (n =? 0) || inst_b (digits 2 n) (from1 1 2 n))%N%bool);
      [vm_compute; reflexivity|lia]. }
  apply orb_true_iff in E. destruct E as [E|E]; auto. apply N.eqb_eq in E. lia.
Qed.
#[local] Hint Resolve inst_1_12 : inst.

Lemma stamp_captures : forall y mo d h mi, (1 <= mo <= 12)%N -> (1 <= d <= 31)%N -> (h <= 23)%N -> (mi <= 59)%N ->
  exists m, re_match r_STRPTIME (tcode (stamp_text y mo d h mi)) = Some m
    /\ m_string m = tcode (stamp_text y mo d h mi) /\ m_end m = 12%nat
    /\ forall n, In n ["Y"; "m"; "d"; "H"; "M"] -> group m n = lookup n (stamp_text y mo d h mi).
Proof.
  intros y mo d h mi Hmo Hd Hh Hm.
  apply (captures1 r_STRPTIME _ _ _
    [("Y", dsym 4); ("m", from1 1 2 mo); ("d", from1 3 1 d); ("H", upto2 2 3 h); ("M", sym60)]).
  - unfold stamp_text. auto 10 with inst.
  - unfold from1, upto2.
    change (10 * 1)%N with 10%N; destruct (mo <? 10)%N; destruct (d <? 10)%N; destruct (d <? 10 * 3)%N;
      destruct (h <? 10 * 2)%N; vm_compute; reflexivity.
Qed.

Lemma stamp_24 : forall y mo d mi, (1 <= mo <= 12)%N -> (1 <= d <= 31)%N -> (mi <= 59)%N ->
  exists m, re_match r_STRPTIME (tcode (stamp_text y mo d 24 mi)) = Some m /\ m_end m = 11%nat.
Proof.
  intros y mo d mi Hmo Hd Hm.
  destruct (captures1 r_STRPTIME [] 11 (stamp_text y mo d 24 mi)
    [("Y", dsym 4); ("m", from1 1 2 mo); ("d", from1 3 1 d); ("H", lit "24"); ("M", sym60)])
    as (m & Em & _ & Ee & _); [| |exists m; auto].
  - unfold stamp_text. change (digits 2 24) with (py "24"). auto 10 with inst.
  - unfold from1, upto2.
    change (10 * 1)%N with 10%N; destruct (mo <? 10)%N; destruct (d <? 10)%N; destruct (d <? 10 * 3)%N;
      vm_compute; reflexivity.
Qed.

Lemma lstrip_digits : forall k n, (1 <= k)%nat -> lstrip (digits k n) = digits k n.
Proof.
  intros k n Hk. destruct (digits_cons k n Hk) as (c & s & E). rewrite E.
  assert (D := digits_are k n). rewrite E in D. inversion D as [|c0 s0 Hc _]; subst.
  cbn [lstrip]. replace (is_space c) with false; [reflexivity|].
  apply dig_cases in Hc. repeat (destruct Hc as [<-|Hc]; [reflexivity|]). destruct Hc.
Qed.

Lemma int_lstrip_digits : forall k n, (1 <= k)%nat -> (n < 10 ^ N.of_nat k)%N ->
  int_lstrip (Some (digits k n)) = Ok (Z.of_N n).
Proof. intros k n Hk Hn. unfold int_lstrip. rewrite lstrip_digits by exact Hk. apply int_digits; assumption. Qed.

Lemma stamp_len : forall y mo d h mi, length (tcode (stamp_text y mo d h mi)) = 12%nat.
Proof. intros. unfold tcode, stamp_text. cbn [map concat snd]. rewrite !app_length, !digits_length. reflexivity. Qed.

Lemma strptime_ok : forall y mo d h mi, (y < 10000)%N -> (1 <= mo <= 12)%N -> (1 <= d <= 31)%N -> (h <= 23)%N ->
  (mi <= 59)%N ->
  strptime (tcode (stamp_text y mo d h mi))
  = if valid_date (Z.of_N y) (Z.of_N mo) (Z.of_N d)
    then Ok (mk_dt (Z.of_N y) (Z.of_N mo) (Z.of_N d) (Z.of_N h) (Z.of_N mi)) else Raise ValueError.
Proof.
  intros y mo d h mi Hy Hmo Hd Hh Hm. unfold strptime.
  destruct (stamp_captures y mo d h mi Hmo Hd Hh Hm) as (m & Em & _ & Ee & Hc).
  rewrite Em, Ee, stamp_len. cbn [Nat.eqb].
  captured Hc ["Y"; "m"; "d"; "H"; "M"].
  change (lookup "Y" (stamp_text y mo d h mi)) with (Some (digits 4 y)).
  change (lookup "m" (stamp_text y mo d h mi)) with (Some (digits 2 mo)).
  change (lookup "d" (stamp_text y mo d h mi)) with (Some (digits 2 d)).
  change (lookup "H" (stamp_text y mo d h mi)) with (Some (digits 2 h)).
  change (lookup "M" (stamp_text y mo d h mi)) with (Some (digits 2 mi)).
  rewrite (int_lstrip_digits 4) by (try lia; change (10 ^ N.of_nat 4)%N with 10000%N; lia).
  rewrite !(int_lstrip_digits 2) by (try lia; change (10 ^ N.of_nat 2)%N with 100%N; lia).
  reflexivity.
Qed.

Lemma strptime_24 : forall y mo d mi, (1 <= mo <= 12)%N -> (1 <= d <= 31)%N -> (mi <= 59)%N ->
  strptime (tcode (stamp_text y mo d 24 mi)) = Raise ValueError.
Proof.
  intros y mo d mi Hmo Hd Hm. unfold strptime.
  destruct (stamp_24 y mo d mi Hmo Hd Hm) as (m & Em & Ee). rewrite Em, Ee, stamp_len. reflexivity.
Qed.

Lemma Z_str_year : forall y, (1000 <= y <= 9999)%N -> Z_str (Z.of_N y) = digits 4 y.
Proof.
  intros y H. replace (Z_str (Z.of_N y)) with (N_str y) by (destruct y; reflexivity).
  destruct (N_str_digits y) as (j & E & Hj & Hlt & Hmin). rewrite E. f_equal.
  assert (Hj' : j = 1%nat \/ j = 2%nat \/ j = 3%nat \/ j = 4%nat \/ (4 < j)%nat) by lia.
  destruct Hj' as [->|[->|[->|[->|Hj']]]]; try reflexivity.
  - change (10 ^ N.of_nat 1)%N with 10%N in Hlt. lia.
  - change (10 ^ N.of_nat 2)%N with 100%N in Hlt. lia.
  - change (10 ^ N.of_nat 3)%N with 1000%N in Hlt. lia.
  - destruct Hmin as [[-> _]|Hmin]; [lia|].
    assert (10 ^ 4 <= 10 ^ N.of_nat (j - 1))%N by (apply N.pow_le_mono_r; lia).
    change (10 ^ 4)%N with 10000%N in H0. lia.
Qed.

Lemma Z_pad_month : forall n, (n <= 99)%N -> Z_pad 2 (Z.of_N n) = digits 2 n.
Proof.
  intros n H. replace (Z_pad 2 (Z.of_N n)) with (zfill_N 2 n) by (destruct n; reflexivity).
  apply zfill_digits; [lia|]. change (10 ^ N.of_nat 2)%N with 100%N. lia.
Qed.

Lemma nou_time : forall d h mi, nou (stamp_code d h mi).
Proof. intros. unfold stamp_code. auto 8 with nou. Qed.

Lemma time_ok : forall e y mo d h mi,
  1000 <= y <= 9999 -> 1 <= mo <= 12 -> (1 <= d <= 31)%N -> (h <= 24)%N -> (mi <= 59)%N ->
  time_from_metar e (re_match r_TIME (stamp_code d h mi)) (Some y) (Some mo)
  = if valid_date y mo (Z.of_N d) && (h <? 24)%N
    then Ok (mk_time (Some (stamp_code d h mi)) (mk_dt y mo (Z.of_N d) (Z.of_N h) (Z.of_N mi)))
    else Raise ValueError.
Proof.
  intros e y mo d h mi Hy Hmo Hd Hh Hm.
  destruct (time_captures d h mi Hd Hh Hm) as (m & Em & Es & Hc). rewrite Em.
  unfold time_from_metar. captured Hc ["day"; "hour"; "min"].
  unfold time_new. rewrite Es, group_code_id by apply nou_time.
  change (opt_default (py "01") (lookup "day" (time_text d h mi))) with (digits 2 d).
  change (opt_default (py "00") (lookup "hour" (time_text d h mi))) with (digits 2 h).
  change (opt_default (py "00") (lookup "min" (time_text d h mi))) with (digits 2 mi).
  cbn [opt_default].
  remember (Z.to_N y) as y' eqn:Ey. remember (Z.to_N mo) as mo' eqn:Emo.
  assert (y = Z.of_N y') by lia. assert (mo = Z.of_N mo') by lia. subst y mo. clear Ey Emo.
  rewrite Z_str_year, Z_pad_month by lia.
  replace (digits 4 y' ++ digits 2 mo' ++ digits 2 d ++ digits 2 h ++ digits 2 mi)
    with (tcode (stamp_text y' mo' d h mi))
    by (unfold tcode, stamp_text; cbn [map concat snd]; rewrite app_nil_r; reflexivity).
  destruct (N.ltb_spec h 24) as [L|L].
  - rewrite strptime_ok by lia. destruct (valid_date (Z.of_N y') (Z.of_N mo') (Z.of_N d)); reflexivity.
  - assert (h = 24%N) by lia. subst h. rewrite strptime_24 by lia. rewrite andb_false_r. reflexivity.
Qed.

(** ** C32: trend periods *)

Lemma period_time_ok : forall i e u k h mi,
  let t := t_dt (ti_init i) in
  t_dt (ti_end i) = e -> real_time t -> minutes_later 120 t e -> dt_year e <= 9999 ->
  (k <= 120)%nat -> minutes_later k t u ->
  (h = dt_hour u \/ (h = 24 /\ dt_hour u = 0 /\ dt_minute u = 0 /\ dt_hour t = 22)) -> mi = dt_minute u ->
  period_time i h mi = Ok u.
Proof.
  intros i e u k h mi t Ee R He Hy Hk Hu Hh Hmi. unfold period_time. fold t. rewrite Ee.
  destruct (between 120 k t e u R He Hy Hk Hu) as [Ru Mu].
  destruct (between 120 120 t e e R He Hy (le_n _) He) as [Re Me].
  destruct (steps_split _ _ 60 60 _ _ He) as (mid & S1 & _).
  destruct (between 120 60 t e mid R He Hy ltac:(lia) S1) as [Rm Mm].
  unfold dt_add_hours. rewrite (dt_add_minutes_ok t (1 * 60) mid Rm) by lia.
  assert (Du := minute_of_day u Ru). assert (Dt := minute_of_day t R).
  assert (De := minute_of_day e Re). assert (Dm := minute_of_day mid Rm).
  rewrite Mu in Du. rewrite Mm in Dm. rewrite Me in De.
  assert (Ru' := Ru). destruct Ru as (Rud & Ruh & Rum). destruct R as (Rtd & Rth & Rtm).
  destruct Re as (Red & Reh & Rem). destruct Rm as (Rmd & Rmh & Rmm).
  cbn [bind]. subst mi.
  destruct (Z.eqb_spec h (dt_hour t)) as [E1|E1].
  - apply dt_add_minutes_ok; [exact Ru'|]. clear - Hh Hk Ruh Rum Rth Rtm Reh Rem Rmh Rmm Mu Me Mm Du Dt De Dm E1. lia.
  - destruct (Z.eqb_spec h (dt_hour mid)) as [E2|E2].
    + apply dt_add_minutes_ok; [exact Ru'|]. clear - Hh Hk Ruh Rum Rth Rtm Reh Rem Rmh Rmm Mu Me Mm Du Dt De Dm E1 E2. lia.
    + apply dt_add_minutes_ok; [exact Ru'|]. clear - Hh Hk Ruh Rum Rth Rtm Reh Rem Rmh Rmm Mu Me Mm Du Dt De Dm E1 E2. lia.
Qed.

Definition period_text (p : period_kind) (h mi : N) : text :=
  [("prefix", period_prefix p); ("hour", digits 2 h); ("min", digits 2 mi)].

Lemma period_captures : forall p h mi, (h <= 24)%N -> (mi <= 59)%N ->
  exists m, re_match r_TREND_TIME_PERIOD (period_code p h mi) = Some m
    /\ m_string m = period_code p h mi
    /\ forall n, In n ["prefix"; "hour"; "min"] -> group m n = lookup n (period_text p h mi).
Proof.
  intros p h mi Hh Hm.
  assert (E : period_code p h mi = tcode (period_text p h mi))
    by (unfold tcode, period_code, period_text; cbn [map concat snd]; rewrite app_nil_r; reflexivity).
  rewrite E.
  apply (captures r_TREND_TIME_PERIOD _ _
    [("prefix", map (fun c => [c]) (period_prefix p)); ("hour", upto2 2 4 h); ("min", sym60)]).
  - unfold period_text. repeat apply fits_cons; auto with inst. destruct p; apply inst_lit.
  - unfold upto2. destruct p; destruct (h <? 10 * 2)%N; vm_compute; reflexivity.
Qed.

Lemma add_period_ok : forall i c e u k p h mi,
  let t := t_dt (ti_init i) in
  ti_code i = Some c -> t_dt (ti_end i) = e -> real_time t -> minutes_later 120 t e -> dt_year e <= 9999 ->
  (k <= 120)%nat -> minutes_later k t u ->
  (Z.of_N h = dt_hour u \/ (h = 24%N /\ dt_hour u = 0 /\ dt_minute u = 0 /\ dt_hour t = 22)) ->
  Z.of_N mi = dt_minute u ->
  exists m i', re_match r_TREND_TIME_PERIOD (period_code p h mi) = Some m
    /\ add_period m i = Ok i' /\ ti_code i' = Some (c ++ py " " ++ period_code p h mi)
    /\ ti_init i' = ti_init i /\ ti_end i' = ti_end i /\ ti_trans i' = ti_trans i /\ period_set p u i i'.
Proof.
  intros i c e u k p h mi t Ec Ee R He Hy Hk Hu Hh Hmi.
  destruct (between 120 k t e u R He Hy Hk Hu) as [Ru _]. destruct Ru as (_ & Ruh & Rum).
  destruct (period_captures p h mi) as (m & Em & Es & Hc); [lia|lia|].
  exists m.
  assert (P : period_time i (Z.of_N h) (Z.of_N mi) = Ok u).
  { eapply period_time_ok; try eassumption. destruct Hh as [Hh|(-> & Hh)]; [left|right]; auto. }
  unfold add_period. rewrite Ec. captured Hc ["prefix"; "hour"; "min"].
  change (lookup "prefix" (period_text p h mi)) with (Some (period_prefix p)).
  change (lookup "hour" (period_text p h mi)) with (Some (digits 2 h)).
  change (lookup "min" (period_text p h mi)) with (Some (digits 2 mi)).
  unfold int_of_opt. rewrite !int_digits by (try lia; change (10 ^ N.of_nat 2)%N with 100%N; lia).
  cbn [bind]. rewrite P, Es. cbn [bind]. destruct p; cbn [period_prefix].
  - change (opt_str_eqb (Some (py "FM")) (py "FM")) with true. cbv iota.
    eexists. split; [exact Em|]. split; [reflexivity|]. cbn. repeat split; reflexivity.
  - change (opt_str_eqb (Some (py "TL")) (py "FM")) with false.
    change (opt_str_eqb (Some (py "TL")) (py "TL")) with true. cbv iota.
    eexists. split; [exact Em|]. split; [reflexivity|]. cbn. repeat split; reflexivity.
  - change (opt_str_eqb (Some (py "AT")) (py "FM")) with false.
    change (opt_str_eqb (Some (py "AT")) (py "TL")) with false. cbv iota.
    eexists. split; [exact Em|]. split; [reflexivity|]. cbn. repeat split; try reflexivity.
    eexists. split; reflexivity.
Qed.

(** A fresh indicator covers the two hours from the report time. *)
Lemma trend_ind_ok : forall w t e, In w ["TEMPO"; "BECMG"] -> real_time t -> minutes_later 120 t e -> dt_year e <= 9999 ->
  exists i, trend_ind_new (re_match r_CHANGE_INDICATOR (py w)) t = Ok i /\ ti_code i = Some (py w)
    /\ t_dt (ti_init i) = t /\ t_dt (ti_end i) = e /\ t_dt (ti_from i) = t /\ t_dt (ti_until i) = e /\ ti_at i = None.
Proof.
  intros w t e Hw R He Hy. unfold trend_ind_new.
  unfold dt_add_hours. change (2 * 60) with (Z.of_nat 120). rewrite (dt_add_minutes_later _ _ _ He R Hy).
  destruct Hw as [<-|[<-|[]]];
    (match goal with |- context [change_indicator_new ?m] =>
       let v := eval vm_compute in (change_indicator_new m) in
       replace (change_indicator_new m) with v by (vm_compute; reflexivity) end);
    eexists; (split; [reflexivity|]); cbn; repeat split; reflexivity.
Qed.

(** ** C34: the start of an FM change *)

Lemma at_date_of : forall t, at_date (date_of t) (dt_hour t) (dt_minute t) = t.
Proof. intros [y m d h mi]. reflexivity. Qed.

(** Sixty-two steps are enough: the loop finds the first such date, or runs
    over the last date [datetime] can hold. *)
Lemma roll_to_day_ok : forall k fuel day t, real_time t -> (k <= fuel)%nat ->
  snd (days_on k (date_of t)) = day ->
  (forall j, (j < k)%nat -> snd (days_on j (date_of t)) <> day) ->
  roll_to_day fuel day t
  = if year_of (days_on k (date_of t)) <=? 9999
    then Ok (at_date (days_on k (date_of t)) (dt_hour t) (dt_minute t)) else Raise OverflowError.
Proof.
  induction k as [|k IH]; intros fuel day t R Hf E Hm.
  - cbn [days_on] in *. destruct t as [y m d h mi]. cbn in E. subst day.
    assert (Y : y <= 9999) by (destruct R as [R _]; apply real_date_range in R; cbn in R; lia).
    apply Z.leb_le in Y. change (year_of (date_of (mk_dt y m d h mi))) with y. rewrite Y.
    unfold at_date, date_of. cbn [dt_year dt_month dt_day dt_hour dt_minute].
    destruct fuel; cbn [roll_to_day dt_day]; rewrite Z.eqb_refl; reflexivity.
  - destruct fuel as [|fuel]; [lia|]. assert (H0 := Hm 0%nat ltac:(lia)). cbn [days_on] in H0.
    destruct t as [y m d h mi]. unfold date_of in *.
    cbn [dt_year dt_month dt_day dt_hour dt_minute snd roll_to_day] in *.
    replace (day =? d) with false by (symmetry; apply Z.eqb_neq; congruence).
    destruct R as (Rd & Rh & Rm). cbn [dt_year dt_month dt_day dt_hour dt_minute] in *.
    rewrite dt_add_day by assumption. cbn [days_on] in *.
    assert (RR := real_date_range _ _ _ Rd). destruct RR as (Hy & Hmo & Hd).
    assert (T := tomorrow_ok y m d Hmo Hd). assert (OK := tomorrow_date_ok (y, m, d) (conj Hmo Hd)).
    destruct (tomorrow (y, m, d)) as [[y' m'] d'] eqn:ET. cbn [at_date dt_year].
    destruct (Z.leb_spec y' 9999) as [L|G].
    + cbn [bind].
      rewrite (IH fuel day (mk_dt y' m' d' h mi)).
      * reflexivity.
      * repeat split; cbn; try lia; apply (day_after_real _ _ _ _ _ _ T Rd L).
      * lia.
      * exact E.
      * intros j Hj. assert (Hm' := Hm (S j) ltac:(lia)). cbn [days_on] in Hm'. rewrite ET in Hm'. exact Hm'.
    + cbn [bind]. assert (M := year_mono k _ OK). unfold year_of in *. cbn [fst] in M.
      replace (fst (fst (days_on k (y', m', d'))) <=? 9999) with false; [reflexivity|].
      symmetry. apply Z.leb_gt. lia.
Qed.

Lemma real_date_ok : forall t, real_time t -> date_ok (date_of t).
Proof. intros t [R _]. apply real_date_range in R. unfold date_ok, date_of. tauto. Qed.

Lemma roll_to_day_enough : forall day t, real_time t -> 1 <= day <= 31 ->
  exists b, first_with_day (date_of t) day b
    /\ forall fuel, (61 <= fuel)%nat ->
       roll_to_day fuel day t
       = if year_of b <=? 9999 then Ok (at_date b (dt_hour t) (dt_minute t)) else Raise OverflowError.
Proof.
  intros day t R Hd. assert (OK := real_date_ok t R).
  destruct (first_with_day_exists (date_of t) day OK Hd) as (k & Hk & E & Hm).
  exists (days_on k (date_of t)). split; [apply first_with_day_on; assumption|].
  intros fuel Hf. apply roll_to_day_ok; try assumption. lia.
Qed.

Definition fm_text (d h mi : N) : text :=
  [("", py "FM"); ("day", digits 2 d); ("hour", digits 2 h); ("minute", digits 2 mi)].

(** The pattern does not look at what follows the minutes. *)
Lemma fm_captures : forall d h mi rest, (1 <= d <= 31)%N -> (h <= 23)%N -> (mi <= 59)%N ->
  exists m, re_match r_T_CHANGE_INDICATOR (fm_code d h mi ++ rest) = Some m
    /\ m_string m = fm_code d h mi ++ rest
    /\ forall n, In n ["day"; "hour"; "minute"] -> group m n = lookup n (fm_text d h mi).
Proof.
  intros d h mi rest Hd Hh Hm.
  assert (E : fm_code d h mi = tcode (fm_text d h mi))
    by (unfold tcode, fm_code, fm_text; cbn [map concat snd]; rewrite app_nil_r; reflexivity).
  rewrite E. destruct (captures_more r_T_CHANGE_INDICATOR ["day"; "hour"; "minute"] 8 (fm_text d h mi)
    [("", lit "FM"); ("day", from1 3 1 d); ("hour", upto2 2 3 h); ("minute", sym60)] rest)
    as (m & A & B & _ & C); [| |exists m; auto].
  - unfold fm_text. auto 8 with inst.
  - unfold from1, upto2.
    destruct (d <? 10)%N; destruct (d <? 10 * 3)%N; destruct (h <? 10 * 2)%N; vm_compute; reflexivity.
Qed.

Lemma fm_ok : forall v d h mi rest, real_time (t_dt (va_from v)) -> (1 <= d <= 31)%N -> (h <= 23)%N -> (mi <= 59)%N ->
  exists b, first_with_day (date_of (t_dt (va_from v))) (Z.of_N d) b
    /\ if year_of b <=? 9999
       then exists i, taf_ind_new (re_match r_T_CHANGE_INDICATOR (fm_code d h mi ++ rest)) v = Ok i
              /\ t_dt (va_from (tc_valid i)) = moment b h mi /\ va_until (tc_valid i) = va_until v
              /\ tc_code i = Some (fm_code d h mi ++ rest)
       else taf_ind_new (re_match r_T_CHANGE_INDICATOR (fm_code d h mi ++ rest)) v = Raise OverflowError.
Proof.
  intros v d h mi rest R Hd Hh Hm.
  destruct (fm_captures d h mi rest Hd Hh Hm) as (m & Em & Es & Hc).
  destruct (roll_to_day_enough (Z.of_N d) (t_dt (va_from v)) R ltac:(lia)) as (b & F & Hr).
  exists b. split; [exact F|]. rewrite Em. unfold taf_ind_new. rewrite Es.
  change (starts_with (py "FM") (fm_code d h mi ++ rest)) with true. cbv iota.
  captured Hc ["day"; "hour"; "minute"].
  change (lookup "day" (fm_text d h mi)) with (Some (digits 2 d)).
  change (lookup "hour" (fm_text d h mi)) with (Some (digits 2 h)).
  change (lookup "minute" (fm_text d h mi)) with (Some (digits 2 mi)).
  unfold int_of_opt. rewrite !int_digits by (try lia; change (10 ^ N.of_nat 2)%N with 100%N; lia).
  cbn [bind]. rewrite (Hr 62%nat ltac:(lia)). destruct (year_of b <=? 9999); [|reflexivity]. cbn [bind].
  destruct b as [[y mo] d']. cbn [at_date].
  unfold dt_replace_hour. replace ((0 <=? Z.of_N h) && (Z.of_N h <=? 23)) with true
    by (symmetry; apply andb_true_iff; rewrite !Z.leb_le; lia).
  cbn [bind]. unfold dt_replace_minute. replace ((0 <=? Z.of_N mi) && (Z.of_N mi <=? 59)) with true
    by (symmetry; apply andb_true_iff; rewrite !Z.leb_le; lia).
  cbn [bind]. eexists. split; [reflexivity|]. cbn. repeat split; reflexivity.
Qed.

(** ** C33: validity *)

Definition valid_text (fd fh td th : N) : text :=
  [("fmday", digits 2 fd); ("fmhour", digits 2 fh); ("", py "/"); ("tlday", digits 2 td); ("tlhour", digits 2 th)].

Lemma valid_captures : forall fd fh td th, (1 <= fd <= 31)%N -> (fh <= 23)%N -> (1 <= td <= 31)%N -> (th <= 24)%N ->
  exists m, re_match r_T_VALID (valid_code fd fh td th) = Some m /\ m_string m = valid_code fd fh td th
    /\ forall n, In n ["fmday"; "fmhour"; "tlday"; "tlhour"] -> group m n = lookup n (valid_text fd fh td th).
Proof.
  intros fd fh td th H1 H2 H3 H4.
  assert (E : valid_code fd fh td th = tcode (valid_text fd fh td th))
    by (unfold tcode, valid_code, valid_text; cbn [map concat snd]; rewrite app_nil_r; reflexivity).
  rewrite E. apply (captures r_T_VALID _ _
    [("fmday", from1 3 1 fd); ("fmhour", upto2 2 3 fh); ("", lit "/"); ("tlday", from1 3 1 td); ("tlhour", upto2 2 4 th)]).
  - unfold valid_text. auto 10 with inst.
  - unfold from1, upto2.
    destruct (fd <? 10)%N; destruct (fd <? 10 * 3)%N; destruct (fh <? 10 * 2)%N;
    destruct (td <? 10)%N; destruct (td <? 10 * 3)%N; destruct (th <? 10 * 2)%N; vm_compute; reflexivity.
Qed.

(** The date the code picks: today or tomorrow. *)
Lemma pick_day : forall y m d h day b, real_date y m d -> 0 <= h < 24 ->
  first_with_day (y, m, d) day b -> (exists k, (k <= 1)%nat /\ days_later k (y, m, d) b) -> year_of b <= 9999 ->
  (if day =? d then Ok (mk_dt y m d h 0) else dt_add_days (mk_dt y m d h 0) 1) = Ok (at_date b h 0).
Proof.
  intros y m d h day b R Hh (j & Hj & Ej & Mj) (k & Hk & Kb) Y.
  assert (RR := real_date_range _ _ _ R). destruct RR as (Hy & Hm & Hd).
  assert (OK : date_ok (y, m, d)) by (split; assumption).
  assert (Dj : (j <= 1)%nat).
  { destruct (le_lt_dec j k) as [L|G]; [lia|]. exfalso. exact (Mj k b G Kb Ej). }
  destruct j as [|[|j]]; [| |lia].
  - inversion Hj; subst. cbn [snd]. rewrite Z.eqb_refl. reflexivity.
  - apply days_later_on in Hj; [|exact OK]. cbn [days_on] in Hj.
    assert (N0 := Mj 0%nat (y, m, d) ltac:(lia) ltac:(constructor)). cbn [snd] in N0.
    replace (day =? d) with false by (symmetry; apply Z.eqb_neq; congruence).
    rewrite dt_add_day by (assumption || lia). rewrite <- Hj.
    destruct b as [[y' m'] d']. cbn [at_date dt_year]. unfold year_of in Y. cbn in Y.
    apply Z.leb_le in Y. rewrite Y. reflexivity.
Qed.

Lemma valid_ok : forall t fd fh td th bf bt be, real_time t ->
  (1 <= fd <= 31)%N -> (fh <= 23)%N -> (1 <= td <= 31)%N -> (th <= 24)%N ->
  first_with_day (date_of t) (Z.of_N fd) bf -> first_with_day (date_of t) (Z.of_N td) bt ->
  (exists k, (k <= 1)%nat /\ days_later k (date_of t) bf) -> (exists k, (k <= 1)%nat /\ days_later k (date_of t) bt) ->
  year_of bf <= 9999 -> day_after bt be -> year_of be <= 9999 ->
  exists v, valid_from_taf (re_match r_T_VALID (valid_code fd fh td th)) t = Ok v
    /\ va_code v = Some (valid_code fd fh td th)
    /\ t_dt (va_from v) = moment bf fh 0
    /\ t_dt (va_until v) = (if (th =? 24)%N then moment be 0 0 else moment bt th 0).
Proof.
  intros t fd fh td th bf bt be R H1 H2 H3 H4 Ff Ft Kf Kt Yf Be Ye.
  destruct (valid_captures fd fh td th H1 H2 H3 H4) as (m & Em & Es & Hc). rewrite Em.
  unfold valid_from_taf. destruct t as [y mo d h mi]. destruct R as (Rd & Rh & Rm).
  unfold date_of in *. cbn [dt_year dt_month dt_day dt_hour dt_minute] in *.
  change (dt_replace_minute (mk_dt y mo d h mi) 0) with (Ok (mk_dt y mo d h 0)). cbn [bind].
  captured Hc ["fmday"; "fmhour"; "tlday"; "tlhour"].
  change (lookup "fmday" (valid_text fd fh td th)) with (Some (digits 2 fd)).
  change (lookup "fmhour" (valid_text fd fh td th)) with (Some (digits 2 fh)).
  change (lookup "tlday" (valid_text fd fh td th)) with (Some (digits 2 td)).
  change (lookup "tlhour" (valid_text fd fh td th)) with (Some (digits 2 th)).
  unfold int_of_opt. rewrite !int_digits by (try lia; change (10 ^ N.of_nat 2)%N with 100%N; lia).
  cbn [bind dt_day].
  assert (Yt : year_of bt <= 9999).
  { destruct bt as [[yt mt] dt'], be as [[ye me] de]. apply day_after_mono in Be. unfold year_of in *. cbn in *. lia. }
  rewrite (pick_day y mo d h _ bf Rd Rh Ff Kf Yf). cbn [bind].
  rewrite (pick_day y mo d h _ bt Rd Rh Ft Kt Yt). cbn [bind].
  assert (RR := real_date_range _ _ _ Rd). destruct RR as (Hy & Hm & Hd).
  assert (RT : let '(yt, mt, dt') := bt in real_date yt mt dt').
  { destruct Kt as (k & _ & Kt). apply days_later_on in Kt; [|split; assumption].
    assert (X : forall k x, date_ok x -> date_ok (days_on k x)).
    { clear. induction k as [|k IH]; intros x Hx; [exact Hx|]. apply IH. apply tomorrow_date_ok. exact Hx. }
    assert (O := X k (y, mo, d) (conj Hm Hd)). assert (M := year_mono k (y, mo, d) (conj Hm Hd)).
    rewrite <- Kt in *. destruct bt as [[yt mt] dt']. cbn in O, M. unfold year_of in Yt. cbn in Yt.
    apply real_date_intro; try apply O. unfold year_of in M. cbn in M. lia. }
  assert (U : (if Z.of_N th =? 24 then dt_add_days (at_date bt h 0) 1 else Ok (at_date bt h 0))
              = Ok (at_date (if (th =? 24)%N then be else bt) h 0)).
  { destruct (N.eqb_spec th 24) as [->|N24].
    - change (Z.of_N 24 =? 24) with true. cbv iota. destruct bt as [[yt mt] dt']. cbn [at_date].
      apply day_after_fun in Be. rewrite dt_add_day by (assumption || lia). rewrite <- Be.
      destruct be as [[ye me] de]. unfold year_of in Ye. cbn in Ye. apply Z.leb_le in Ye. cbn [at_date dt_year].
      rewrite Ye. reflexivity.
    - replace (Z.of_N th =? 24) with false by (symmetry; apply Z.eqb_neq; lia). reflexivity. }
  rewrite U. cbn [bind].
  assert (RH : forall x h', 0 <= h' <= 23 -> dt_replace_hour (at_date x h 0) h' = Ok (at_date x h' 0)).
  { intros [[a b] c] h' Hh'. unfold dt_replace_hour, at_date.
    replace ((0 <=? h') && (h' <=? 23)) with true by (symmetry; apply andb_true_iff; rewrite !Z.leb_le; lia).
    reflexivity. }
  rewrite RH by lia. cbn [bind].
  assert (TH : (if Z.of_N th =? 24 then 0 else Z.of_N th) = (if (th =? 24)%N then 0 else Z.of_N th)).
  { destruct (N.eqb_spec th 24) as [->|N24]; [reflexivity|].
    replace (Z.of_N th =? 24) with false by (symmetry; apply Z.eqb_neq; lia). reflexivity. }
  rewrite TH. rewrite RH by (destruct (N.eqb_spec th 24); lia). cbn [bind].
  eexists. split; [reflexivity|]. unfold valid_new. cbn [va_code va_from va_until time_at t_dt].
  rewrite Es, group_code_id by (unfold valid_code; auto 8 with nou).
  split; [reflexivity|]. split; [destruct bf as [[a b] c]; reflexivity|].
  destruct (th =? 24)%N; [destruct be as [[a b] c]|destruct bt as [[a b] c]]; reflexivity.
Qed.

(** ** Statements for the property file *)

Lemma first_real : forall t day b, real_time t -> first_with_day (date_of t) day b ->
  (real b <-> year_of b <= 9999).
Proof.
  intros t day b R (k & Hk & _). assert (OK := real_date_ok t R).
  apply days_later_on in Hk; [|exact OK].
  assert (X : forall k x, date_ok x -> date_ok (days_on k x)).
  { clear. induction k as [|k IH]; intros x Hx; [exact Hx|]. apply IH. apply tomorrow_date_ok. exact Hx. }
  assert (O := X k _ OK). assert (M := year_mono k _ OK). rewrite <- Hk in *.
  destruct R as [R _]. apply real_date_range in R. destruct R as (Y & _).
  destruct b as [[y m] d]. unfold real, year_of, date_of in *. cbn [fst] in *. split.
  - intro H. apply real_date_range in H. lia.
  - intro H. apply real_date_intro; try apply O. lia.
Qed.

Lemma report_time : forall e y mo d h mi,
  1000 <= y <= 9999 -> 1 <= mo <= 12 -> (1 <= d <= 31)%N -> (h <= 24)%N -> (mi <= 59)%N ->
  let r := time_from_metar e (re_match r_TIME (stamp_code d h mi)) (Some y) (Some mo) in
  (real_date y mo (Z.of_N d) /\ (h < 24)%N ->
     exists t, r = Ok t /\ t_code t = Some (stamp_code d h mi)
       /\ t_dt t = mk_dt y mo (Z.of_N d) (Z.of_N h) (Z.of_N mi))
  /\ (~ (real_date y mo (Z.of_N d) /\ (h < 24)%N) -> r = Raise ValueError).
Proof.
  intros e y mo d h mi Hy Hmo Hd Hh Hm r. unfold r. rewrite time_ok by assumption. split.
  - intros [R L]. apply valid_date_spec in R. apply N.ltb_lt in L. rewrite R, L. cbn [andb].
    eexists. split; [reflexivity|]. split; reflexivity.
  - intro H. destruct (valid_date y mo (Z.of_N d)) eqn:V; [|reflexivity].
    destruct (N.ltb_spec h 24) as [L|L]; [|reflexivity]. exfalso. apply H. split; [|exact L].
    apply valid_date_spec. exact V.
Qed.

Lemma fm_start : forall v d h mi rest, real_time (t_dt (va_from v)) -> (1 <= d <= 31)%N -> (h <= 23)%N -> (mi <= 59)%N ->
  exists b, first_with_day (date_of (t_dt (va_from v))) (Z.of_N d) b
    /\ (real b -> exists i, taf_ind_new (re_match r_T_CHANGE_INDICATOR (fm_code d h mi ++ rest)) v = Ok i
          /\ tc_code i = Some (fm_code d h mi ++ rest)
          /\ t_dt (va_from (tc_valid i)) = moment b h mi /\ va_until (tc_valid i) = va_until v)
    /\ (~ real b -> taf_ind_new (re_match r_T_CHANGE_INDICATOR (fm_code d h mi ++ rest)) v = Raise OverflowError).
Proof.
  intros v d h mi rest R Hd Hh Hm. destruct (fm_ok v d h mi rest R Hd Hh Hm) as (b & F & H).
  exists b. split; [exact F|]. rewrite (first_real _ _ _ R F).
  destruct (Z.leb_spec (year_of b) 9999) as [L|L]; split; intro K; try lia.
  - destruct H as (i & E & A & B & C). exists i. auto.
  - exact H.
Qed.

Lemma valid_period : forall t fd fh td th bf bt be, real_time t ->
  (1 <= fd <= 31)%N -> (fh <= 23)%N -> (1 <= td <= 31)%N -> (th <= 24)%N ->
  first_with_day (date_of t) (Z.of_N fd) bf -> first_with_day (date_of t) (Z.of_N td) bt ->
  (exists k, (k <= 1)%nat /\ days_later k (date_of t) bf) -> (exists k, (k <= 1)%nat /\ days_later k (date_of t) bt) ->
  real bf -> day_after bt be -> real be ->
  exists v, valid_from_taf (re_match r_T_VALID (valid_code fd fh td th)) t = Ok v
    /\ va_code v = Some (valid_code fd fh td th)
    /\ t_dt (va_from v) = moment bf fh 0
    /\ ((th < 24)%N -> t_dt (va_until v) = moment bt th 0)
    /\ (th = 24%N -> t_dt (va_until v) = moment be 0 0).
Proof.
  intros t fd fh td th bf bt be R H1 H2 H3 H4 Ff Ft Kf Kt Rf Be Re.
  assert (Y : forall x, real x -> year_of x <= 9999).
  { intros [[a b] c] H. apply real_date_range in H. unfold year_of. cbn. lia. }
  destruct (valid_ok t fd fh td th bf bt be) as (v & E & A & B & C); auto.
  exists v. split; [exact E|]. split; [exact A|]. split; [exact B|]. rewrite C.
  destruct (N.eqb_spec th 24); split; intro K; try lia; reflexivity.
Qed.

Lemma roll_enough : forall day t fuel, real_time t -> 1 <= day <= 31 -> (61 <= fuel)%nat ->
  roll_to_day fuel day t = roll_to_day 61 day t.
Proof.
  intros day t fuel R Hd Hf. destruct (roll_to_day_enough day t R Hd) as (b & _ & H).
  rewrite (H fuel Hf), (H 61%nat (le_n _)). reflexivity.
Qed.

Lemma trend_period_midnight : exists t e u i m i',
  real_time t /\ minutes_later 120 t e /\ minutes_later 30 t u /\ u = mk_dt 2024 1 1 0 0
  /\ trend_ind_new (re_match r_CHANGE_INDICATOR (py "TEMPO")) t = Ok i
  /\ re_match r_TREND_TIME_PERIOD (py "TL2400") = Some m /\ add_period m i = Ok i'
  /\ t_dt (ti_until i') = mk_dt 2024 1 1 1 0.
Proof.
  exists (mk_dt 2023 12 31 23 30), (mk_dt 2024 1 1 1 30), (mk_dt 2024 1 1 0 0).
  eexists _, _, _. split; [apply valid_dt_spec; reflexivity|].
  split; [apply later_valid; vm_compute; reflexivity|]. split; [apply later_valid; vm_compute; reflexivity|].
  split; [reflexivity|]. split; [vm_compute; reflexivity|]. split; [vm_compute; reflexivity|].
  split; vm_compute; reflexivity.
Qed.

Lemma valid_two_days : exists t v,
  real_time t /\ first_with_day (date_of t) 2 (2023, 7, 2)
  /\ valid_from_taf (re_match r_T_VALID (valid_code 1 0 2 6)) t = Ok v
  /\ t_dt (va_until v) = mk_dt 2023 7 1 6 0.
Proof.
  exists (mk_dt 2023 6 30 23 0). eexists. split; [apply valid_dt_spec; reflexivity|].
  split; [apply (first_valid 2); vm_compute; reflexivity|]. split; vm_compute; reflexivity.
Qed.

Lemma malformed_from : exists a b v,
  change_fc_new (py "FM0106 27010KT") v = Ok a /\ change_fc_new (py "FM011200 9999") v = Ok b
  /\ changes_add b (mk_gl 0 8 [a]) = Raise AttributeError.
Proof.
  eexists _, _, (mk_valid None (time_at (mk_dt 2023 6 1 0 0)) (time_at (mk_dt 2023 6 2 0 0))).
  split; [vm_compute; reflexivity|]. split; [vm_compute; reflexivity|]. vm_compute. reflexivity.
Qed.

(** ** C55: forecast temperatures *)

Definition ttemp_text (mx neg : bool) (n d h : N) : text :=
  [("", py "T"); ("type", py (if mx then "X" else "N"))]
  ++ (if neg then [("sign", py "M")] else [])
  ++ [("temp", digits 2 n); ("", py "/"); ("day", digits 2 d); ("hour", digits 2 h); ("", py "Z")].

Lemma ttemp_captures : forall mx neg n d h rest, (1 <= d <= 31)%N -> (h <= 23)%N ->
  exists m, re_match r_T_TEMPERATURE (taf_temp_code mx neg n d h ++ rest) = Some m
    /\ m_string m = taf_temp_code mx neg n d h ++ rest
    /\ forall x, In x ["type"; "sign"; "temp"; "day"; "hour"] -> group m x = lookup x (ttemp_text mx neg n d h).
Proof.
  intros mx neg n d h rest Hd Hh.
  assert (E : taf_temp_code mx neg n d h = tcode (ttemp_text mx neg n d h))
    by (unfold tcode, taf_temp_code, ttemp_text; destruct mx, neg; reflexivity).
  rewrite E.
  destruct (captures_more r_T_TEMPERATURE ["type"; "sign"; "temp"; "day"; "hour"] (if neg then 11 else 10)
    (ttemp_text mx neg n d h)
    ([("", lit "T"); ("type", lit (if mx then "X" else "N"))]
     ++ (if neg then [("sign", lit "M")] else [])
     ++ [("temp", dsym 2); ("", lit "/"); ("day", from1 3 1 d); ("hour", upto2 2 3 h); ("", lit "Z")]) rest)
    as (m & A & B & _ & C); [| |exists m; auto].
  - unfold ttemp_text. destruct neg; cbn [app]; auto 12 with inst.
  - unfold from1, upto2. destruct mx, neg;
    destruct (d <? 10)%N; destruct (d <? 10 * 3)%N; destruct (h <? 10 * 2)%N; vm_compute; reflexivity.
Qed.

Definition ttemp_side (neg : bool) (n : N) : tside := TValue (if neg then Some true else None) n.

Lemma ttemp_value : forall (neg : bool) n, (n < 100)%N ->
  exists v, (if neg then temperature_new (Some (py "-" ++ digits 2 n)) else temperature_new (Some (digits 2 n))) = Ok v
    /\ temp_is v (celsius (ttemp_side neg n)).
Proof.
  intros neg n H.
  assert (E : forallb (fun n => forallb (fun neg : bool =>
      match (if neg then temperature_new (Some (py "-" ++ digits 2 n)) else temperature_new (Some (digits 2 n))) with
      | Ok v => temp_checks v (celsius (ttemp_side neg n)) | Raise _ => false end) [true; false]) (upto 100) = true)
    by (vm_compute; reflexivity).
  rewrite forallb_forall in E. specialize (E n (in_upto 100 n H)). rewrite forallb_forall in E.
  specialize (E neg ltac:(destruct neg; cbn; tauto)).
  destruct (if neg then temperature_new (Some (py "-" ++ digits 2 n)) else temperature_new (Some (digits 2 n))) as [v|];
    [|discriminate].
  exists v. split; [reflexivity|]. apply temp_checks_sound. exact E.
Qed.

Lemma taf_temperature : forall t (mx neg : bool) n d h b rest, real_time t -> ~ In 95%N rest ->
  (n < 100)%N -> (1 <= d <= 31)%N -> (h <= 23)%N ->
  first_with_day (date_of t) (Z.of_N d) b -> (exists k, (k <= 1)%nat /\ days_later k (date_of t) b) -> real b ->
  exists m v, re_match r_T_TEMPERATURE (taf_temp_code mx neg n d h ++ rest) = Some m
    /\ group m "type" = Some (py (if mx then "X" else "N"))
    /\ taf_temp_new m t = Ok v
    /\ tt_code v = Some (taf_temp_code mx neg n d h ++ rest)
    /\ temp_is (tt_value v) (celsius (TValue (if neg then Some true else None) n))
    /\ t_dt (tt_time v) = moment b h 0.
Proof.
  intros t mx neg n d h b rest R Hr Hn Hd Hh F K Rb.
  destruct (ttemp_captures mx neg n d h rest Hd Hh) as (m & Em & Es & Hc).
  destruct (ttemp_value neg n Hn) as (v & Ev & Hv).
  exists m. eexists. split; [exact Em|]. split; [rewrite (Hc "type") by names; destruct neg; reflexivity|].
  unfold taf_temp_new. destruct t as [y mo dd hh mi]. destruct R as (Rd & Rh & Rm).
  unfold date_of in *. cbn [dt_year dt_month dt_day dt_hour dt_minute] in *.
  change (dt_replace_minute (mk_dt y mo dd hh mi) 0) with (Ok (mk_dt y mo dd hh 0)). cbn [bind].
  captured Hc ["sign"; "temp"; "day"; "hour"].
  assert (L : lookup "sign" (ttemp_text mx neg n d h) = (if neg then Some (py "M") else None)
    /\ lookup "temp" (ttemp_text mx neg n d h) = Some (digits 2 n)
    /\ lookup "day" (ttemp_text mx neg n d h) = Some (digits 2 d)
    /\ lookup "hour" (ttemp_text mx neg n d h) = Some (digits 2 h)) by (destruct neg; repeat split; reflexivity).
  destruct L as (-> & -> & -> & ->).
  replace (truthy (if neg then Some (py "M") else None)) with neg by (destruct neg; reflexivity).
  rewrite Ev. cbn [bind].
  unfold int_of_opt. rewrite !int_digits by (try lia; change (10 ^ N.of_nat 2)%N with 100%N; lia).
  cbn [bind]. unfold dt_replace_hour. replace ((0 <=? Z.of_N h) && (Z.of_N h <=? 23)) with true
    by (symmetry; apply andb_true_iff; rewrite !Z.leb_le; lia).
  cbn [bind dt_year dt_month dt_day dt_hour dt_minute].
  rewrite (pick_day y mo dd (Z.of_N h) _ b); auto.
  2:{ lia. }
  2:{ destruct b as [[a b'] c]. apply real_date_range in Rb. unfold year_of. cbn. lia. }
  cbn [bind]. split; [reflexivity|]. cbn [tt_code tt_value tt_time time_at t_dt].
  rewrite Es, group_code_id.
  2:{ apply nou_app; [|exact Hr]. unfold taf_temp_code. destruct mx, neg; auto 12 with nou. }
  split; [reflexivity|]. split; [exact Hv|]. destruct b as [[a b'] c]. reflexivity.
Qed.

Lemma taf_temperature_late : exists t m v, real_time t /\ first_with_day (date_of t) 2 (2023, 7, 2)
  /\ re_match r_T_TEMPERATURE (taf_temp_code true false 25 2 12) = Some m
  /\ taf_temp_new m t = Ok v /\ t_dt (tt_time v) = mk_dt 2023 7 1 12 0.
Proof.
  exists (mk_dt 2023 6 30 23 0). eexists _, _. split; [apply valid_dt_spec; reflexivity|].
  split; [apply (first_valid 2); vm_compute; reflexivity|]. split; [vm_compute; reflexivity|]. split; vm_compute; reflexivity.
Qed.
