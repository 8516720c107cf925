(** * Parsing the body of a well-formed TAF *)
From Coq Require Import String Ascii.
From Coq Require Import List NArith ZArith Bool Lia QArith.
From Verif Require Import PyBase PyRegex AeroRegex PyFloat PyTime Utils Base MetarGroups Trend Metar Taf SpecNum SpecGroups SpecTime
  SpecText SpecTaf SpecWords SpecMetar SpecTafReport SymRegex TimeFacts ProofGroups ProofGroups2 ProofValues ProofTime
  ProofWords GroupShapes ProofSlots Dispatch ProofFields ProofMetar ProofWx TafShapes.
Import ListNotations.
Local Open Scope string_scope.
Local Open Scope nat_scope.
Local Open Scope list_scope.

(** ** Dates *)

Lemma issued_real : forall y mo g, real_date y mo (Z.of_N (h_day g)) -> (h_hour g < 24)%N -> (h_minute g < 60)%N ->
  real_time (issued y mo g).
Proof. intros y mo g R Hh Hm. split; [exact R|]. unfold issued. cbn [dt_hour dt_minute]. lia. Qed.

Lemma period_decodes : forall t p, real_time t -> period_wf t p ->
  exists m v, re_match r_T_VALID (span_code p) = Some m /\ m_string m = span_code p
    /\ valid_from_taf (Some m) t = Ok v /\ period_is t p v.
Proof.
  intros t [fd fh td th] R (H1 & H2 & H3 & H4 & (bf & bf' & F1 & F2 & F3 & F4 & F5) & (bt & be & T1 & T2 & T3 & T4 & T5)).
  cbn [p_fd p_fh p_td p_th] in *. unfold span_code, period_is, falls. cbn [p_fd p_fh p_td p_th].
  destruct (valid_captures fd fh td th H1 H2 H3 H4) as (m & Em & Es & _).
  destruct (valid_period t fd fh td th bf bt be) as (v & E & A & B & C & D); auto.
  rewrite Em in E. exists m, v. split; [exact Em|]. split; [exact Es|]. split; [exact E|]. split; [exact A|]. split.
  - exists bf. split; [exact F1|]. replace (fh =? 24)%N with false by (symmetry; apply N.eqb_neq; lia). exact B.
  - exists bt. split; [exact T1|]. destruct (N.eqb_spec th 24) as [K|K].
    + exists be. auto.
    + apply C. lia.
Qed.

Lemma ftemp_decodes : forall t g, real_time t -> ftemp_wf t g ->
  exists m v, re_match r_T_TEMPERATURE (ftemp_text g) = Some m
    /\ opt_str_eqb (group m "type") (py "X") = ft_max g /\ taf_temp_new m t = Ok v /\ ftemp_is t g v.
Proof.
  intros t [mx neg n d h] R (H1 & H2 & H3 & (b & be & F1 & F2 & F3 & _)). cbn [ft_max ft_neg ft_value ft_day ft_hour] in *.
  unfold ftemp_text, ftemp_is, falls. cbn [ft_max ft_neg ft_value ft_day ft_hour].
  destruct (taf_temperature t mx neg n d h b []) as (m & v & Em & Et & E & A & B & C); auto.
  rewrite app_nil_r in *. exists m, v. split; [exact Em|]. split; [rewrite Et; destruct mx; reflexivity|]. split; [exact E|].
  split; [exact A|]. split; [exact B|]. exists b. split; [exact F1|].
  replace (h =? 24)%N with false by (symmetry; apply N.eqb_neq; lia). exact C.
Qed.

(** ** The header and the simple groups *)

Definition tbare (x : taf) : taf := tupd_common (mute (ta_common x)) x.

Lemma tmodifier_feed : forall o x, opt_all (fun w => In w taf_modifiers) o ->
  exists x' v, feed r_T_AMD_COR thandle_modifier (of_option code_of o) x = Ok x'
    /\ tbare x' = tupd_modifier v (tbare x) /\ holds modifier_is (eq (ta_modifier x)) o v.
Proof.
  intros [w|] x H; cbn [of_option feed opt_all] in *.
  - assert (E : exists m, re_match r_T_AMD_COR (code_of w) = Some m /\ m_string m = code_of w
                /\ modifier_is w (modifier_new (Some (code_of w)))).
    { cbn in H. repeat (destruct H as [<-|H]; [eexists; split; [vm_compute; reflexivity|split; vm_compute; auto]|]).
      destruct H. }
    destruct E as (m & Em & Es & Hm). rewrite Em. unfold thandle_modifier. rewrite Es. cbn [bind].
    eexists _, _. split; [reflexivity|]. split; [reflexivity|]. exact Hm.
  - exists x, (ta_modifier x). split; [reflexivity|]. split; [destruct x; reflexivity|reflexivity].
Qed.

Definition nil_is (b : bool) (v : missing) : Prop :=
  mi_missing v = b /\ if b then modifier_is ("NIL", "Missing report") (mi_mod v) else no_modifier (mi_mod v).
Lemma nil_feed : forall (b : bool) x, nil_is false (ta_missing x) ->
  exists x' v, feed r_T_NIL thandle_missing (if b then [py "NIL"] else []) x = Ok x'
    /\ tbare x' = tupd_missing v (tbare x) /\ nil_is b v.
Proof.
  intros [|] x H; cbn [feed].
  - destruct (re_match r_T_NIL (py "NIL")) as [m|] eqn:Em; [|vm_compute in Em; discriminate Em].
    assert (Es : m_string m = py "NIL") by (vm_compute in Em; injection Em as <-; reflexivity).
    unfold thandle_missing. rewrite Es. cbn [bind]. eexists _, _. split; [reflexivity|]. split; [reflexivity|].
    split; [reflexivity|]. split; reflexivity.
  - exists x, (ta_missing x). split; [reflexivity|]. split; [destruct x; reflexivity|exact H].
Qed.

Definition cnl_is (b : bool) (v : cancelled) : Prop :=
  ca_cancelled v = b /\ ca_code v = if b then Some (py "CNL") else None.
Lemma cnl_feed : forall (b : bool) x, cnl_is false (ta_cancelled x) ->
  exists x' v, feed r_T_CANCELLED thandle_cancelled (if b then [py "CNL"] else []) x = Ok x'
    /\ tbare x' = tupd_cancelled v (tbare x) /\ cnl_is b v.
Proof.
  intros [|] x H; cbn [feed].
  - destruct (re_match r_T_CANCELLED (py "CNL")) as [m|] eqn:Em; [|vm_compute in Em; discriminate Em].
    assert (Es : m_string m = py "CNL") by (vm_compute in Em; injection Em as <-; reflexivity).
    unfold thandle_cancelled, cancelled_new. rewrite Es. cbn [bind]. eexists _, _. split; [reflexivity|]. split; [reflexivity|].
    split; reflexivity.
  - exists x, (ta_cancelled x). split; [reflexivity|]. split; [destruct x; reflexivity|exact H].
Qed.

Lemma valid_feed : forall t o x, real_time t -> t_dt (ta_time x) = t -> opt_all (period_wf t) o ->
  exists x' v, feed r_T_VALID thandle_valid (of_option span_code o) x = Ok x'
    /\ tbare x' = tupd_valid v (tbare x) /\ holds (period_is t) (eq (ta_valid x)) o v.
Proof.
  intros t [p|] x R E H; cbn [of_option feed opt_all] in *.
  - destruct (period_decodes t p R H) as (m & v & Em & _ & Ev & Hv). rewrite Em. unfold thandle_valid. rewrite E, Ev. cbn [bind].
    eexists _, v. split; [reflexivity|]. split; [reflexivity|exact Hv].
  - exists x, (ta_valid x). split; [reflexivity|]. split; [destruct x; reflexivity|reflexivity].
Qed.

Lemma ftemp_feed : forall t, real_time t -> forall gs x, t_dt (ta_time x) = t -> Forall (ftemp_wf t) gs ->
  length (gl_list (ta_max x)) + length (filter ft_max gs) <= gl_max (ta_max x) ->
  length (gl_list (ta_min x)) + length (filter (fun g => negb (ft_max g)) gs) <= gl_max (ta_min x) ->
  exists x' a b, feed r_T_TEMPERATURE thandle_temperature (map ftemp_text gs) x = Ok x'
    /\ tbare x' = tupd_min (mk_gl (gl_n (ta_min x)) (gl_max (ta_min x)) (gl_list (ta_min x) ++ b))
                    (tupd_max (mk_gl (gl_n (ta_max x)) (gl_max (ta_max x)) (gl_list (ta_max x) ++ a)) (tbare x))
    /\ Forall2 (ftemp_is t) (filter ft_max gs) a /\ Forall2 (ftemp_is t) (filter (fun g => negb (ft_max g)) gs) b.
Proof.
  intros t R. induction gs as [|g gs IH]; intros x E H L1 L2; cbn [map feed].
  - exists x, [], []. split; [reflexivity|]. split; [|split; constructor]. rewrite !app_nil_r.
    destruct x as [x1 x2 x3 x4 x5 x6 x7 x8 x9 x10 x11 x12 x13 [n1 m1 l1] [n2 m2 l2] x16]. reflexivity.
  - apply Forall_cons_iff in H. destruct H as [Hg H].
    destruct (ftemp_decodes t g R Hg) as (m & v & Em & Et & Ev & Hv). rewrite Em.
    unfold thandle_temperature at 1. rewrite E, Ev, Et. cbn [bind]. cbn [filter] in *.
    destruct (ft_max g) eqn:Eg; cbn [negb length] in *.
    + rewrite gl_add_ok by lia. cbn [bind].
      match goal with |- context [feed r_T_TEMPERATURE thandle_temperature (map ftemp_text gs) ?d] =>
        destruct (IH d E H) as (x' & a & b & F & B & A1 & A2) end.
      { cbn [tout_string tupd_common tupd_max ta_max gl_list gl_max]. rewrite app_length. cbn [length]. lia. }
      { exact L2. }
      cbn [tout_string tupd_common tupd_max ta_max ta_min gl_list gl_max gl_n] in B.
      exists x', (v :: a), b. split; [exact F|]. split.
      * rewrite B, <- app_assoc. reflexivity.
      * split; [constructor; assumption|exact A2].
    + rewrite gl_add_ok by lia. cbn [bind].
      match goal with |- context [feed r_T_TEMPERATURE thandle_temperature (map ftemp_text gs) ?d] =>
        destruct (IH d E H) as (x' & a & b & F & B & A1 & A2) end.
      { exact L1. }
      { cbn [tout_string tupd_common tupd_min ta_min gl_list gl_max]. rewrite app_length. cbn [length]. lia. }
      cbn [tout_string tupd_common tupd_min ta_max ta_min gl_list gl_max gl_n] in B.
      exists x', a, (v :: b). split; [exact F|]. split.
      * rewrite B, <- app_assoc. reflexivity.
      * split; [exact A1|constructor; assumption].
Qed.

(** ** The body *)

Definition taf_groups (g : taf_g) : list str :=
  py "TAF" :: of_option code_of (h_modifier g)
  ++ h_station g :: stamp_code (h_day g) (h_hour g) (h_minute g)
  :: (if h_nil g then [py "NIL"] else []) ++ of_option span_code (h_valid g) ++ (if h_cnl g then [py "CNL"] else [])
  ++ wx_groups (h_body g) ++ map ftemp_text (h_temps g) ++ [].

(** The report before parsing. *)
Definition fresh_taf (x : taf) : Prop :=
  no_modifier (ta_modifier x) /\ nil_is false (ta_missing x) /\ cnl_is false (ta_cancelled x) /\ va_code (ta_valid x) = None
  /\ calm (ta_common x) /\ ta_max x = gl_new 2 /\ ta_min x = gl_new 2.

Ltac tslots_in := cbv [between taf_handlers change_handlers firstn skipn Nat.sub map h_regexp
    body_valid body_cnl body_wind body_vis body_weather body_cloud body_temp change_wind change_vis change_weather change_cloud app In];
  let r := fresh "r" in intro r; intuition.
Section Body.
Variables (e : env) (y mo : option Z).
Notation hs := (taf_handlers e y mo).
Lemma in_t_valid : forall r, In r (between hs 4 5) -> In r body_valid. Proof. tslots_in. Qed.
Lemma in_t_cnl : forall r, In r (between hs 4 6) -> In r body_cnl. Proof. tslots_in. Qed.
Lemma in_t_wind : forall r, In r (between hs 4 7) -> In r body_wind. Proof. tslots_in. Qed.
Lemma in_t_vis : forall r, In r (between hs 4 8) -> In r body_vis. Proof. tslots_in. Qed.
Lemma in_t_weather : forall r, In r (between hs 4 9) -> In r body_weather. Proof. tslots_in. Qed.
Lemma in_t_cloud : forall r, In r (between hs 4 12) -> In r body_cloud. Proof. tslots_in. Qed.
Lemma in_t_temp : forall r, In r (between hs 4 16) -> In r body_temp. Proof. tslots_in. Qed.
End Body.

Lemma station_not_amd : forall s, station_wf s -> re_match r_T_AMD_COR s = None.
Proof.
  intros s H. refine (free_none [r_T_AMD_COR] [station_shape] s _ _ r_T_AMD_COR _).
  - exists station_shape. split; [left; reflexivity|apply station_inst; exact H].
  - computed.
  - left. reflexivity.
Qed.

Lemma taf_type_match : exists m, re_match r_TYPE (py "TAF") = Some m /\ m_string m = py "TAF".
Proof. eexists. split; [vm_compute; reflexivity|reflexivity]. Qed.

Lemma filter_split_length : forall A (f : A -> bool) l,
  length l = length (filter f l) + length (filter (fun x => negb (f x)) l).
Proof. intros A f. induction l as [|x l IH]; [reflexivity|]. cbn [filter]. destruct (f x); cbn [negb length]; lia. Qed.

Definition body_holds (y mo : Z) (g : taf_g) (x : taf) : Prop :=
  (ty_code (ta_type x) = Some (py "TAF") /\ ty_type (ta_type x) = Some (py "Terminal Aerodrome Forecast"))
  /\ holds modifier_is no_modifier (h_modifier g) (ta_modifier x)
  /\ st_code (ta_station x) = Some (h_station g)
  /\ (t_code (ta_time x) = Some (stamp_code (h_day g) (h_hour g) (h_minute g)) /\ t_dt (ta_time x) = issued y mo g)
  /\ nil_is (h_nil g) (ta_missing x)
  /\ match h_valid g with Some p => period_is (issued y mo g) p (ta_valid x) | None => va_code (ta_valid x) = None end
  /\ cnl_is (h_cnl g) (ta_cancelled x)
  /\ wx_holds (h_body g) (ta_common x)
  /\ Forall2 (ftemp_is (issued y mo g)) (filter ft_max (h_temps g)) (gl_list (ta_max x))
  /\ Forall2 (ftemp_is (issued y mo g)) (filter (fun t => negb (ft_max t)) (h_temps g)) (gl_list (ta_min x)).

Lemma taf_body : forall e y mo g x, taf_wf y mo g -> fresh_taf x ->
  exists x', parse_groups (taf_handlers e (Some y) (Some mo)) (taf_groups g) 0 [] x = Ok (x', [])
    /\ body_holds y mo g x' /\ ta_unparsed x' = ta_unparsed x /\ ta_changes x' = ta_changes x
    /\ ta_codes x' = ta_codes x /\ ta_sections x' = ta_sections x /\ ta_raw x' = ta_raw x /\ ta_body x' = ta_body x.
Proof.
  intros e y mo g x H Hx. unfold taf_groups.
  destruct H as (Hmod & (Hst & _) & Hy & Hd & Hh & Hmi & Hva & ((Hwi & Hvi & (Hwx & Lwx) & (Hcl & Lcl)) & Hvg & Hvl)
    & (Hte & Lmx & Lmn) & _ & _).
  destruct Hx as (X1 & X2 & X3 & X4 & X5 & X6 & X7).
  pose proof (issued_real y mo g Hd Hh Hmi) as R. set (t := issued y mo g) in *.
  set (hs := taf_handlers e (Some y) (Some mo)).
  (* type *)
  destruct taf_type_match as (m1 & M1 & S1).
  rewrite (parse_at hs 0 0 _ _ (mk_handler r_TYPE thandle_type) m1); [|lia|intros j h Hj; lia|reflexivity|exact M1].
  cbn [h_handle]. unfold thandle_type. rewrite S1. cbn [bind].
  set (x1 := tout_string _ _).
  assert (B1 : tbare x1 = tupd_type (type_new (py "TAF")) (tbare x)) by reflexivity.
  clearbody x1.
  (* modifier *)
  destruct (tmodifier_feed (h_modifier g) x1 Hmod) as (x2 & v2 & F2 & B2 & V2).
  match goal with |- context [parse_groups hs (_ ++ ?rest) 1 [] x1] =>
    destruct (phase_f _ hs _ _ _ _ _ F2 1 1 1 1 rest) as (i2 & I2 & _ & P2) end.
  { lia. } { apply one_le; lia. } { slot. }
  { apply of_option_Forall. destruct (h_modifier g) as [w|]; [|exact I]. cbn [opt_all of_option feed] in *.
    split; [intros j h Hj; lia|]. cbn in Hmod. intro K.
    repeat (destruct Hmod as [<-|Hmod]; [vm_compute in K; discriminate K|]). destruct Hmod. }
  rewrite P2. clear P2 F2.
  (* station *)
  destruct (station_match _ Hst) as (m3 & M3 & S3).
  rewrite (parse_at hs i2 2 _ _ (mk_handler r_STATION (thandle_station e)) m3);
    [|lia| |reflexivity|exact M3].
  2:{ intros j h Hj Eh. assert (j = 1) by lia. subst j. injection Eh as <-. exact (station_not_amd _ Hst). }
  cbn [h_handle]. unfold thandle_station. rewrite S3. cbn [bind].
  set (x3 := tout_string _ _).
  assert (B3 : tbare x3 = tupd_station (station_new e (Some (h_station g))) (tbare x2)) by reflexivity.
  clearbody x3.
  (* time *)
  destruct Hd as (Hyr & n & Hn & Hdn).
  assert (Hmo : (1 <= mo <= 12)%Z).
  { inversion Hn; subst; cbn in *; intuition lia. }
  assert (Hn31 : (n <= 31)%Z) by (inversion Hn; lia).
  assert (Hd31 : (1 <= h_day g <= 31)%N) by lia.
  destruct (report_time e y mo (h_day g) (h_hour g) (h_minute g)) as [RT _]; try lia.
  destruct RT as (tm & Et & T3 & T4); [split; [split; [exact Hyr|exists n; auto]|exact Hh]|].
  destruct (time_captures (h_day g) (h_hour g) (h_minute g)) as (m4 & M4 & _ & _); try lia.
  rewrite M4 in Et.
  rewrite (parse_at hs 3 3 _ _ (mk_handler r_TIME (thandle_time e (Some y) (Some mo))) m4);
    [|lia|intros j h Hj; lia|reflexivity|exact M4].
  cbn [h_handle]. unfold thandle_time. rewrite Et. cbn [bind].
  set (x4 := tout_string _ _).
  assert (B4 : tbare x4 = tupd_time tm (tbare x3)) by reflexivity.
  clearbody x4.
  (* NIL *)
  destruct (nil_feed (h_nil g) x4) as (x5 & v5 & F5 & B5 & V5).
  { change (nil_is false (ta_missing (tbare x4))). rewrite B4, B3, B2, B1. exact X2. }
  match goal with |- context [parse_groups hs (_ ++ ?rest) 4 [] x4] =>
    destruct (phase_f _ hs _ _ _ _ _ F5 4 1 4 4 rest) as (i5 & I5 & _ & P5) end.
  { lia. } { destruct (h_nil g); cbn; lia. } { slot. }
  { destruct (h_nil g); constructor; [|constructor]. split; [intros j h Hj; lia|]. vm_compute. discriminate. }
  rewrite P5. clear P5 F5.
  (* validity *)
  destruct (valid_feed t (h_valid g) x5 R) as (x6 & v6 & F6 & B6 & V6); [|exact Hva|].
  { change (t_dt (ta_time (tbare x5)) = t). rewrite B5, B4. exact T4. }
  match goal with |- context [parse_groups hs (_ ++ ?rest) i5 [] x5] =>
    destruct (phase_f _ hs _ _ _ _ _ F6 4 1 5 i5 rest) as (i6 & I6 & _ & P6) end.
  { lia. } { apply one_le; lia. } { slot. }
  { apply of_option_Forall. eapply opt_all_impl; [|exact Hva]. intros p Hp. split.
    - apply passes_between. intros r Hr. apply (period_free t p r Hp). exact (in_t_valid e (Some y) (Some mo) r Hr).
    - destruct (period_decodes t p R Hp) as (m & v & Em & _). exact (some_not_none _ _ _ Em). }
  rewrite P6. clear P6 F6.
  (* CNL *)
  destruct (cnl_feed (h_cnl g) x6) as (x7 & v7 & F7 & B7 & V7).
  { change (cnl_is false (ta_cancelled (tbare x6))). rewrite B6, B5, B4, B3, B2, B1. exact X3. }
  match goal with |- context [parse_groups hs (_ ++ ?rest) i6 [] x6] =>
    destruct (phase_f _ hs _ _ _ _ _ F7 4 1 6 i6 rest) as (i7 & I7 & _ & P7) end.
  { lia. } { destruct (h_cnl g); cbn; lia. } { slot. }
  { destruct (h_cnl g); constructor; [|constructor]. split; [|vm_compute; discriminate].
    apply passes_between. intros r Hr. apply (in_t_cnl e (Some y) (Some mo)) in Hr.
    destruct Hr as [<-|[<-|[]]]; vm_compute; reflexivity. }
  rewrite P7. clear P7 F7.
  (* wind, visibility, weather, clouds *)
  assert (C7 : calm (ta_common x7)).
  { change (calm (ta_common (tbare x7))). rewrite B7, B6, B5, B4, B3, B2, B1. exact X5. }
  destruct (wx_phase ta_common tupd_common) with (hs := hs) (rw := r_T_WIND) (rv := r_T_VISIBILITY) (lo := 4) (pw := 7)
    (g := h_body g) (i := i7) (rest := map ftemp_text (h_temps g) ++ []) (x := x7) as (i8 & c8 & I8 & V8 & P8).
  { intros []; reflexivity. } { reflexivity. } { reflexivity. } { lia. } { reflexivity. } { reflexivity. } { slot. } { slot. }
  { eapply opt_all_impl; [|exact Hwi]. intros w [Hw1 Hw2]. split; [|exact (twind_decodes w Hw1 Hw2)].
    apply passes_between. intros r Hr. apply (twind_free w r Hw1). exact (in_t_wind e (Some y) (Some mo) r Hr). }
  { destruct (x_vis (h_body g)) as [w|]; [|exact I]. destruct Hvi as [Hw1 _]. cbn [opt_all] in Hvg |- *.
    split; [|exact (tvis_decodes w Hw1 Hvg)].
    apply passes_between. intros r Hr. apply (tvis_free w r Hw1). exact (in_t_vis e (Some y) (Some mo) r Hr). }
  { destruct (x_vis (h_body g)) as [w|].
    - eapply Forall_impl; [|exact Hwx]. intros w' [Hw1 _]. split; [exact Hw1|]. intros j h Hj. lia.
    - specialize (Hvl eq_refl). rewrite Forall_forall in *. intros w' Hin. destruct (Hwx w' Hin) as [Hw1 Hw2].
      split; [exact Hw1|]. apply passes_between. intros r Hr. apply (tweather_free w' r Hw1 Hw2 (Hvl w' Hin)).
      exact (in_t_weather e (Some y) (Some mo) r Hr). }
  { exact Lwx. }
  { eapply Forall_impl; [|exact Hcl]. intros w Hw. split; [exact Hw|].
    apply passes_between. intros r Hr. apply (tcloud_free w r Hw). exact (in_t_cloud e (Some y) (Some mo) r Hr). }
  { exact Lcl. } { exact C7. }
  rewrite P8. clear P8.
  set (x8 := tupd_common c8 x7) in *.
  assert (B8 : tbare x8 = tupd_common (mute c8) (tbare x7)) by reflexivity.
  clearbody x8.
  (* temperatures *)
  assert (E8 : ta_max x8 = gl_new 2 /\ ta_min x8 = gl_new 2 /\ t_dt (ta_time x8) = t).
  { change (ta_max (tbare x8) = gl_new 2 /\ ta_min (tbare x8) = gl_new 2 /\ t_dt (ta_time (tbare x8)) = t).
    rewrite B8, B7, B6, B5, B4, B3, B2, B1. split; [exact X6|]. split; [exact X7|exact T4]. }
  destruct E8 as (E8 & E8' & E8'').
  destruct (ftemp_feed t R (h_temps g) x8 E8'' Hte) as (x9 & a9 & b9 & F9 & B9 & V9 & V9').
  { rewrite E8. cbn. lia. } { rewrite E8'. cbn [gl_list gl_max gl_new length]. lia. }
  match goal with |- context [parse_groups hs (_ ++ ?rest) i8 [] x8] =>
    destruct (phase_f _ hs _ _ _ _ _ F9 4 4 16 i8 rest) as (i9 & I9 & _ & P9) end.
  { lia. } { rewrite map_length, (filter_split_length _ ft_max). lia. } { slot. }
  { apply (map_Forall _ _ _ _ _ Hte). intros w Hw. split.
    - apply passes_between. intros r Hr. apply (ftemp_free t w r Hw). exact (in_t_temp e (Some y) (Some mo) r Hr).
    - destruct (ftemp_decodes t w R Hw) as (m & v & Em & _). exact (some_not_none _ _ _ Em). }
  rewrite P9. clear P9 F9.
  exists x9. split; [reflexivity|].
  rewrite E8, E8' in B9. cbn [gl_new gl_n gl_max gl_list app] in B9.
  change (ta_modifier x1) with (ta_modifier (tbare x1)) in V2.
  change (ta_valid x5) with (ta_valid (tbare x5)) in V6.
  rewrite B1 in V2. rewrite B5, B4, B3, B2, B1 in V6.
  rewrite B8, B7, B6, B5, B4, B3, B2, B1 in B9. clear B8 B7 B6 B5 B4 B3 B2 B1.
  change (body_holds y mo g (tbare x9) /\ ta_unparsed (tbare x9) = ta_unparsed x /\ ta_changes (tbare x9) = ta_changes x
    /\ ta_codes (tbare x9) = ta_codes x /\ ta_sections (tbare x9) = ta_sections x /\ ta_raw (tbare x9) = ta_raw x
    /\ ta_body (tbare x9) = ta_body x).
  rewrite B9. split; [|conjs; reflexivity].
  unfold body_holds. conjs.
  - reflexivity.
  - reflexivity.
  - exact (holds_no _ _ _ _ _ _ _ V2 X1).
  - exact (station_code_ok e (h_station g) Hst).
  - exact T3.
  - exact T4.
  - exact V5.
  - cbn [ta_valid tupd_min tupd_max tupd_common tupd_cancelled tupd_valid]. destruct (h_valid g) as [p|]; cbn [holds] in V6.
    + exact V6.
    + rewrite <- V6. exact X4.
  - exact V7.
  - exact V8.
  - exact V9.
  - exact V9'.
Qed.
