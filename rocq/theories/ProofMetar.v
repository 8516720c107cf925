(** * Parsing well-formed METARs *)
From Coq Require Import String Ascii.
From Coq Require Import List NArith ZArith Bool Lia QArith.
From Verif Require Import PyBase PyRegex AeroRegex PyFloat PyTime Utils Base MetarGroups Trend Metar SpecNum SpecGroups SpecTime
  SpecText SpecWords SpecMetar SymRegex ProofGroups ProofGroups2 ProofValues ProofTime StrFacts TextFacts ProofSections ProofMerge
  ProofTafText MergeFacts ProofWords GroupShapes ProofSlots Dispatch ProofFields.
Import ListNotations.
Local Open Scope string_scope.
Local Open Scope nat_scope.
Local Open Scope list_scope.

(** ** The groups one by one *)

Lemma phase : forall S (hs : list (handler S)) r f gs lo n p i rest st st', lo <= i <= p -> length gs <= n ->
  (forall j, j < n -> nth_error hs (p + j) = Some (mk_handler r f)) ->
  Forall (fun g => passes hs lo p g /\ re_match r g <> None) gs -> feed r f gs st = Ok st' ->
  exists i', i <= i' <= p + n /\ (gs <> [] -> p < i')
    /\ parse_groups hs (gs ++ rest) i [] st = parse_groups hs rest i' [] st'.
Proof.
  intros S hs r f gs lo n p i rest st st' Hi Hn Hs Hg Ef.
  destruct (parse_many hs r f gs lo n p i rest st Hi Hn Hs Hg) as (i' & H1 & _ & H3 & H4).
  exists i'. split; [lia|]. split; [exact H3|]. rewrite H4, Ef. reflexivity.
Qed.

(** The slots of the METAR. *)
Ltac slot := let j := fresh "j" in let Hj := fresh "Hj" in intros j Hj;
  do 5 (try destruct j as [|j]); try lia; reflexivity.
Ltac slots_in := cbv [between metar_handlers firstn skipn Nat.sub map h_regexp
    slots_wind slots_wvar slots_vis slots_minvis slots_rvr slots_weather slots_cloud slots_temps slots_press
    slots_recent slots_ws slots_sea slots_rwy app In];
  let r := fresh "r" in intro r; intuition.

Section Body.
Variables (e : env) (y mo : option Z).
Notation hs := (metar_handlers e y mo).

Lemma in_wind : forall r, In r (between hs 3 4) -> In r slots_wind. Proof. slots_in. Qed.
Lemma in_wvar : forall r, In r (between hs 3 5) -> In r slots_wvar. Proof. slots_in. Qed.
Lemma in_vis : forall r, In r (between hs 3 6) -> In r slots_vis. Proof. slots_in. Qed.
Lemma in_rvr : forall r, In r (between hs 3 8) -> In r slots_rvr. Proof. slots_in. Qed.
Lemma in_wx : forall r, In r (between hs 3 11) -> In r slots_weather. Proof. slots_in. Qed.
Lemma in_cloud : forall r, In r (between hs 3 14) -> In r slots_cloud. Proof. slots_in. Qed.
Lemma in_temps : forall r, In r (between hs 3 18) -> In r slots_temps. Proof. slots_in. Qed.
Lemma in_press : forall r, In r (between hs 3 19) -> In r slots_press. Proof. slots_in. Qed.
Lemma in_recent : forall r, In r (between hs 3 21) -> In r slots_recent. Proof. slots_in. Qed.
Lemma in_ws : forall r, In r (between hs 3 22) -> In r slots_ws. Proof. slots_in. Qed.
Lemma in_sea : forall r, In r (between hs 3 25) -> In r slots_sea. Proof. slots_in. Qed.
Lemma in_rwy : forall r, In r (between hs 3 26) -> In r slots_rwy. Proof. slots_in. Qed.
End Body.

Lemma of_option_Forall : forall A (P : str -> Prop) (f : A -> str) o, opt_all (fun x => P (f x)) o ->
  Forall P (of_option f o).
Proof. intros A P f [x|] H; cbn in *; auto. Qed.
Lemma map_Forall : forall A (P : str -> Prop) (f : A -> str) (Q : A -> Prop) l, Forall Q l -> (forall x, Q x -> P (f x)) ->
  Forall P (map f l).
Proof. intros A P f Q l H K. apply Forall_map. eapply Forall_impl; [|exact H]. exact K. Qed.
Lemma opt_all_impl : forall A (P Q : A -> Prop) o, (forall x, P x -> Q x) -> opt_all P o -> opt_all Q o.
Proof. intros A P Q [x|] H K; cbn in *; auto. Qed.
Lemma of_option_length : forall A B (f : A -> B) o, length (of_option f o) <= 1.
Proof. intros A B f [x|]; cbn; lia. Qed.
Lemma some_not_none : forall A (o : option A) x, o = Some x -> o <> None.
Proof. congruence. Qed.

(** The report before parsing. *)
Definition fresh_metar (x : metar) : Prop :=
  no_modifier (me_modifier x) /\ no_wind (c_wind (me_common x)) /\ no_wvar (me_wvar x) /\ no_vis (c_vis (me_common x))
  /\ no_vis (me_minvis x) /\ me_rvr x = gl_new 3 /\ c_weathers (me_common x) = gl_new 3 /\ c_clouds (me_common x) = cloudlist_new
  /\ no_temps (me_temps x) /\ no_press (me_press x) /\ no_recent (me_recent x) /\ me_ws x = gl_new 3 /\ no_sea (me_sea x)
  /\ no_rs (me_rwy x).

Lemma holds_no : forall A B (is : A -> B -> Prop) (no : B -> Prop) a o v,
  holds is (eq a) o v -> no a -> holds is no o v.
Proof. intros A B is no a [x|] v H K; cbn in *; [exact H|subst; exact K]. Qed.

Definition upd_wind (w : metar_wind) (x : metar) : metar :=
  upd_common (mk_common [] w (c_vis (me_common x)) (c_weathers (me_common x)) (c_clouds (me_common x))) x.
Definition upd_vis (v : visibility) (x : metar) : metar :=
  upd_common (mk_common [] (c_wind (me_common x)) v (c_weathers (me_common x)) (c_clouds (me_common x))) x.
Definition upd_weathers (l : grouplist weather) (x : metar) : metar :=
  upd_common (mk_common [] (c_wind (me_common x)) (c_vis (me_common x)) l (c_clouds (me_common x))) x.
Definition upd_clouds (l : grouplist cloud) (x : metar) : metar :=
  upd_common (mk_common [] (c_wind (me_common x)) (c_vis (me_common x)) (c_weathers (me_common x)) l) x.

(** ** The header *)

Lemma type_match : forall w, In w [("METAR", "Meteorological Aerodrome Report"); ("SPECI", "Special Aerodrome Report")] ->
  exists m, re_match r_TYPE (code_of w) = Some m /\ m_string m = code_of w
    /\ ty_code (type_new (code_of w)) = Some (code_of w) /\ ty_type (type_new (code_of w)) = Some (text_of w).
Proof.
  intros w H. cbn in H. repeat (destruct H as [<-|H]; [eexists; split; [vm_compute; reflexivity|repeat split]|]).
  destruct H.
Qed.

Definition upper_sym : sym := map N.of_nat (seq 65 26).
Definition alnum_sym : sym := upper_sym ++ digits10.
Lemma upper_in : forall c, is_upper c -> In c upper_sym.
Proof.
  intros c [H1 H2]. unfold upper_sym. apply in_map_iff. exists (N.to_nat c). split; [apply N2Nat.id|].
  apply in_seq. lia.
Qed.
Lemma alnum_in : forall c, is_alnum c -> In c alnum_sym.
Proof.
  intros c [H|H]; unfold alnum_sym; apply in_or_app; [left; apply upper_in; exact H|right].
  assert (E : (c = 48 \/ c = 49 \/ c = 50 \/ c = 51 \/ c = 52 \/ c = 53 \/ c = 54 \/ c = 55 \/ c = 56 \/ c = 57)%N) by lia.
  cbn. intuition.
Qed.
Definition station_shape : list sym := [upper_sym; alnum_sym; alnum_sym; alnum_sym].
Lemma station_inst : forall s, station_wf s -> inst s station_shape.
Proof.
  intros s (a & b & c & d & -> & Ha & Hb & Hc & Hd). unfold station_shape.
  constructor; [apply upper_in; exact Ha|]. constructor; [apply alnum_in; exact Hb|].
  constructor; [apply alnum_in; exact Hc|]. constructor; [apply alnum_in; exact Hd|]. constructor.
Qed.
Lemma station_match : forall s, station_wf s -> exists m, re_match r_STATION s = Some m /\ m_string m = s.
Proof.
  intros s H. pose proof (station_inst s H) as Hi.
  destruct (smatch r_STATION station_shape) as [[[e sp]|]|] eqn:E; try (vm_compute in E; discriminate).
  eexists. split; [exact (smatch_sound _ _ _ _ Hi E)|reflexivity].
Qed.
Lemma station_code_ok : forall e s, station_wf s -> st_code (station_new e (Some s)) = Some s.
Proof.
  intros e s (a & b & c & d & -> & Ha & Hb & Hc & Hd). unfold station_new. cbn [st_code].
  apply group_code_id. unfold is_alnum, is_upper in *. intro K. cbn in K. lia.
Qed.

(** ** The body *)

Definition metar_groups (g : metar_g) : list str :=
  code_of (g_type g) :: g_station g :: stamp_code (g_day g) (g_hour g) (g_minute g)
  :: of_option code_of (g_modifier g) ++ of_option wind_code (g_wind g) ++ of_option wvar_code (g_wvar g)
  ++ of_option vis_code (g_vis g) ++ of_option vis_code (g_minvis g) ++ map rvr_code (g_rvrs g)
  ++ map weather_code (g_weathers g) ++ map cloud_code (g_clouds g) ++ of_option temps_code (g_temps g)
  ++ map press_code (g_press g) ++ of_option recent_code (g_recent g) ++ map ws_token (map snd (g_ws g))
  ++ of_option sea_code (g_sea g) ++ of_option rs_code_of (g_rwy g) ++ [].

Lemma one_le : forall A B (f : A -> B) o n, 1 <= n -> length (of_option f o) <= n.
Proof. intros A B f o n H. pose proof (of_option_length A B f o). lia. Qed.

Lemma bare_lift : forall c x, bare (upd_common c x) = upd_common (mute c) x.
Proof. reflexivity. Qed.
Lemma upd_common_bare : forall c x, upd_common c (bare x) = upd_common c x.
Proof. reflexivity. Qed.

Lemma phase_f : forall S (hs : list (handler S)) r f gs st st', feed r f gs st = Ok st' -> forall lo n p i rest,
  lo <= i <= p -> length gs <= n -> (forall j, j < n -> nth_error hs (p + j) = Some (mk_handler r f)) ->
  Forall (fun g => passes hs lo p g /\ re_match r g <> None) gs ->
  exists i', i <= i' <= p + n /\ (gs <> [] -> p < i')
    /\ parse_groups hs (gs ++ rest) i [] st = parse_groups hs rest i' [] st'.
Proof. intros. eapply phase; eassumption. Qed.

Lemma metar_body : forall e y mo g x, metar_wf y mo g -> fresh_metar x ->
  exists x', parse_groups (metar_handlers e (Some y) (Some mo)) (metar_groups g) 0 [] x = Ok (x', [])
    /\ metar_holds y mo g x' /\ me_unparsed x' = me_unparsed x /\ me_trends x' = me_trends x
    /\ me_sections x' = me_sections x /\ me_out x' = me_out x /\ me_raw x' = me_raw x.
Proof.
  intros e y mo g x H Hx. unfold metar_groups.
  destruct H as (Hty & (Hst & _) & Hy & Hd & Hh & Hmi & Hmod & Hwi & Hwv & Hvi & (Hmv & Hmv2) & (Hrv & Lrv) & (Hwx & Lwx)
    & (Hcl & Lcl) & Hte & (Hpr & Lpr) & Hre & (Hws & Lws) & Hse & Hrw).
  destruct Hx as (X1 & X2 & X3 & X4 & X5 & X6 & X7 & X8 & X9 & X10 & X11 & X12 & X13 & X14).
  set (hs := metar_handlers e (Some y) (Some mo)).
  (* type *)
  destruct (type_match _ Hty) as (m1 & M1 & S1 & T1 & T2).
  rewrite (parse_at hs 0 0 _ _ (mk_handler r_TYPE handle_type) m1); [|lia|intros j h Hj; lia|reflexivity|exact M1].
  cbn [h_handle]. unfold handle_type. rewrite S1. cbn [bind].
  set (x1 := out_string _ _).
  assert (B1 : bare x1 = upd_type (type_new (code_of (g_type g))) (bare x)) by reflexivity.
  clearbody x1.
  (* station *)
  destruct (station_match _ Hst) as (m2 & M2 & S2).
  rewrite (parse_at hs 1 1 _ _ (mk_handler r_STATION (handle_station e)) m2); [|lia|intros j h Hj; lia|reflexivity|exact M2].
  cbn [h_handle]. unfold handle_station. rewrite S2. cbn [bind].
  set (x2 := out_string _ _).
  assert (B2 : bare x2 = upd_station (station_new e (Some (g_station g))) (bare x1)) by reflexivity.
  clearbody x2.
  (* time *)
  destruct Hd as (Hyr & n & Hn & Hdn).
  assert (Hmo : (1 <= mo <= 12)%Z).
  { inversion Hn; subst; cbn in *; intuition lia. }
  assert (Hn31 : (n <= 31)%Z) by (inversion Hn; lia).
  assert (Hd31 : (1 <= g_day g <= 31)%N) by lia.
  destruct (report_time e y mo (g_day g) (g_hour g) (g_minute g)) as [RT _]; try lia.
  destruct RT as (t & Et & T3 & T4); [split; [split; [exact Hyr|exists n; auto]|exact Hh]|].
  destruct (time_captures (g_day g) (g_hour g) (g_minute g)) as (m3 & M3 & _ & _); try lia.
  rewrite M3 in Et.
  rewrite (parse_at hs 2 2 _ _ (mk_handler r_TIME (handle_time e (Some y) (Some mo))) m3);
    [|lia|intros j h Hj; lia|reflexivity|exact M3].
  cbn [h_handle]. unfold handle_time. rewrite Et. cbn [bind].
  set (x3 := out_string _ _).
  assert (B3 : bare x3 = upd_time t (bare x2)) by reflexivity.
  clearbody x3.
  (* modifier *)
  destruct (modifier_feed (g_modifier g) x3 Hmod) as (x4 & v4 & F4 & B4 & V4).
  match goal with |- context [parse_groups hs (_ ++ ?rest) 3 [] x3] =>
    destruct (phase_f _ hs _ _ _ _ _ F4 3 1 3 3 rest) as (i4 & I4 & _ & P4) end.
  { lia. } { apply one_le; lia. } { slot. }
  { apply of_option_Forall. destruct (g_modifier g) as [w|]; [|exact I]. cbn [opt_all of_option feed] in *.
    split; [intros j h Hj; lia|]. cbn in Hmod. intro K.
    repeat (destruct Hmod as [<-|Hmod]; [vm_compute in K; discriminate K|]). destruct Hmod. }
  rewrite P4. clear P4 F4.
  (* wind *)
  destruct (wind_feed r_WIND (g_wind g) (me_common x4) r_WIND_decodes Hwi) as (c5 & F5 & B5 & V5).
  assert (F5' : feed r_WIND (lift handle_wind) (of_option wind_code (g_wind g)) x4 = Ok (upd_common c5 x4))
    by (rewrite lift_feed, F5; reflexivity).
  match goal with |- context [parse_groups hs (_ ++ ?rest) i4 [] x4] =>
    destruct (phase_f _ hs _ _ _ _ _ F5' 3 1 4 i4 rest) as (i5 & I5 & _ & P5) end.
  { lia. } { apply one_le; lia. } { slot. }
  { apply of_option_Forall. eapply opt_all_impl; [|exact Hwi]. intros w Hw. split.
    - apply passes_between. intros r Hr. apply wind_free; [exact Hw|]. exact (in_wind e (Some y) (Some mo) r Hr).
    - destruct (wind_captures w Hw) as (m & Em & _). exact (some_not_none _ _ _ Em). }
  rewrite P5. clear P5 F5 F5'.
  set (x5 := upd_common c5 x4) in *.
  assert (B5' : bare x5 = upd_wind (c_wind c5) (bare x4)).
  { unfold x5. rewrite bare_lift, B5. reflexivity. }
  clearbody x5. clear B5.
  (* wind variation *)
  destruct (wvar_feed (g_wvar g) x5 Hwv) as (x6 & v6 & F6 & B6 & V6).
  match goal with |- context [parse_groups hs (_ ++ ?rest) i5 [] x5] =>
    destruct (phase_f _ hs _ _ _ _ _ F6 3 1 5 i5 rest) as (i6 & I6 & _ & P6) end.
  { lia. } { apply one_le; lia. } { slot. }
  { apply of_option_Forall. eapply opt_all_impl; [|exact Hwv]. intros w Hw. split.
    - apply passes_between. intros r Hr. apply wvar_free; [exact Hw|]. exact (in_wvar e (Some y) (Some mo) r Hr).
    - destruct (wvar_captures w Hw) as (m & Em & _). exact (some_not_none _ _ _ Em). }
  rewrite P6. clear P6 F6.
  (* visibility *)
  assert (Hvi' : opt_all vis_wf (g_vis g)) by (eapply opt_all_impl; [|exact Hvi]; intros v [K _]; exact K).
  destruct (vis_feed r_VISIBILITY (g_vis g) (me_common x6) r_VISIBILITY_decodes Hvi') as (c7 & F7 & B7 & V7).
  assert (F7' : feed r_VISIBILITY (lift handle_prevailing) (of_option vis_code (g_vis g)) x6 = Ok (upd_common c7 x6))
    by (rewrite lift_feed, F7; reflexivity).
  match goal with |- context [parse_groups hs (_ ++ ?rest) i6 [] x6] =>
    destruct (phase_f _ hs _ _ _ _ _ F7' 3 1 6 i6 rest) as (i7 & I7 & J7 & P7) end.
  { lia. } { apply one_le; lia. } { slot. }
  { apply of_option_Forall. eapply opt_all_impl; [|exact Hvi']. intros w Hw. split.
    - apply passes_between. intros r Hr. apply vis_free; [exact Hw|]. exact (in_vis e (Some y) (Some mo) r Hr).
    - destruct (vis_captures w Hw) as (m & Em & _). exact (some_not_none _ _ _ Em). }
  rewrite P7. clear P7 F7 F7'.
  set (x7 := upd_common c7 x6) in *.
  assert (B7' : bare x7 = upd_vis (c_vis c7) (bare x6)).
  { unfold x7. rewrite bare_lift, B7. reflexivity. }
  clearbody x7. clear B7.
  (* minimum visibility *)
  destruct (minvis_feed (g_minvis g) x7 Hmv) as (x8 & v8 & F8 & B8 & V8).
  match goal with |- context [parse_groups hs (?gs ++ ?rest) i7 [] x7] =>
    assert (P8 : exists i8, 3 <= i8 <= 8 /\ parse_groups hs (gs ++ rest) i7 [] x7 = parse_groups hs rest i8 [] x8) end.
  { destruct (g_minvis g) as [w|] eqn:Em.
    - assert (i7 = 7).
      { destruct (g_vis g); [|specialize (Hmv2 eq_refl); discriminate Hmv2]. assert (6 < i7) by (apply J7; discriminate). lia. }
      match goal with |- exists i8, _ /\ parse_groups hs (?gs ++ ?rest) i7 [] x7 = _ =>
        destruct (phase_f _ hs _ _ _ _ _ F8 7 1 7 i7 rest) as (i8 & I8 & _ & P8) end.
      { lia. } { apply one_le; lia. } { slot. }
      { cbn [of_option]. repeat constructor; [intros j h Hj; lia|]. destruct Hmv as [Hw Hm].
        destruct (minvis_captures w Hw Hm) as (m & Em' & _). exact (some_not_none _ _ _ Em'). }
      exists i8. split; [lia|exact P8].
    - cbn [of_option feed] in F8. injection F8 as <-. exists i7. split; [lia|reflexivity]. }
  destruct P8 as (i8 & I8 & P8). rewrite P8. clear P8 F8.
  (* runway range *)
  assert (R8 : me_rvr x8 = gl_new 3).
  { change (me_rvr (bare x8) = gl_new 3).
    rewrite B8, B7', B6, B5', B4, B3, B2, B1. exact X6. }
  destruct (rvr_feed (g_rvrs g) x8 Hrv) as (x9 & v9 & F9 & B9 & V9).
  { rewrite R8. cbn. lia. }
  match goal with |- context [parse_groups hs (_ ++ ?rest) i8 [] x8] =>
    destruct (phase_f _ hs _ _ _ _ _ F9 3 3 8 i8 rest) as (i9 & I9 & _ & P9) end.
  { lia. } { rewrite map_length. lia. } { slot. }
  { apply (map_Forall _ _ _ _ _ Hrv). intros w Hw. split.
    - apply passes_between. intros r Hr. apply rvr_free; [exact Hw|]. exact (in_rvr e (Some y) (Some mo) r Hr).
    - destruct (rvr_captures w Hw) as (m & Em & _). exact (some_not_none _ _ _ Em). }
  rewrite P9. clear P9 F9.
  (* weather *)
  assert (R9 : c_weathers (me_common x9) = gl_new 3).
  { change (c_weathers (me_common (bare x9)) = gl_new 3).
    rewrite B9, B8, B7', B6, B5', B4, B3, B2, B1. exact X7. }
  assert (Hwx' : Forall weather_wf (g_weathers g)) by (eapply Forall_impl; [|exact Hwx]; intros w [K _]; exact K).
  destruct (weather_feed (g_weathers g) (me_common x9) Hwx') as (c10 & v10 & F10 & B10 & V10).
  { rewrite R9. cbn. lia. }
  assert (F10' : feed r_WEATHER (lift handle_weather) (map weather_code (g_weathers g)) x9 = Ok (upd_common c10 x9))
    by (rewrite lift_feed, F10; reflexivity).
  match goal with |- context [parse_groups hs (_ ++ ?rest) i9 [] x9] =>
    destruct (phase_f _ hs _ _ _ _ _ F10' 3 3 11 i9 rest) as (i10 & I10 & _ & P10) end.
  { lia. } { rewrite map_length. lia. } { slot. }
  { apply (map_Forall _ _ _ _ _ Hwx). intros w [Hw Hw2]. split.
    - apply passes_between. intros r Hr. apply weather_free; [exact Hw|exact Hw2|]. exact (in_wx e (Some y) (Some mo) r Hr).
    - destruct (weather_captures w Hw) as (m & Em & _). exact (some_not_none _ _ _ Em). }
  rewrite P10. clear P10 F10 F10'.
  set (x10 := upd_common c10 x9) in *.
  assert (B10' : bare x10 = upd_weathers (mk_gl (gl_n (c_weathers (me_common x9))) (gl_max (c_weathers (me_common x9)))
                              (gl_list (c_weathers (me_common x9)) ++ v10)) (bare x9)).
  { unfold x10. rewrite bare_lift, B10. reflexivity. }
  clearbody x10. clear B10. rewrite R9 in B10'. cbn [gl_new gl_n gl_max gl_list app] in B10'.
  (* clouds *)
  assert (R10 : c_clouds (me_common x10) = cloudlist_new).
  { change (c_clouds (me_common (bare x10)) = cloudlist_new).
    rewrite B10', B9, B8, B7', B6, B5', B4, B3, B2, B1. exact X8. }
  destruct (cloud_feed (g_clouds g) (me_common x10) Hcl) as (c11 & v11 & F11 & B11 & V11).
  { rewrite R10. cbn. lia. }
  assert (F11' : feed r_CLOUD (lift handle_cloud) (map cloud_code (g_clouds g)) x10 = Ok (upd_common c11 x10))
    by (rewrite lift_feed, F11; reflexivity).
  match goal with |- context [parse_groups hs (_ ++ ?rest) i10 [] x10] =>
    destruct (phase_f _ hs _ _ _ _ _ F11' 3 4 14 i10 rest) as (i11 & I11 & _ & P11) end.
  { lia. } { rewrite map_length. lia. } { slot. }
  { apply (map_Forall _ _ _ _ _ Hcl). intros w Hw. split.
    - apply passes_between. intros r Hr. apply cloud_free; [exact Hw|]. exact (in_cloud e (Some y) (Some mo) r Hr).
    - destruct (cloud_captures w Hw) as (m & Em & _). exact (some_not_none _ _ _ Em). }
  rewrite P11. clear P11 F11 F11'.
  set (x11 := upd_common c11 x10) in *.
  assert (B11' : bare x11 = upd_clouds (mk_gl (gl_n (c_clouds (me_common x10))) (gl_max (c_clouds (me_common x10)))
                              (gl_list (c_clouds (me_common x10)) ++ v11)) (bare x10)).
  { unfold x11. rewrite bare_lift, B11. reflexivity. }
  clearbody x11. clear B11. rewrite R10 in B11'. cbn [cloudlist_new gl_new gl_n gl_max gl_list app] in B11'.
  (* temperatures *)
  destruct (temps_feed (g_temps g) x11 Hte) as (x12 & v12 & F12 & B12 & V12).
  match goal with |- context [parse_groups hs (_ ++ ?rest) i11 [] x11] =>
    destruct (phase_f _ hs _ _ _ _ _ F12 3 1 18 i11 rest) as (i12 & I12 & _ & P12) end.
  { lia. } { apply one_le; lia. } { slot. }
  { apply of_option_Forall. eapply opt_all_impl; [|exact Hte]. intros w Hw. split.
    - apply passes_between. intros r Hr. apply temps_free; [exact Hw|]. exact (in_temps e (Some y) (Some mo) r Hr).
    - destruct (temps_captures w Hw) as (m & Em & _). exact (some_not_none _ _ _ Em). }
  rewrite P12. clear P12 F12.
  (* pressure *)
  destruct (press_feed (g_press g) x12 Hpr) as (x13 & v13 & F13 & B13 & V13).
  match goal with |- context [parse_groups hs (_ ++ ?rest) i12 [] x12] =>
    destruct (phase_f _ hs _ _ _ _ _ F13 3 2 19 i12 rest) as (i13 & I13 & _ & P13) end.
  { lia. } { rewrite map_length. lia. } { slot. }
  { apply (map_Forall _ _ _ _ _ Hpr). intros w [Hw Hw2]. split.
    - apply passes_between. intros r Hr. apply press_free; [exact Hw2|]. exact (in_press e (Some y) (Some mo) r Hr).
    - destruct (press_captures w) as (m & Em & _). exact (some_not_none _ _ _ Em). }
  rewrite P13. clear P13 F13.
  (* recent weather *)
  destruct (recent_feed (g_recent g) x13 Hre) as (x14 & v14 & F14 & B14 & V14).
  match goal with |- context [parse_groups hs (_ ++ ?rest) i13 [] x13] =>
    destruct (phase_f _ hs _ _ _ _ _ F14 3 1 21 i13 rest) as (i14 & I14 & _ & P14) end.
  { lia. } { apply one_le; lia. } { slot. }
  { apply of_option_Forall. eapply opt_all_impl; [|exact Hre]. intros w Hw. split.
    - apply passes_between. intros r Hr. apply recent_free; [exact Hw|]. exact (in_recent e (Some y) (Some mo) r Hr).
    - destruct (recent_captures w Hw) as (m & Em & _). exact (some_not_none _ _ _ Em). }
  rewrite P14. clear P14 F14.
  (* windshear *)
  assert (R14 : me_ws x14 = gl_new 3).
  { change (me_ws (bare x14) = gl_new 3).
    rewrite B14, B13, B12, B11', B10', B9, B8, B7', B6, B5', B4, B3, B2, B1. exact X12. }
  assert (Hws' : Forall ws_wf (map snd (g_ws g))) by (apply Forall_map; exact Hws).
  destruct (ws_feed (map snd (g_ws g)) x14 Hws') as (x15 & v15 & F15 & B15 & V15).
  { rewrite R14, map_length. cbn. lia. }
  match goal with |- context [parse_groups hs (_ ++ ?rest) i14 [] x14] =>
    destruct (phase_f _ hs _ _ _ _ _ F15 3 3 22 i14 rest) as (i15 & I15 & _ & P15) end.
  { lia. } { rewrite !map_length. lia. } { slot. }
  { apply (map_Forall _ _ _ _ _ Hws'). intros w Hw. split.
    - apply passes_between. intros r Hr. apply ws_free; [exact Hw|]. exact (in_ws e (Some y) (Some mo) r Hr).
    - destruct (ws_captures w Hw) as (m & Em & _). exact (some_not_none _ _ _ Em). }
  rewrite P15. clear P15 F15.
  (* sea state *)
  destruct (sea_feed (g_sea g) x15 Hse) as (x16 & v16 & F16 & B16 & V16).
  match goal with |- context [parse_groups hs (_ ++ ?rest) i15 [] x15] =>
    destruct (phase_f _ hs _ _ _ _ _ F16 3 1 25 i15 rest) as (i16 & I16 & _ & P16) end.
  { lia. } { apply one_le; lia. } { slot. }
  { apply of_option_Forall. eapply opt_all_impl; [|exact Hse]. intros w Hw. split.
    - apply passes_between. intros r Hr. apply sea_free; [exact Hw|]. exact (in_sea e (Some y) (Some mo) r Hr).
    - destruct (sea_captures w Hw) as (m & Em & _). exact (some_not_none _ _ _ Em). }
  rewrite P16. clear P16 F16.
  (* runway state *)
  destruct (rs_feed (g_rwy g) x16 Hrw) as (x17 & v17 & F17 & B17 & V17).
  match goal with |- context [parse_groups hs (_ ++ ?rest) i16 [] x16] =>
    destruct (phase_f _ hs _ _ _ _ _ F17 3 1 26 i16 rest) as (i17 & I17 & _ & P17) end.
  { lia. } { apply one_le; lia. } { slot. }
  { apply of_option_Forall. eapply opt_all_impl; [|exact Hrw]. intros w Hw. split.
    - apply passes_between. intros r Hr. apply rs_free; [exact Hw|]. exact (in_rwy e (Some y) (Some mo) r Hr).
    - destruct (rs_captures w Hw) as (m & Em & _). exact (some_not_none _ _ _ Em). }
  rewrite P17. clear P17 F17.
  exists x17. split; [reflexivity|].
  rewrite R8 in B9. rewrite R14 in B15. cbn [gl_new gl_n gl_max gl_list app] in B9, B15.
  change (me_modifier x3) with (me_modifier (bare x3)) in V4.
  change (c_wind (me_common x4)) with (c_wind (me_common (bare x4))) in V5.
  change (me_wvar x5) with (me_wvar (bare x5)) in V6.
  change (c_vis (me_common x6)) with (c_vis (me_common (bare x6))) in V7.
  change (me_minvis x7) with (me_minvis (bare x7)) in V8.
  change (me_temps x11) with (me_temps (bare x11)) in V12.
  change (me_press x12) with (me_press (bare x12)) in V13.
  change (me_recent x13) with (me_recent (bare x13)) in V14.
  change (me_sea x15) with (me_sea (bare x15)) in V16.
  change (me_rwy x16) with (me_rwy (bare x16)) in V17.
  rewrite B3, B2, B1 in B4, V4. clear B3 B2 B1.
  rewrite B4 in B5'. rewrite B5' in B6, V6. rewrite B6 in B7', V7. rewrite B7' in B8, V8. rewrite B8 in B9.
  rewrite B9 in B10'. rewrite B10' in B11'. rewrite B11' in B12, V12. rewrite B12 in B13, V13. rewrite B13 in B14, V14.
  rewrite B14 in B15. rewrite B15 in B16, V16. rewrite B16 in B17, V17. rewrite B4 in V5.
  change (metar_holds y mo g (bare x17) /\ me_unparsed (bare x17) = me_unparsed x /\ me_trends (bare x17) = me_trends x
    /\ me_sections (bare x17) = me_sections x /\ me_out (bare x17) = me_out x /\ me_raw (bare x17) = me_raw x).
  rewrite B17. split; [|conjs; reflexivity].
  unfold metar_holds. conjs.
  - exact T1.
  - exact T2.
  - exact (station_code_ok e (g_station g) Hst).
  - exact T3.
  - exact T4.
  - exact (holds_no _ _ _ _ _ _ _ V4 X1).
  - exact (holds_no _ _ _ _ _ _ _ V5 X2).
  - exact (holds_no _ _ _ _ _ _ _ V6 X3).
  - exact (holds_no _ _ _ _ _ _ _ V7 X4).
  - exact (holds_no _ _ _ _ _ _ _ V8 X5).
  - exact V9.
  - exact V10.
  - exact V11.
  - exact (holds_no _ _ _ _ _ _ _ V12 X9).
  - exact (holds_no _ _ _ _ _ _ _ V13 X10).
  - exact (holds_no _ _ _ _ _ _ _ V14 X11).
  - exact V15.
  - exact (holds_no _ _ _ _ _ _ _ V16 X13).
  - exact (holds_no _ _ _ _ _ _ _ V17 X14).
Qed.
