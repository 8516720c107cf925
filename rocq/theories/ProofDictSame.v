(** * What the dictionary of a report settles (C64) *)
From Coq Require Import String Ascii.
From Coq Require Import List NArith ZArith Bool Lia.
From Verif Require Import PyBase PyRegex AeroRegex PyFloat PyTime Utils Base MetarGroups Trend Metar Taf AsDict SpecNum SpecTime SpecMoment SpecDict
  ProofLists ProofGroups ProofValues ProofJsonReport ProofMomentReport ProofDict ProofDictReport.
Import ListNotations.
Local Open Scope string_scope.
Local Open Scope nat_scope.
Local Open Scope list_scope.

(** ** Values *)

Lemma vopt_same : forall a b, vopt a = vopt b -> a = b.
Proof. intros [a|] [b|] H; try discriminate H; [injection H as ->; reflexivity|reflexivity]. Qed.
Lemma vflo_same : forall a b, vflo a = vflo b -> a = b.
Proof. intros [a|] [b|] H; try discriminate H; [injection H as ->; reflexivity|reflexivity]. Qed.
Lemma vbool_same : forall a b, VBool a = VBool b -> a = b.
Proof. intros. congruence. Qed.
Lemma vstr_same : forall a b, VStr a = VStr b -> a = b.
Proof. intros. congruence. Qed.
Lemma vdict_same : forall a b, VDict a = VDict b -> a = b.
Proof. intros. congruence. Qed.
Lemma vlist_same : forall a b, VList a = VList b -> a = b.
Proof. intros. congruence. Qed.
Lemma entry_same : forall k l (a b : pyval) (c d : dict), (k, a) :: c = (l, b) :: d -> a = b /\ c = d.
Proof. intros. split; congruence. Qed.

(** Entry by entry. *)
Ltac entries_of H :=
  match type of H with
  | _ :: _ = _ :: _ => let X := fresh "X" in apply entry_same in H; destruct H as [X H]; entries_of H
  | _ => clear H
  end.
Ltac values :=
  repeat match goal with
  | X : vopt _ = vopt _ |- _ => apply vopt_same in X
  | X : vflo _ = vflo _ |- _ => apply vflo_same in X
  | X : VBool _ = VBool _ |- _ => apply vbool_same in X
  | X : VDict _ = VDict _ |- _ => apply vdict_same in X
  end.

Lemma distance_same : forall a b, distance_dict a = distance_dict b -> a = b.
Proof. intros a b H. unfold distance_dict in H. entries_of H. values. assumption. Qed.
Lemma pressure_same : forall a b, pressure_dict a = pressure_dict b -> a = b.
Proof. intros a b H. unfold pressure_dict in H. entries_of H. values. assumption. Qed.
Lemma temperature_same : forall a b, temperature_dict a = temperature_dict b -> a = b.
Proof. intros a b H. unfold temperature_dict in H. entries_of H. values. assumption. Qed.
Lemma speed_same : forall a b, speed_dict a = speed_dict b -> a = b.
Proof. intros a b H. unfold speed_dict in H. entries_of H. values. assumption. Qed.
Lemma direction_same : forall a b, direction_dict a = direction_dict b -> a = b.
Proof.
  intros [v w] [v' w'] H. unfold direction_dict in H. cbn [dir_variable dir_value] in H. entries_of H. values. congruence.
Qed.

Ltac joined_in H := rewrite !dupdate_new in H by (lazy; reflexivity); cbn [app] in H; entries_of H; values;
  repeat match goal with
  | X : distance_dict _ = _ |- _ => apply distance_same in X
  | X : temperature_dict _ = _ |- _ => apply temperature_same in X
  | X : speed_dict _ = _ |- _ => apply speed_same in X
  | X : direction_dict _ = _ |- _ => apply direction_same in X
  end.

Lemma wind_same : forall a b, wind_dict a = wind_dict b -> a = b.
Proof. intros [c d s g] [c' d' s' g'] H. unfold wind_dict, group_dict in H. cbn in d, d'. joined_in H. cbn [w_code w_dir w_speed w_gust] in *. congruence. Qed.
Lemma wvar_same : forall a b, wvar_dict a = wvar_dict b -> a = b.
Proof. intros [c d s] [c' d' s'] H. unfold wvar_dict, group_dict in H. joined_in H. cbn [wv_code wv_from wv_to] in *. congruence. Qed.
Lemma vis_same : forall a b, vis_dict a = vis_dict b -> same_sight a b.
Proof. intros [c d s g] [c' d' s' g'] H. unfold vis_dict, group_dict in H. joined_in H. split; [|split]; assumption. Qed.
Lemma prevailing_same : forall a b, prevailing_dict a = prevailing_dict b -> a = b.
Proof.
  intros [c d s g] [c' d' s' g'] H. unfold prevailing_dict, vis_dict, group_dict in H. joined_in H.
  cbn [v_code v_vis v_dir v_cavok] in *. congruence.
Qed.
Lemma cloud_same : forall a b, cloud_dict a = cloud_dict b -> a = b.
Proof. intros [c d s g i] [c' d' s' g' i'] H. unfold cloud_dict, group_dict in H. joined_in H. cbn [cl_code cl_cover cl_oktas cl_type cl_height] in *. congruence. Qed.
Lemma weather_same : forall a b, weather_dict a = weather_dict b -> a = b.
Proof.
  intros [c d s g i j] [c' d' s' g' i' j'] H. unfold weather_dict, group_dict in H. joined_in H.
  cbn [we_code we_int we_desc we_prec we_obsc we_other] in *. congruence.
Qed.
Lemma recent_same : forall a b, recent_dict a = recent_dict b -> a = b.
Proof.
  intros [c d s g i] [c' d' s' g' i'] H. unfold recent_dict, group_dict in H. joined_in H.
  cbn [rw_code rw_desc rw_prec rw_obsc rw_other] in *. congruence.
Qed.
Lemma rvr_same : forall a b, rvr_dict a = rvr_dict b -> a = b.
Proof.
  intros [c d s g i j k] [c' d' s' g' i' j' k'] H. unfold rvr_dict, group_dict in H. joined_in H.
  cbn [rr_code rr_name rr_rvr_low rr_rvr_high rr_trend rr_low rr_high] in *. congruence.
Qed.
Lemma temps_same : forall a b, temps_dict a = temps_dict b -> a = b.
Proof. intros [c d s] [c' d' s'] H. unfold temps_dict, group_dict in H. joined_in H. cbn [te_code te_temp te_dewpt] in *. congruence. Qed.
Lemma ws_same : forall a b, ws_dict a = ws_dict b -> same_shear a b.
Proof. intros a b H. unfold ws_dict, group_dict in H. joined_in H. split; [|split]; assumption. Qed.
Lemma sea_same : forall a b, sea_dict a = sea_dict b -> a = b.
Proof. intros [c d s g] [c' d' s' g'] H. unfold sea_dict, group_dict in H. joined_in H. cbn [se_code se_temp se_state se_height] in *. congruence. Qed.
Lemma clrd_said : forall r, rs_clrd r = match rs_clrd_text r with Some _ => true | None => false end.
Proof.
  intro r. unfold rs_clrd_text. destruct (rs_clrd r); [|reflexivity]. cbv zeta.
  destruct (opt_str_eqb _ _); [reflexivity|]. destruct (opt_str_eqb _ _); reflexivity.
Qed.
Lemma rs_same : forall a b, rs_dict a = rs_dict b -> same_runway a b.
Proof.
  intros a b H. unfold rs_dict, group_dict in H. joined_in H. unfold same_runway.
  assert (rs_clrd a = rs_clrd b) by (rewrite !clrd_said; match goal with X : rs_clrd_text a = _ |- _ => rewrite X end; reflexivity).
  conjs; assumption.
Qed.
Lemma type_same : forall a b, type_dict a = type_dict b -> a = b.
Proof. intros [c d] [c' d'] H. unfold type_dict, group_dict in H. joined_in H. cbn [ty_code ty_type] in *. congruence. Qed.
Lemma modifier_same : forall a b, modifier_dict a = modifier_dict b -> a = b.
Proof. intros [c d] [c' d'] H. unfold modifier_dict, group_dict in H. joined_in H. cbn [mo_code mo_desc] in *. congruence. Qed.
Lemma station_same : forall e a b, station_dict e a = station_dict e b -> st_code a = st_code b.
Proof. intros e a b H. unfold station_dict, group_dict in H. joined_in H. assumption. Qed.
Lemma missing_same : forall a b, missing_dict a = missing_dict b -> a = b.
Proof.
  intros [[c d] s] [[c' d'] s'] H. unfold missing_dict, modifier_dict, group_dict in H. joined_in H.
  cbn [mi_mod mi_missing mo_code mo_desc] in *. congruence.
Qed.
Lemma cancelled_same : forall a b, cancelled_dict a = cancelled_dict b -> a = b.
Proof. intros [c d] [c' d'] H. unfold cancelled_dict, group_dict in H. joined_in H. cbn [ca_code ca_cancelled] in *. congruence. Qed.

(** ** Moments *)

Lemma front_same : forall A (a b c d : list A), length a = length b -> a ++ c = b ++ d -> a = b /\ c = d.
Proof.
  intros A a. induction a as [|x a IH]; intros [|y b] c d L E; try discriminate L; [auto|].
  cbn [app] in E. cbn [length] in L. injection L as L. injection E as -> E. destruct (IH b c d L E) as [-> ->]. auto.
Qed.

Lemma digits_same : forall k (a b : Z) (c d : str), (0 <= a < 10 ^ Z.of_nat k)%Z -> (0 <= b < 10 ^ Z.of_nat k)%Z ->
  digits k (Z.to_N a) ++ c = digits k (Z.to_N b) ++ d -> a = b /\ c = d.
Proof.
  intros k a b c d Ha Hb E. apply front_same in E; [|rewrite !ProofGroups.digits_length; reflexivity]. destruct E as [E1 E2].
  split; [|exact E2].
  assert (P : forall z, (0 <= z < 10 ^ Z.of_nat k)%Z -> (Z.to_N z < 10 ^ N.of_nat k)%N).
  { intros z Hz. apply N2Z.inj_lt. rewrite Z2N.id by lia. rewrite N2Z.inj_pow, nat_N_Z. change (Z.of_N 10) with 10%Z. lia. }
  apply digits_inj in E1; [|apply P; exact Ha|apply P; exact Hb]. lia.
Qed.

Lemma month_bound : forall y m n, month_length y m n -> (1 <= m <= 12)%Z /\ (28 <= n <= 31)%Z.
Proof. intros y m n H. destruct H as [m H|m H|H|H]; cbn [In] in *; lia. Qed.

Lemma moment_same : forall a b, real_time a -> real_time b -> moment_text a = moment_text b -> a = b.
Proof.
  intros [y m d h mi] [y' m' d' h' mi'] ((Y & n & Mn & D) & H & M) ((Y' & n' & Mn' & D') & H' & M') E.
  apply month_bound in Mn, Mn'. cbn [dt_year dt_month dt_day dt_hour dt_minute] in *. unfold moment_text in E.
  cbn [dt_year dt_month dt_day dt_hour dt_minute] in E.
  apply digits_same in E; [|change (10 ^ Z.of_nat 4)%Z with 10000%Z; lia|change (10 ^ Z.of_nat 4)%Z with 10000%Z; lia]. destruct E as [-> E].
  apply (app_inv_head (py "-")) in E.
  apply digits_same in E; [|change (10 ^ Z.of_nat 2)%Z with 100%Z; lia|change (10 ^ Z.of_nat 2)%Z with 100%Z; lia]. destruct E as [-> E].
  apply (app_inv_head (py "-")) in E.
  apply digits_same in E; [|change (10 ^ Z.of_nat 2)%Z with 100%Z; lia|change (10 ^ Z.of_nat 2)%Z with 100%Z; lia]. destruct E as [-> E].
  apply (app_inv_head (py " ")) in E.
  apply digits_same in E; [|change (10 ^ Z.of_nat 2)%Z with 100%Z; lia|change (10 ^ Z.of_nat 2)%Z with 100%Z; lia]. destruct E as [-> E].
  apply (app_inv_head (py ":")) in E.
  apply digits_same in E; [|change (10 ^ Z.of_nat 2)%Z with 100%Z; lia|change (10 ^ Z.of_nat 2)%Z with 100%Z; lia]. destruct E as [-> _].
  reflexivity.
Qed.

Lemma str_same : forall a b, real_time (t_dt a) -> real_time (t_dt b) -> VStr (time_str a) = VStr (time_str b) -> t_dt a = t_dt b.
Proof.
  intros a b Ra Rb H. apply vstr_same in H. rewrite (moment_str _ Ra), (moment_str _ Rb) in H. exact (moment_same _ _ Ra Rb H).
Qed.

Lemma time_same : forall a b, real_time (t_dt a) -> real_time (t_dt b) -> time_dict a = time_dict b -> a = b.
Proof.
  intros a b Ra Rb H. unfold time_dict, group_dict in H. joined_in H.
  match goal with X : VStr _ = VStr _ |- _ => apply (str_same _ _ Ra Rb) in X end. destruct a as [ca da], b as [cb db]. cbn [t_code t_dt] in *. congruence.
Qed.

Lemma valid_same : forall a b, real_valid a -> real_valid b -> valid_dict a = valid_dict b -> a = b.
Proof.
  intros [c f u] [c' f' u'] [F U] [F' U'] H. unfold valid_dict, group_dict in H. cbn [va_code va_from va_until] in *. joined_in H.
  repeat match goal with X : time_dict _ = time_dict _ |- _ => apply time_same in X; [|assumption|assumption] end. congruence.
Qed.

Definition temp_moment (t : taf_temp) : Prop := real_time (t_dt (tt_time t)) /\ t_code (tt_time t) = None.

Lemma temp_same : forall a b, temp_moment a -> temp_moment b -> taf_temp_dict a = taf_temp_dict b -> same_temp a b.
Proof.
  intros a b [Ra Ca] [Rb Cb] H.
  assert (F : forall t, taf_temp_dict t = [(py "units", VStr (py "celsius")); (py "temperature", vflo (tt_value t));
    (py "code", vopt (t_code (tt_time t))); (py "datetime", VStr (time_str (tt_time t)))]).
  { intro t. unfold taf_temp_dict, time_dict, group_dict, temperature_dict.
    rewrite (dupdate_new [(py "code", vopt (tt_code t))]) by (lazy; reflexivity).
    rewrite (dupdate_new [(py "code", vopt (t_code (tt_time t)))] [(py "datetime", VStr (time_str (tt_time t)))]) by (lazy; reflexivity).
    reflexivity. }
  rewrite !F in H. entries_of H. values.
  repeat match goal with X : VStr (time_str _) = VStr _ |- _ => apply (str_same _ _ Ra Rb) in X end.
  split; [assumption|]. destruct (tt_time a) as [ca da], (tt_time b) as [cb db]. cbn [t_code t_dt] in *. congruence.
Qed.

(** ** Lists *)

Lemma entries_same : forall (l m : list dict) (ks : list str), length l <= length ks -> length m <= length ks ->
  combine (firstn (length l) ks) (map VDict l) = combine (firstn (length m) ks) (map VDict m) -> l = m.
Proof.
  induction l as [|x l IH]; intros [|y m] [|k ks] L M E; cbn [length] in *; try reflexivity; try lia;
    cbn [firstn map combine] in E; try discriminate E.
  apply entry_same in E. destruct E as [E1 E2]. apply vdict_same in E1. subst y. f_equal. apply (IH m ks); [lia|lia|exact E2].
Qed.

Lemma list_same : forall A (f : A -> dict) (R : A -> A -> Prop) (P : A -> Prop) (g h : grouplist A) d, few g -> few h ->
  (forall a b, P a -> P b -> f a = f b -> R a b) -> Forall P (gl_list g) -> Forall P (gl_list h) ->
  list_dict f g = Ok d -> list_dict f h = Ok d -> Forall2 R (gl_list g) (gl_list h).
Proof.
  intros A f R P g h d [G1 G2] [H1 H2] S Pg Ph Eg Eh. unfold list_dict in Eg, Eh.
  rewrite list_from_new in Eg; [|reflexivity|rewrite map_length; lia]. rewrite list_from_new in Eh; [|reflexivity|rewrite map_length; lia].
  rewrite <- Eh in Eg. assert (E : forall a b : dict, Ok a = Ok b -> a = b) by (intros; congruence). apply E in Eg. cbn [app skipn] in Eg.
  apply entries_same in Eg; [|rewrite map_length; change (length labels) with 10; lia|rewrite map_length; change (length labels) with 10; lia].
  clear - Eg S Pg Ph. revert Eg Ph. generalize (gl_list h). induction Pg as [|x l Px Pl IH]; intros [|y m] E Ph; try discriminate E; [constructor|].
  cbn [map] in E. assert (f x = f y /\ map f l = map f m) as [E1 E2] by (split; congruence).
  constructor; [exact (S _ _ Px (Forall_inv Ph) E1)|exact (IH _ E2 (Forall_inv_tail Ph))].
Qed.

Lemma equal_all : forall A (l m : list A), Forall2 eq l m -> l = m.
Proof. intros A l m H. induction H as [|x y l m E _ IH]; [reflexivity|]. subst y. f_equal. exact IH. Qed.

Lemma all_true : forall A (l : list A), Forall (fun _ => True) l.
Proof. intros A l. apply Forall_forall. auto. Qed.

Lemma list_equal : forall A (f : A -> dict) (g h : grouplist A) d, few g -> few h -> (forall a b, f a = f b -> a = b) ->
  list_dict f g = Ok d -> list_dict f h = Ok d -> gl_list g = gl_list h.
Proof.
  intros A f g h d G H S Eg Eh. apply equal_all.
  exact (list_same A f eq (fun _ => True) g h d G H (fun a b _ _ => S a b) (all_true _ _) (all_true _ _) Eg Eh).
Qed.

Lemma listed_same : forall A (f : A -> dict) l m, (forall a b, f a = f b -> a = b) ->
  map (fun x => VDict (f x)) l = map (fun x => VDict (f x)) m -> l = m.
Proof.
  intros A f l m S. revert m. induction l as [|x l IH]; intros [|y m] E; try discriminate E; [reflexivity|].
  cbn [map] in E. assert (f x = f y) as E1 by congruence. rewrite (S _ _ E1). f_equal. apply IH. congruence.
Qed.
Lemma texts_same : forall l m, map VStr l = map VStr m -> l = m.
Proof.
  induction l as [|x l IH]; intros [|y m] E; try discriminate E; [reflexivity|].
  cbn [map] in E. assert (x = y) as -> by congruence. f_equal. apply IH. congruence.
Qed.

Lemma forecast_same : forall k k' c c', fresh c -> fresh c' -> fst (forecast_dict k c) = fst (forecast_dict k' c') -> same_forecast k k' c c'.
Proof.
  intros k k' c c' [F1 F2] [G1 G2] H. unfold forecast_dict in H.
  rewrite (gl_collect_fresh (c_weathers c) F1), (gl_collect_fresh (c_clouds c) F2) in H.
  rewrite (gl_collect_fresh (c_weathers c') G1), (gl_collect_fresh (c_clouds c') G2) in H.
  cbn [fst] in H. unfold group_dict in H. rewrite !dupdate_new in H by (lazy; reflexivity). cbn [app] in H. entries_of H. values.
  repeat match goal with
  | X : wind_dict _ = wind_dict _ |- _ => apply wind_same in X
  | X : prevailing_dict _ = prevailing_dict _ |- _ => apply prevailing_same in X
  | X : VList (map (fun x => VDict (weather_dict x)) _) = _ |- _ => apply vlist_same, (listed_same _ _ _ _ weather_same) in X
  | X : VList (map (fun x => VDict (cloud_dict x)) _) = _ |- _ => apply vlist_same, (listed_same _ _ _ _ cloud_same) in X
  end.
  unfold same_forecast. conjs; assumption.
Qed.

(** ** Reports *)

Theorem metar_settled : forall e code y mo tr x code' y' mo' tr' x' d,
  metar_parse e code y mo tr = Ok x -> metar_parse e code' y' mo' tr' = Ok x' ->
  metar_dict e x = Ok d -> metar_dict e x' = Ok d -> same_metar x x'.
Proof.
  intros e code y mo tr x code' y' mo' tr' x' d P P' D D'.
  destruct (metar_short _ _ _ _ _ _ P) as ((F1 & F2) & F3 & F4 & F5).
  pose proof (metar_fresh _ _ _ _ _ _ P) as Fr. destruct (metar_moments_ok _ _ _ _ _ _ P) as [R _]. clear P.
  destruct (metar_short _ _ _ _ _ _ P') as ((F1' & F2') & F3' & F4' & F5').
  pose proof (metar_fresh _ _ _ _ _ _ P') as Fr'. destruct (metar_moments_ok _ _ _ _ _ _ P') as [R' _]. clear P'.
  unfold metar_dict in D, D'.
  destruct (list_dict rvr_dict (me_rvr x)) as [rvr|] eqn:A1; [|discriminate D]. cbn [bind] in D.
  destruct (list_dict weather_dict (c_weathers (me_common x))) as [wea|] eqn:A2; [|discriminate D]. cbn [bind] in D.
  destruct (list_dict cloud_dict (c_clouds (me_common x))) as [clo|] eqn:A3; [|discriminate D]. cbn [bind] in D.
  destruct (list_dict ws_dict (me_ws x)) as [ws|] eqn:A4; [|discriminate D]. cbn [bind] in D.
  destruct (list_dict change_period_dict (me_trends x)) as [trd|] eqn:A5; [|discriminate D]. cbn [bind] in D.
  destruct (list_dict rvr_dict (me_rvr x')) as [rvr'|] eqn:B1; [|discriminate D']. cbn [bind] in D'.
  destruct (list_dict weather_dict (c_weathers (me_common x'))) as [wea'|] eqn:B2; [|discriminate D']. cbn [bind] in D'.
  destruct (list_dict cloud_dict (c_clouds (me_common x'))) as [clo'|] eqn:B3; [|discriminate D']. cbn [bind] in D'.
  destruct (list_dict ws_dict (me_ws x')) as [ws'|] eqn:B4; [|discriminate D']. cbn [bind] in D'.
  destruct (list_dict change_period_dict (me_trends x')) as [trd'|] eqn:B5; [|discriminate D']. cbn [bind] in D'.
  rewrite <- D' in D. assert (U : forall a b : dict, Ok a = Ok b -> a = b) by (intros; congruence). apply U in D. clear D' U.
  unfold report_dict in D. rewrite !dupdate_new in D by (lazy; reflexivity). cbn [app] in D. entries_of D. values.
  repeat match goal with X : ?a = ?b, B : list_dict _ _ = Ok ?b |- _ => is_var a; is_var b; rewrite <- X in B; clear X end.
  pose proof (list_equal _ _ _ _ _ F3 F3' rvr_same A1 B1). pose proof (list_equal _ _ _ _ _ F1 F1' weather_same A2 B2).
  pose proof (list_equal _ _ _ _ _ F2 F2' cloud_same A3 B3).
  pose proof (list_same _ _ same_shear (fun _ => True) _ _ _ F4 F4' (fun a b _ _ => ws_same a b) (all_true _ _) (all_true _ _) A4 B4).
  pose proof (list_same _ _ (fun p q => same_forecast (cp_code p) (cp_code q) (cp_common p) (cp_common q)) _ _ _ _ F5 F5'
    (fun a b Fa Fb E => forecast_same _ _ _ _ Fa Fb E) Fr Fr' A5 B5).
  repeat match goal with
  | X : VStr _ = VStr _ |- _ => apply vstr_same in X
  | X : VList (map VStr _) = _ |- _ => apply vlist_same, texts_same in X
  | X : type_dict _ = type_dict _ |- _ => apply type_same in X
  | X : station_dict _ _ = _ |- _ => apply station_same in X
  | X : time_dict _ = time_dict _ |- _ => apply (time_same _ _ R R') in X
  | X : modifier_dict _ = _ |- _ => apply modifier_same in X
  | X : wind_dict _ = _ |- _ => apply wind_same in X
  | X : wvar_dict _ = _ |- _ => apply wvar_same in X
  | X : prevailing_dict _ = _ |- _ => apply prevailing_same in X
  | X : vis_dict _ = _ |- _ => apply vis_same in X
  | X : temps_dict _ = _ |- _ => apply temps_same in X
  | X : pressure_dict _ = _ |- _ => apply pressure_same in X
  | X : recent_dict _ = _ |- _ => apply recent_same in X
  | X : sea_dict _ = _ |- _ => apply sea_same in X
  | X : rs_dict _ = _ |- _ => apply rs_same in X
  end.
  unfold same_metar. repeat (split; [assumption|]). assumption.
Qed.

Theorem taf_settled : forall e code y mo tr x code' y' mo' tr' x' d,
  taf_parse e code y mo tr = Ok x -> taf_parse e code' y' mo' tr' = Ok x' ->
  taf_dict e x = Ok d -> taf_dict e x' = Ok d -> same_taf x x'.
Proof.
  intros e code y mo tr x code' y' mo' tr' x' d P P' D D'.
  assert (G : forall t g, Forall (fun u => whole_hour 1 t (tt_time u)) (gl_list g) -> uncoded g -> Forall temp_moment (gl_list g)).
  { intros t g M N. apply Forall_forall. intros u Hu. split.
    - exact (proj1 (proj1 (Forall_forall _ _) M u Hu)).
    - exact (proj1 (Forall_forall _ _) N u Hu). }
  destruct (taf_short _ _ _ _ _ _ P) as ((F1 & F2) & F3 & F4 & F5).
  destruct (taf_fresh_parsed _ _ _ _ _ _ P) as (U1 & U2 & Fr). destruct (taf_moments_ok _ _ _ _ _ _ P) as (R & V & M1 & M2 & _). clear P.
  apply valid_moments_real in V. pose proof (G _ _ M1 U1) as Q1. pose proof (G _ _ M2 U2) as Q2.
  destruct (taf_short _ _ _ _ _ _ P') as ((F1' & F2') & F3' & F4' & F5').
  destruct (taf_fresh_parsed _ _ _ _ _ _ P') as (U1' & U2' & Fr'). destruct (taf_moments_ok _ _ _ _ _ _ P') as (R' & V' & M1' & M2' & _). clear P'.
  apply valid_moments_real in V'. pose proof (G _ _ M1' U1') as Q1'. pose proof (G _ _ M2' U2') as Q2'.
  unfold taf_dict in D, D'.
  destruct (list_dict weather_dict (c_weathers (ta_common x))) as [wea|] eqn:A1; [|discriminate D]. cbn [bind] in D.
  destruct (list_dict cloud_dict (c_clouds (ta_common x))) as [clo|] eqn:A2; [|discriminate D]. cbn [bind] in D.
  destruct (list_dict taf_temp_dict (ta_max x)) as [mx|] eqn:A3; [|discriminate D]. cbn [bind] in D.
  destruct (list_dict taf_temp_dict (ta_min x)) as [mn|] eqn:A4; [|discriminate D]. cbn [bind] in D.
  destruct (list_dict change_fc_dict (ta_changes x)) as [ch|] eqn:A5; [|discriminate D]. cbn [bind] in D.
  destruct (list_dict weather_dict (c_weathers (ta_common x'))) as [wea'|] eqn:B1; [|discriminate D']. cbn [bind] in D'.
  destruct (list_dict cloud_dict (c_clouds (ta_common x'))) as [clo'|] eqn:B2; [|discriminate D']. cbn [bind] in D'.
  destruct (list_dict taf_temp_dict (ta_max x')) as [mx'|] eqn:B3; [|discriminate D']. cbn [bind] in D'.
  destruct (list_dict taf_temp_dict (ta_min x')) as [mn'|] eqn:B4; [|discriminate D']. cbn [bind] in D'.
  destruct (list_dict change_fc_dict (ta_changes x')) as [ch'|] eqn:B5; [|discriminate D']. cbn [bind] in D'.
  rewrite <- D' in D. assert (U : forall a b : dict, Ok a = Ok b -> a = b) by (intros; congruence). apply U in D. clear D' U.
  unfold report_dict in D. rewrite !dupdate_new in D by (lazy; reflexivity). cbn [app] in D. entries_of D. values.
  repeat match goal with X : ?a = ?b, B : list_dict _ _ = Ok ?b |- _ => is_var a; is_var b; rewrite <- X in B; clear X end.
  pose proof (list_equal _ _ _ _ _ F1 F1' weather_same A1 B1). pose proof (list_equal _ _ _ _ _ F2 F2' cloud_same A2 B2).
  pose proof (list_same _ _ same_temp temp_moment _ _ _ F3 F3' temp_same Q1 Q1' A3 B3).
  pose proof (list_same _ _ same_temp temp_moment _ _ _ F4 F4' temp_same Q2 Q2' A4 B4).
  pose proof (list_same _ _ (fun p q => same_forecast (cf_code p) (cf_code q) (cf_common p) (cf_common q)) _ _ _ _ F5 F5'
    (fun a b Fa Fb E => forecast_same _ _ _ _ Fa Fb E) Fr Fr' A5 B5).
  repeat match goal with
  | X : VStr _ = VStr _ |- _ => apply vstr_same in X
  | X : VList (map VStr _) = _ |- _ => apply vlist_same, texts_same in X
  | X : type_dict _ = type_dict _ |- _ => apply type_same in X
  | X : station_dict _ _ = _ |- _ => apply station_same in X
  | X : time_dict _ = time_dict _ |- _ => apply (time_same _ _ R R') in X
  | X : modifier_dict _ = _ |- _ => apply modifier_same in X
  | X : missing_dict _ = _ |- _ => apply missing_same in X
  | X : valid_dict _ = _ |- _ => apply (valid_same _ _ V V') in X
  | X : cancelled_dict _ = _ |- _ => apply cancelled_same in X
  | X : wind_dict _ = _ |- _ => apply wind_same in X
  | X : prevailing_dict _ = _ |- _ => apply prevailing_same in X
  end.
  unfold same_taf. repeat (split; [assumption|]). assumption.
Qed.
