(** * Every word of a report is accounted for (C60) *)
From Coq Require Import String Ascii.
From Coq Require Import List NArith ZArith Bool Lia Sorted.
From Verif Require Import PyBase PyRegex AeroRegex PyTime Utils Base MetarGroups Trend Metar Taf StrFacts
  RegexPaths Captures SpecLists ProofLists ProofValues ProofProb ProofFailures ProofStation ProofAbsent ProofAbsentTaf OutTafHead SpecText SpecKept
  ProofKeptText ProofKept.
Import ListNotations.
Local Open Scope string_scope.
Local Open Scope nat_scope.
Local Open Scope list_scope.

(** ** The codes the constructors give *)

Lemma code_blanked : forall s, group_code (Some s) = Some (blanked s).
Proof. intro s. unfold group_code. cbn [option_map]. rewrite spread_char. reflexivity. Qed.
Lemma blanked_twice : forall s, blanked (blanked s) = blanked s.
Proof.
  intro s. unfold blanked. rewrite map_map. apply map_ext. intro c. destruct (N.eqb c 95) eqn:E; [reflexivity|rewrite E; reflexivity].
Qed.
Lemma replace_blanked : forall s, replace (py "_") (py " ") s = blanked s.
Proof. intro s. rewrite spread_char. reflexivity. Qed.

Ltac reads_code E := binds E;
  match type of E with Ok ?a = Ok ?b => let K := fresh "K" in assert (K : a = b) by congruence; rewrite <- K; apply code_blanked end.

Lemma wind_code : forall m w, metar_wind_new (Some m) = Ok w -> w_code w = Some (blanked (m_string m)).
Proof. intros m w E. unfold metar_wind_new in E. cbv zeta in E. reads_code E. Qed.
Lemma wvar_code : forall m w, wind_variation_new (Some m) = Ok w -> wv_code w = Some (blanked (m_string m)).
Proof. intros m w E. unfold wind_variation_new in E. cbv zeta in E. reads_code E. Qed.
Lemma vis_code : forall m w, prevailing_new (Some m) = Ok w -> v_code w = Some (blanked (m_string m)).
Proof.
  intros m w E. unfold prevailing_new in E. cbv zeta in E. binds E. destruct (truthy (group m "cavok")); reads_code E.
Qed.
Lemma minvis_code : forall m w, minimum_visibility_new (Some m) = Ok w -> v_code w = Some (blanked (m_string m)).
Proof. intros m w E. unfold minimum_visibility_new in E. cbv zeta in E. reads_code E. Qed.
Lemma rvr_code : forall m w, runway_range_new (Some m) = Ok w -> rr_code w = Some (blanked (m_string m)).
Proof. intros m w E. unfold runway_range_new in E. cbv zeta in E. reads_code E. Qed.
Lemma temps_code : forall m w, temperatures_new (Some m) = Ok w -> te_code w = Some (blanked (m_string m)).
Proof. intros m w E. unfold temperatures_new in E. cbv zeta in E. reads_code E. Qed.
Lemma press_code : forall m w, metar_pressure_new (Some m) = Ok w -> pr_code w = Some (blanked (m_string m)).
Proof.
  intros m w E. unfold metar_pressure_new in E. cbv zeta in E. destruct (group m "press") as [p|]; [|discriminate E].
  destruct (str_eqb p (py "////")); reads_code E.
Qed.
Lemma sea_code : forall m w, sea_state_new (Some m) = Ok w -> se_code w = Some (blanked (m_string m)).
Proof. intros m w E. unfold sea_state_new in E. cbv zeta in E. reads_code E. Qed.
Lemma cloud_code : forall m w, cloud_from_metar (Some m) = Ok w -> cl_code w = Some (blanked (m_string m)).
Proof.
  intros m w E. unfold cloud_from_metar in E. cbv zeta in E. destruct (group m "cover") as [p|]; [|discriminate E].
  destruct (group m "height") as [h|]; [destruct (str_eqb h (py "///"))|]; reads_code E.
Qed.
Lemma shear_code : forall m, ws_code (windshear_new (Some m)) = Some (blanked (m_string m)).
Proof. intro m. unfold windshear_new. cbn [ws_code]. rewrite code_blanked, replace_blanked, blanked_twice. reflexivity. Qed.
Lemma weather_code : forall m, we_code (weather_new (Some m)) = Some (blanked (m_string m)).
Proof. intro m. unfold weather_new. cbn [we_code]. apply code_blanked. Qed.
Lemma recent_code : forall m, rw_code (recent_weather_new (Some m)) = Some (blanked (m_string m)).
Proof. intro m. unfold recent_weather_new. cbn [rw_code]. apply code_blanked. Qed.
Lemma runway_code : forall m, rs_code (runway_state_new (Some m)) = Some (blanked (m_string m)).
Proof. intro m. unfold runway_state_new. cbn [rs_code]. apply code_blanked. Qed.
Lemma time_code : forall e m y mo t, time_from_metar e (Some m) y mo = Ok t -> t_code t = Some (blanked (m_string m)).
Proof. intros e m y mo t E. unfold time_from_metar, time_new in E. cbv zeta in E. reads_code E. Qed.
Lemma type_code : forall s, ty_code (type_new s) = Some (blanked s).
Proof. intro s. unfold type_new. cbn [ty_code]. apply code_blanked. Qed.
Lemma station_code : forall e s, st_code (station_new e (Some s)) = Some (blanked s).
Proof. intros e s. unfold station_new. cbn [st_code]. apply code_blanked. Qed.
Lemma modifier_code : forall s, mo_code (modifier_new (Some s)) = Some (blanked s).
Proof. intro s. unfold modifier_new. cbn [mo_code]. apply code_blanked. Qed.
Lemma valid_code : forall m t v, valid_from_taf (Some m) t = Ok v -> va_code v = Some (blanked (m_string m)).
Proof. intros m t v E. unfold valid_from_taf in E. reads_code E. Qed.
Lemma taf_temp_code : forall m t v, taf_temp_new m t = Ok v -> tt_code v = Some (blanked (m_string m)).
Proof. intros m t v E. unfold taf_temp_new in E. reads_code E. Qed.

Lemma list_code : forall A (f : A -> option str) x w g g', gl_add x g = Ok g' -> f x = Some w ->
  code_of_list f g' = code_of_list f g ++ [w].
Proof.
  intros A f x w g g' E H. unfold code_of_list. rewrite (gl_add_list _ _ _ _ E), flat_map_app. cbn [flat_map]. rewrite H.
  reflexivity.
Qed.

(** ** METAR bodies *)

Definition metar_accs (x : metar) : list (list str) :=
  [code_of_field (ty_code (me_type x)); code_of_field (st_code (me_station x)); code_of_field (t_code (me_time x));
   code_of_field (mo_code (me_modifier x)); code_of_field (w_code (c_wind (me_common x))); code_of_field (wv_code (me_wvar x));
   code_of_field (v_code (c_vis (me_common x))); code_of_field (v_code (me_minvis x)); code_of_list rr_code (me_rvr x);
   code_of_list we_code (c_weathers (me_common x)); code_of_list cl_code (c_clouds (me_common x));
   code_of_field (te_code (me_temps x)); code_of_field (pr_code (me_press x)); code_of_field (rw_code (me_recent x));
   code_of_list ws_code (me_ws x); code_of_field (se_code (me_sea x)); code_of_field (rs_code (me_rwy x))].

Definition metar_fld (i : nat) (g : str) : nat :=
  nth i [0; 1; 2; 3; 4; 5; 6; 7; 8; 8; 8; 9; 9; 9; 10; 10; 10; 10; 11; 12; 12; 13; 14; 14; 14; 15; 16] 17.
Definition several (l : list nat) (f : nat) : bool := existsb (Nat.eqb f) l.
Definition take_upd (fld : nat -> str -> nat) (l : list nat) (i : nat) (old : list str) (g : str) : list str :=
  if several l (fld i g) then old ++ [blanked g] else [blanked g].
Definition metar_upd := take_upd metar_fld [8; 9; 10; 14].

Lemma lift_inv : forall f m x x', lift f m x = Ok x' -> exists c, f m (me_common x) = Ok c /\ x' = upd_common c x.
Proof.
  intros f m x x' E. unfold lift in E. destruct (f m (me_common x)) as [c|]; [|discriminate E]. cbn [bind] in E.
  exists c. split; [reflexivity|congruence].
Qed.
Lemma wind_taken : forall m c c', handle_wind m c = Ok c' ->
  w_code (c_wind c') = Some (blanked (m_string m)) /\ c_vis c' = c_vis c /\ c_weathers c' = c_weathers c /\ c_clouds c' = c_clouds c.
Proof.
  intros m c c' E. unfold handle_wind in E. destruct (metar_wind_new (Some m)) as [w|] eqn:W; [|discriminate E]. cbn [bind] in E.
  injection E as <-. cbn. conjs; try reflexivity. exact (wind_code _ _ W).
Qed.
Lemma vis_taken : forall m c c', handle_prevailing m c = Ok c' ->
  v_code (c_vis c') = Some (blanked (m_string m)) /\ c_wind c' = c_wind c /\ c_weathers c' = c_weathers c /\ c_clouds c' = c_clouds c.
Proof.
  intros m c c' E. unfold handle_prevailing in E. destruct (prevailing_new (Some m)) as [w|] eqn:W; [|discriminate E]. cbn [bind] in E.
  injection E as <-. cbn. conjs; try reflexivity. exact (vis_code _ _ W).
Qed.
Lemma weather_taken : forall m c c', handle_weather m c = Ok c' ->
  code_of_list we_code (c_weathers c') = code_of_list we_code (c_weathers c) ++ [blanked (m_string m)]
  /\ c_wind c' = c_wind c /\ c_vis c' = c_vis c /\ c_clouds c' = c_clouds c.
Proof.
  intros m c c' E. unfold handle_weather in E. cbv zeta in E.
  destruct (gl_add _ _) as [l|] eqn:G; [|discriminate E]. cbn [bind] in E.
  assert (K : c_weathers c' = l /\ c_wind c' = c_wind c /\ c_vis c' = c_vis c /\ c_clouds c' = c_clouds c) by (injection E as <-; auto).
  destruct K as (-> & K). split; [|exact K]. exact (list_code _ _ _ _ _ _ G (weather_code m)).
Qed.
Lemma cloud_taken : forall m c c', handle_cloud m c = Ok c' ->
  code_of_list cl_code (c_clouds c') = code_of_list cl_code (c_clouds c) ++ [blanked (m_string m)]
  /\ c_wind c' = c_wind c /\ c_vis c' = c_vis c /\ c_weathers c' = c_weathers c.
Proof.
  intros m c c' E. unfold handle_cloud in E. destruct (cloud_from_metar (Some m)) as [k|] eqn:W; [|discriminate E]. cbn [bind] in E.
  destruct (gl_add k (c_clouds c)) as [l|] eqn:G; [|discriminate E]. cbn [bind] in E.
  assert (K : c_clouds c' = l /\ c_wind c' = c_wind c /\ c_vis c' = c_vis c /\ c_weathers c' = c_weathers c) by (injection E as <-; auto).
  destruct K as (-> & K). split; [|exact K]. exact (list_code _ _ _ _ _ _ G (cloud_code m k W)).
Qed.

(** Reading one handler: [new] is the constructor's code. *)
Ltac ending E := match type of E with Ok ?a = Ok ?b => let K := fresh "K" in assert (K : b = a) by congruence; subst b end.
Ltac plain_handler E := cbv zeta in E; ending E; unfold metar_accs; cbn -[blanked type_new station_new modifier_new recent_weather_new
  runway_state_new windshear_new weather_new];
  rewrite ?type_code, ?station_code, ?modifier_code, ?recent_code, ?runway_code; reflexivity.
Ltac made_handler E W L := destruct W as [v|] eqn:Ev; [|discriminate E]; cbn [bind] in E; ending E; unfold metar_accs; cbn -[blanked];
  rewrite (L Ev); reflexivity.

(** One goal for every slot. *)
Ltac each_slot i N tac :=
  destruct i as [|i];
  [ cbn [nth_error] in N; first [ discriminate N | injection N as <-; tac ]
  | first [ cbn [nth_error] in N; discriminate N | each_slot i N tac ] ].

Lemma metar_slots : forall e y mo, faithful_step (metar_handlers e y mo) metar_accs metar_fld metar_upd.
Proof.
  intros e y mo i h g m x x' N M E. pose proof (re_match_string _ _ _ M) as Eg. clear M.
  unfold metar_handlers in N.
  each_slot i N ltac:(cbn [h_handle] in E; unfold metar_upd, take_upd; cbn [metar_fld nth several existsb Nat.eqb orb]; subst g).
  - unfold handle_type in E. plain_handler E.
  - unfold handle_station in E. plain_handler E.
  - unfold handle_time in E. destruct (time_from_metar e (Some m) y mo) as [v|] eqn:Ev; [|discriminate E]. cbn [bind] in E. ending E.
    unfold metar_accs. cbn -[blanked time_str]. rewrite (time_code _ _ _ _ _ Ev). reflexivity.
  - unfold handle_modifier in E. plain_handler E.
  - destruct (lift_inv _ _ _ _ E) as (c & F & ->). destruct (wind_taken _ _ _ F) as (A & B & C & D).
    unfold metar_accs. cbn -[blanked]. rewrite A, B, C, D. reflexivity.
  - unfold handle_wind_variation in E. destruct (wind_variation_new (Some m)) as [v|] eqn:Ev; [|discriminate E]. cbn [bind] in E. ending E.
    unfold metar_accs. cbn -[blanked]. rewrite (wvar_code _ _ Ev). reflexivity.
  - destruct (lift_inv _ _ _ _ E) as (c & F & ->). destruct (vis_taken _ _ _ F) as (A & B & C & D).
    unfold metar_accs. cbn -[blanked]. rewrite A, B, C, D. reflexivity.
  - unfold handle_minimum_visibility in E. destruct (minimum_visibility_new (Some m)) as [v|] eqn:Ev; [|discriminate E]. cbn [bind] in E. ending E.
    unfold metar_accs. cbn -[blanked]. rewrite (minvis_code _ _ Ev). reflexivity.
  Ltac rvr E := unfold handle_runway_range in E; destruct (runway_range_new _) as [v|] eqn:Ev; [|discriminate E]; cbn [bind] in E;
    destruct (gl_add v _) as [l|] eqn:G; [|discriminate E]; cbn [bind] in E; ending E;
    unfold metar_accs; cbn -[blanked code_of_list]; rewrite (list_code _ _ _ _ _ _ G (rvr_code _ _ Ev)); reflexivity.
  - rvr E.
  - rvr E.
  - rvr E.
  Ltac wea E := destruct (lift_inv _ _ _ _ E) as (c & F & ->); destruct (weather_taken _ _ _ F) as (A & B & C & D);
    unfold metar_accs; cbn -[blanked code_of_list]; rewrite A, B, C, D; reflexivity.
  - wea E.
  - wea E.
  - wea E.
  Ltac clo E := destruct (lift_inv _ _ _ _ E) as (c & F & ->); destruct (cloud_taken _ _ _ F) as (A & B & C & D);
    unfold metar_accs; cbn -[blanked code_of_list]; rewrite A, B, C, D; reflexivity.
  - clo E.
  - clo E.
  - clo E.
  - clo E.
  - unfold handle_temperatures in E. destruct (temperatures_new (Some m)) as [v|] eqn:Ev; [|discriminate E]. cbn [bind] in E. ending E.
    unfold metar_accs. cbn -[blanked]. rewrite (temps_code _ _ Ev). reflexivity.
  Ltac pre E := unfold handle_pressure in E; destruct (metar_pressure_new _) as [v|] eqn:Ev; [|discriminate E]; cbn [bind] in E; ending E;
    unfold metar_accs; cbn -[blanked]; rewrite (press_code _ _ Ev); reflexivity.
  - pre E.
  - pre E.
  - unfold handle_recent_weather in E. plain_handler E.
  Ltac wsh E := unfold handle_windshear in E; cbv zeta in E;
    destruct (gl_add _ _) as [l|] eqn:G; [|discriminate E]; cbn [bind] in E; ending E;
    unfold metar_accs; cbn -[blanked code_of_list windshear_new]; rewrite (list_code _ _ _ _ _ _ G (shear_code _)); reflexivity.
  - wsh E.
  - wsh E.
  - wsh E.
  - unfold handle_sea_state in E. destruct (sea_state_new (Some m)) as [v|] eqn:Ev; [|discriminate E]. cbn [bind] in E. ending E.
    unfold metar_accs. cbn -[blanked]. rewrite (sea_code _ _ Ev). reflexivity.
  - unfold handle_runway_state in E. plain_handler E.
Qed.

(** The body before reading. *)
Lemma metar_fresh : forall e raw y mo x, metar_init e raw y mo = Ok x ->
  metar_accs x = [py "METAR"] :: repeat [] 16 /\ me_unparsed x = [] /\ me_trends x = gl_new 2.
Proof.
  intros e raw y mo x E. unfold metar_init in E.
  destruct (time_new e None None None None None None); [|discriminate E]. cbn [bind] in E.
  assert (C : exists c, common_new [] = Ok c /\ w_code (c_wind c) = None /\ v_code (c_vis c) = None
            /\ c_weathers c = gl_new 3 /\ gl_list (c_clouds c) = []).
  { eexists. split; [vm_compute; reflexivity|]. vm_compute. auto. }
  destruct C as (c & Ec & C1 & C2 & C3 & C4). rewrite Ec in E. cbn [bind] in E.
  destruct (time_from_metar e None y mo) as [t|] eqn:T; [|discriminate E]. cbn [bind] in E.
  assert (T1 : t_code t = None).
  { unfold time_from_metar, time_new in T. cbv zeta in T. binds T. injection T as <-. reflexivity. }
  assert (W1 : exists v, wind_variation_new None = Ok v /\ wv_code v = None) by (eexists; split; vm_compute; reflexivity).
  assert (W2 : exists v, minimum_visibility_new None = Ok v /\ v_code v = None) by (eexists; split; vm_compute; reflexivity).
  assert (W3 : exists v, temperatures_new None = Ok v /\ te_code v = None) by (eexists; split; vm_compute; reflexivity).
  assert (W4 : exists v, metar_pressure_new None = Ok v /\ pr_code v = None) by (eexists; split; vm_compute; reflexivity).
  assert (W5 : exists v, sea_state_new None = Ok v /\ se_code v = None) by (eexists; split; vm_compute; reflexivity).
  destruct W1 as (v1 & E1 & K1). destruct W2 as (v2 & E2 & K2). destruct W3 as (v3 & E3 & K3). destruct W4 as (v4 & E4 & K4).
  destruct W5 as (v5 & E5 & K5). rewrite E1, E2, E3, E4, E5 in E. cbn [bind] in E. ending E.
  conjs; [|reflexivity|reflexivity]. unfold metar_accs. cbn [me_type me_station me_time me_modifier me_common me_wvar me_minvis me_rvr me_temps me_press me_recent me_ws me_sea me_rwy].
  unfold code_of_list. rewrite C1, C2, C3, C4, T1, K1, K2, K3, K4, K5. reflexivity.
Qed.

Lemma metar_frame : forall e y mo h m s s', In h (metar_handlers e y mo) -> h_handle h m s = Ok s' ->
  me_trends s' = me_trends s /\ me_sections s' = me_sections s /\ me_unparsed s' = me_unparsed s.
Proof.
  intros e y mo h m s s' I Eh. unfold metar_handlers in I. cbn [In] in I.
  repeat (destruct I as [<-|I]; [cbn [h_handle] in Eh|]); try contradiction;
    unfold lift, handle_type, handle_station, handle_time, handle_modifier, handle_wind_variation, handle_minimum_visibility,
      handle_runway_range, handle_temperatures, handle_pressure, handle_recent_weather, handle_windshear, handle_sea_state,
      handle_runway_state in Eh; cbv zeta in Eh; binds Eh; ending Eh; conjs; reflexivity.
Qed.

(** The words of the fields, one field after the other. *)
Lemma spelled_fields : forall fld n nf tr, (forall i j g h, i < j < n -> fld i g <= fld j h) ->
  (forall i g, i < n -> fld i g < nf) -> rising tr -> below n tr ->
  spelled tr = flat_map (fun f => spelled (of_field fld f tr)) (seq 0 nf).
Proof.
  intros fld n nf tr Hm Hn R B.
  rewrite <- (fields_in_order fld n Hm tr 0 nf R B) at 1.
  - unfold spelled. rewrite !flat_map_concat_map, concat_map, map_map. reflexivity.
  - unfold below in B. rewrite Forall_forall in B |- *. intros p Hp. split; [lia|]. apply Hn, B, Hp.
Qed.

(** Facts about a slot table, by computation. *)
Definition table_mono (l : list nat) : bool :=
  forallb (fun i => forallb (fun j => negb (Nat.ltb i j) || Nat.leb (nth i l 0) (nth j l 0)) (seq 0 (length l))) (seq 0 (length l)).
Definition table_field (l : list nat) (f lo k : nat) : bool :=
  forallb (fun i => negb (Nat.eqb (nth i l 0) f) || (Nat.leb lo i && Nat.ltb i (lo + k))) (seq 0 (length l)).
Lemma table_mono_ok : forall l d, table_mono l = true -> forall i j, i < j < length l -> nth i l d <= nth j l d.
Proof.
  intros l d H i j L. unfold table_mono in H. rewrite forallb_forall in H.
  assert (I : In i (seq 0 (length l))) by (apply in_seq; lia). specialize (H i I). rewrite forallb_forall in H.
  assert (J : In j (seq 0 (length l))) by (apply in_seq; lia). specialize (H j J).
  rewrite !(nth_indep l d 0) by lia.
  apply orb_true_iff in H. destruct H as [H|H]; [|apply Nat.leb_le, H]. apply negb_true_iff, Nat.ltb_ge in H. lia.
Qed.
Lemma table_field_ok : forall l d f lo k, table_field l f lo k = true -> forall i, i < length l -> nth i l d = f -> lo <= i < lo + k.
Proof.
  intros l d f lo k H i L E. unfold table_field in H. rewrite forallb_forall in H.
  assert (I : In i (seq 0 (length l))) by (apply in_seq; lia). specialize (H i I). rewrite (nth_indep l d 0) in E by lia.
  rewrite E, Nat.eqb_refl in H. cbn [negb orb] in H. apply andb_true_iff in H. destruct H as [H1 H2].
  apply Nat.leb_le in H1. apply Nat.ltb_lt in H2. lia.
Qed.

Lemma split_words : forall s, s = join (py " ") (split_on 32 s) /\ Forall (fun w => ~ In 32%N w) (split_on 32 s).
Proof.
  intro s. split; [symmetry; apply (join_split 32)|]. rewrite Forall_forall. apply split_on_parts.
Qed.

Lemma body_joined : forall s, joined s (sanitize_body s).
Proof. intro s. unfold sanitize_body. exact (joined_trans _ _ _ (mixed_joined s) (windshear_joined _)). Qed.

Definition metar_table : list nat := [0; 1; 2; 3; 4; 5; 6; 7; 8; 8; 8; 9; 9; 9; 10; 10; 10; 10; 11; 12; 12; 13; 14; 14; 14; 15; 16].

Lemma metar_body_words : forall e y mo x0 x1 un,
  metar_accs x0 = [py "METAR"] :: repeat [] 16 ->
  parse_section (metar_handlers e y mo) (sanitize_body (nth 0 (me_sections x0) [])) x0 = Ok (x1, un) ->
  exists ty first, type_codes (py "METAR") (me_type x1) ty /\ replaced (me_press x1) first
    /\ accounted (nth 0 (me_sections x0) []) un (ty ++ metar_codes_before x1 ++ first ++ metar_codes_after x1).
Proof.
  intros e y mo x0 x1 un F E. destruct (section_fields _ _ _ _ _ _ E) as (tr & W & R & B & K).
  specialize (K metar_accs 17 metar_fld metar_upd (metar_slots e y mo) (fun s => eq_refl)).
  assert (Bn : below 27 tr) by exact B.
  assert (O : forall f lo, table_field metar_table f lo 1 = true -> length (of_field metar_fld f tr) <= 1).
  { intros f lo H. apply (field_most metar_fld 27 f lo 1 tr); [|exact R|exact Bn]. intros i g L. exact (table_field_ok metar_table 17 f lo 1 H i L). }
  assert (One : forall f lo, f < 17 -> f <> 0 -> several [8; 9; 10; 14] f = false -> table_field metar_table f lo 1 = true ->
            spelled (of_field metar_fld f tr) = nth f (metar_accs x1) []).
  { intros f lo L N S H. rewrite (K f L), F. destruct f as [|f]; [congruence|]. cbn [nth].
    rewrite nth_repeat. symmetry. apply folded_one; [|exact (O _ lo H)].
    intros i g o Hf. unfold metar_upd, take_upd. rewrite Hf, S. reflexivity. }
  assert (All : forall f, f < 17 -> f <> 0 -> several [8; 9; 10; 14] f = true -> spelled (of_field metar_fld f tr) = nth f (metar_accs x1) []).
  { intros f L N S. rewrite (K f L), F. destruct f as [|f]; [congruence|]. cbn [nth]. rewrite nth_repeat. rewrite folded_all; [reflexivity|].
    intros i g o Hf. unfold metar_upd, take_upd. rewrite Hf, S. reflexivity. }
  assert (Ty : type_codes (py "METAR") (me_type x1) (spelled (of_field metar_fld 0 tr))).
  { pose proof (K 0 ltac:(lia)) as K0. rewrite F in K0. cbn [nth] in K0. rewrite folded_last in K0.
    2:{ intros i g o Hf. unfold metar_upd, take_upd. rewrite Hf. reflexivity. }
    pose proof (O 0 0 eq_refl) as L. unfold type_codes. cbn [metar_accs nth] in K0.
    destruct (of_field metar_fld 0 tr) as [|p [|q l]]; [right|left|cbn in L; lia].
    - split; [reflexivity|]. cbn in K0. destruct (ty_code (me_type x1)) as [c|]; [|discriminate K0]. cbn [code_of_field] in K0. apply (f_equal (hd [])) in K0. cbn [hd] in K0. rewrite K0. reflexivity.
    - cbn in K0. rewrite K0. reflexivity. }
  assert (Pr : exists first, replaced (me_press x1) first /\ spelled (of_field metar_fld 12 tr) = first ++ code_of_field (pr_code (me_press x1))).
  { pose proof (K 12 ltac:(lia)) as K0. rewrite F in K0. cbn [nth repeat] in K0. rewrite folded_last in K0.
    2:{ intros i g o Hf. unfold metar_upd, take_upd. rewrite Hf. reflexivity. }
    assert (L : length (of_field metar_fld 12 tr) <= 2).
    { apply (field_most metar_fld 27 12 19 2 tr); [|exact R|exact Bn]. intros i g L. exact (table_field_ok metar_table 17 12 19 2 eq_refl i L). }
    cbn [metar_accs nth] in K0. destruct (of_field metar_fld 12 tr) as [|p [|q [|r l]]]; [| | |cbn in L; lia].
    - exists []. split; [left; reflexivity|]. cbn in K0 |- *. rewrite K0. reflexivity.
    - exists []. split; [left; reflexivity|]. cbn in K0 |- *. rewrite K0. reflexivity.
    - exists [blanked (snd p)]. split.
      + right. split; [eexists; reflexivity|]. intro N. rewrite N in K0. cbn in K0. discriminate K0.
      + cbn in K0 |- *. rewrite K0. reflexivity. }
  destruct Pr as (first & P1 & P2). exists (spelled (of_field metar_fld 0 tr)), first. split; [exact Ty|]. split; [exact P1|].
  destruct (split_words (sanitize_body (nth 0 (me_sections x0) []))) as [S1 S2].
  exists (sanitize_body (nth 0 (me_sections x0) [])), (split_on 32 (sanitize_body (nth 0 (me_sections x0) []))), (map snd tr).
  split; [apply body_joined|]. split; [exact S1|]. split; [exact S2|]. split; [exact W|].
  rewrite <- spelled_all.
  rewrite (spelled_fields metar_fld 27 17 tr); [| | |exact R|exact Bn].
  2:{ intros i j g h L. exact (table_mono_ok metar_table 17 eq_refl i j L). }
  2:{ intros i g L. do 27 (destruct i as [|i]; [cbn; lia|]). lia. }
  cbn [seq flat_map].
  rewrite P2, (One 1 1), (One 2 2), (One 3 3), (One 4 4), (One 5 5), (One 6 6), (One 7 7), (All 8), (All 9), (All 10), (One 11 18),
    (One 13 21), (All 14), (One 15 25), (One 16 26) by first [lia|reflexivity].
  unfold metar_codes_before, metar_codes_after, common_codes. cbn [metar_accs nth]. rewrite app_nil_r, <- !app_assoc. reflexivity.
Qed.

(** ** Trends *)

Definition trend_accs (p : change_period) : list (list str) :=
  [code_of_field (ti_code (cp_ind p)); code_of_field (w_code (c_wind (cp_common p))); code_of_field (v_code (c_vis (cp_common p)));
   code_of_list we_code (c_weathers (cp_common p)); code_of_list cl_code (c_clouds (cp_common p))].
Definition trend_table : list nat := [0; 0; 0; 1; 2; 3; 3; 3; 4; 4; 4; 4].
Definition trend_fld (i : nat) (g : str) : nat := nth i trend_table 5.
Definition trend_upd (i : nat) (old : list str) (g : str) : list str :=
  match i with
  | 0 => [blanked g]
  | 1 | 2 => match old with [] => [blanked g] | c :: _ => [c ++ py " " ++ blanked g] end
  | 3 | 4 => [blanked g]
  | _ => old ++ [blanked g]
  end.

Lemma cp_lift_inv : forall f m x x', cp_lift f m x = Ok x' -> exists c, f m (cp_common x) = Ok c /\ x' = cp_set_common c x.
Proof.
  intros f m x x' E. unfold cp_lift in E. destruct (f m (cp_common x)) as [c|]; [|discriminate E]. cbn [bind] in E.
  exists c. split; [reflexivity|congruence].
Qed.

Lemma change_ind_code : forall m r, change_indicator_new (Some m) = Ok r -> fst r = Some (blanked (m_string m)).
Proof.
  intros m r E. unfold change_indicator_new in E. cbv zeta in E. rewrite code_blanked in E.
  destruct (assoc (m_string m) CHANGE_TRANSLATIONS) as [t|]; [injection E as <-; reflexivity|].
  destruct (starts_with (py "PROB") (m_string m)); [|injection E as <-; reflexivity].
  destruct (split_on 95 (m_string m)) as [|c0 [|c1 l]]; [discriminate E|destruct (assoc c0 CHANGE_TRANSLATIONS); discriminate E|].
  destruct (assoc c0 CHANGE_TRANSLATIONS); [|discriminate E]. destruct (assoc c1 CHANGE_TRANSLATIONS); [|discriminate E].
  injection E as <-. reflexivity.
Qed.

Lemma period_checks : starfree r_TREND_TIME_PERIOD && closed_end r_TREND_TIME_PERIOD
  && forallb (fun q => forallb (fun k => negb (in_cls 95%N k)) (fst q)) (cpaths r_TREND_TIME_PERIOD) = true.
Proof. vm_compute. reflexivity. Qed.
Lemma unmarked : forall x, ~ In 95%N x -> blanked x = x.
Proof.
  intros x H. unfold blanked. induction x as [|c x IH]; [reflexivity|]. cbn [map]. rewrite IH by (intro K; apply H; right; exact K).
  destruct (N.eqb_spec c 95) as [->|N]; [|reflexivity]. exfalso. apply H. left. reflexivity.
Qed.
Lemma period_text : forall g m, re_match r_TREND_TIME_PERIOD g = Some m -> blanked g = g.
Proof.
  intros g m M. pose proof period_checks as K. rewrite !andb_true_iff in K. destruct K as ((F & C) & P).
  destruct (match_closed _ _ _ _ F C P M) as (q & x & t & Q & (Es & Em & A & _) & At).
  apply unmarked. rewrite Es. intro I. apply in_app_or in I. destruct I as [I|I].
  - clear - A Q I. revert A Q. generalize (fst q). intro ks. revert ks. induction x as [|d x IH]; intros ks A Q; [contradiction|].
    inversion A as [|a b u v H1 H2]; subst. cbn [forallb] in Q. apply andb_true_iff in Q. destruct Q as [Q1 Q2].
    destruct I as [->|I]; [|exact (IH I _ H2 Q2)]. apply negb_true_iff in Q1. congruence.
  - destruct t as [|d [|d2 t]]; [contradiction| |discriminate At]. cbn [at_end] in At. apply N.eqb_eq in At.
    destruct I as [I|[]]. congruence.
Qed.

Lemma trend_period_acc : forall m x x' g, re_match r_TREND_TIME_PERIOD (m_string m) = Some g -> handle_time_period m x = Ok x' ->
  trend_accs x' = set_nth 0 (match nth 0 (trend_accs x) [] with [] => [blanked (m_string m)] | c :: _ => [c ++ py " " ++ blanked (m_string m)] end) (trend_accs x).
Proof.
  intros m x x' g M E. rewrite (period_text _ _ M).
  unfold handle_time_period in E. cbv zeta in E. destruct (add_period _ _) as [v|] eqn:Ev; [|discriminate E]. cbn [bind] in E. ending E.
  unfold add_period in Ev. destruct (ti_code (cp_ind x)) as [c|] eqn:Ci; [|discriminate Ev]. cbv zeta in Ev. binds Ev.
  assert (V : ti_code v = Some (c ++ py " " ++ m_string m)).
  { repeat match type of Ev with context [if ?b then _ else _] => destruct b end; ending Ev; reflexivity. }
  unfold trend_accs. cbn -[blanked py]. rewrite V, Ci. reflexivity.
Qed.
Lemma trend_weather_acc : forall m x x', cp_lift handle_weather m x = Ok x' ->
  trend_accs x' = set_nth 3 (nth 3 (trend_accs x) [] ++ [blanked (m_string m)]) (trend_accs x).
Proof.
  intros m x x' E. destruct (cp_lift_inv _ _ _ _ E) as (c & F & ->). destruct (weather_taken _ _ _ F) as (A & B & C & D).
  unfold trend_accs. cbn -[blanked code_of_list]. rewrite A, B, C, D. reflexivity.
Qed.
Lemma trend_cloud_acc : forall m x x', cp_lift handle_cloud m x = Ok x' ->
  trend_accs x' = set_nth 4 (nth 4 (trend_accs x) [] ++ [blanked (m_string m)]) (trend_accs x).
Proof.
  intros m x x' E. destruct (cp_lift_inv _ _ _ _ E) as (c & F & ->). destruct (cloud_taken _ _ _ F) as (A & B & C & D).
  unfold trend_accs. cbn -[blanked code_of_list]. rewrite A, B, C, D. reflexivity.
Qed.

Lemma trend_slots : faithful_step trend_handlers trend_accs trend_fld trend_upd.
Proof.
  intros i h g m x x' N M E. pose proof (re_match_string _ _ _ M) as Eg.
  unfold trend_handlers in N.
  each_slot i N ltac:(cbn [h_handle h_regexp] in E, M; cbn [trend_fld trend_upd trend_table nth]; subst g).
  - unfold handle_trend_indicator in E. destruct (trend_ind_new _ _) as [v|] eqn:Ev; [|discriminate E]. cbn [bind] in E. ending E.
    unfold trend_ind_new in Ev. destruct (change_indicator_new (Some m)) as [ct|] eqn:Ct; [|discriminate Ev]. cbn [bind] in Ev. cbv zeta in Ev.
    binds Ev. ending Ev. unfold trend_accs. cbn -[blanked]. rewrite (change_ind_code _ _ Ct). reflexivity.
  - exact (trend_period_acc _ _ _ _ M E).
  - exact (trend_period_acc _ _ _ _ M E).
  - destruct (cp_lift_inv _ _ _ _ E) as (c & F & ->). destruct (wind_taken _ _ _ F) as (A & B & C & D).
    unfold trend_accs. cbn -[blanked]. rewrite A, B, C, D. reflexivity.
  - destruct (cp_lift_inv _ _ _ _ E) as (c & F & ->). destruct (vis_taken _ _ _ F) as (A & B & C & D).
    unfold trend_accs. cbn -[blanked]. rewrite A, B, C, D. reflexivity.
  - exact (trend_weather_acc _ _ _ E).
  - exact (trend_weather_acc _ _ _ E).
  - exact (trend_weather_acc _ _ _ E).
  - exact (trend_cloud_acc _ _ _ E).
  - exact (trend_cloud_acc _ _ _ E).
  - exact (trend_cloud_acc _ _ _ E).
  - exact (trend_cloud_acc _ _ _ E).
Qed.

(** The code of the indicator. *)
Lemma trend_ind_words : forall l, rising l -> Forall (fun p => 0 <= fst p < 3) l ->
  fold_left (fun o p => trend_upd (fst p) o (snd p)) l [] = match l with [] => [] | _ => [join (py " ") (spelled l)] end.
Proof.
  intros l R F. destruct l as [|p l]; [reflexivity|]. destruct (rising_tail _ _ R) as [R' L].
  inversion F as [|p0 l0 Fp F' E0]; subst. cbn [fold_left].
  assert (H : trend_upd (fst p) [] (snd p) = [blanked (snd p)]).
  { destruct p as [i g]. cbn [fst snd] in *. do 3 (destruct i as [|i]; [reflexivity|]). lia. }
  rewrite H. clear H.
  assert (G : forall q o w, In q l -> trend_upd (fst q) (w :: o) (snd q) = [w ++ py " " ++ blanked (snd q)]).
  { intros [i g] o w I. rewrite Forall_forall in L, F'. specialize (L _ I). specialize (F' _ I). cbn [fst snd] in *.
    destruct i as [|i]; [lia|]. do 2 (destruct i as [|i]; [reflexivity|]). lia. }
  unfold spelled. cbn [map]. generalize (blanked (snd p)) as w. clear - G.
  induction l as [|q l IH]; intro w; [reflexivity|]. cbn [fold_left map]. rewrite (G q [] w) by (left; reflexivity).
  rewrite IH by (intros q0 o w0 I; apply G; right; exact I). f_equal.
  rewrite (join_cons _ w) by discriminate.
  destruct (map (fun p => blanked (snd p)) l) as [|w2 ws]; [reflexivity|]. rewrite !join_cons by discriminate. rewrite <- !app_assoc. reflexivity.
Qed.

Lemma trend_words_kept : forall code t p, change_period_new code t = Ok p -> trend_kept p /\ cp_code p = Some (blanked code).
Proof.
  intros code t p E. unfold change_period_new in E. cbv zeta in E. rewrite replace_blanked in E.
  assert (C : exists c, common_new [] = Ok c /\ w_code (c_wind c) = None /\ v_code (c_vis c) = None
            /\ c_weathers c = gl_new 3 /\ gl_list (c_clouds c) = []).
  { eexists. split; [vm_compute; reflexivity|]. vm_compute. auto. }
  destruct C as (c & Ec & C1 & C2 & C3 & C4). rewrite Ec in E. cbn [bind] in E.
  destruct (trend_ind_new None t) as [i|] eqn:Ei; [|discriminate E]. cbn [bind] in E.
  assert (I1 : ti_code i = None).
  { unfold trend_ind_new in Ei. cbn [change_indicator_new bind] in Ei. cbv zeta in Ei. binds Ei. injection Ei as <-. reflexivity. }
  set (p0 := mk_cp (Some (blanked code)) (time_at t) c i [] []) in *.
  destruct (parse_section trend_handlers (sanitize_visibility (blanked code)) p0) as [[p1 un]|] eqn:E1; [|discriminate E]. cbn [bind] in E.
  ending E.
  assert (Fr : cp_code p1 = cp_code p0 /\ cp_unparsed p1 = []).
  { apply (parse_section_inv _ (fun p => cp_code p = cp_code p0 /\ cp_unparsed p = [])) in E1; [exact E1| |auto].
    intros h m s s' I Eh [K1 K2]. unfold trend_handlers in I. cbn [In] in I.
    repeat (destruct I as [<-|I]; [cbn [h_handle] in Eh|]); try contradiction;
      unfold handle_trend_indicator, handle_time_period, cp_lift in Eh; cbv zeta in Eh; binds Eh; ending Eh; cbn; auto. }
  destruct Fr as [Fr1 Fr2].
  destruct (section_fields _ _ _ _ _ _ E1) as (tr & W & R & B & K).
  specialize (K trend_accs 5 trend_fld trend_upd trend_slots (fun s => eq_refl)). cbn [length trend_handlers] in B.
  assert (Z : forall f, nth f (trend_accs p0) [] = []).
  { intro f. unfold trend_accs, p0, code_of_list. cbn [cp_ind cp_common]. rewrite I1, C1, C2, C3, C4. do 6 (destruct f as [|f]; [reflexivity|]). reflexivity. }
  assert (One : forall f lo, f < 5 -> f = 1 \/ f = 2 -> table_field trend_table f lo 1 = true ->
            spelled (of_field trend_fld f tr) = nth f (trend_accs p1) []).
  { intros f lo L N H. rewrite (K f L), Z. symmetry. apply folded_one.
    - intros j g o Hf. unfold trend_fld in Hf.
      do 12 (destruct j as [|j]; [cbn [trend_table nth] in Hf; first [reflexivity|lia]|]).
      assert (f = 5); [|lia]. rewrite <- Hf. destruct j; reflexivity.
    - apply (field_most trend_fld 12 f lo 1 tr); [|exact R|exact B]. intros j g L1. exact (table_field_ok trend_table 5 f lo 1 H j L1). }
  assert (All : forall f, f < 5 -> f = 3 \/ f = 4 -> spelled (of_field trend_fld f tr) = nth f (trend_accs p1) []).
  { intros f L N. rewrite (K f L), Z. rewrite folded_all; [reflexivity|]. intros j g o Hf. unfold trend_fld in Hf.
    do 12 (destruct j as [|j]; [cbn [trend_table nth] in Hf; first [reflexivity|lia]|]).
    assert (f = 5); [|lia]. rewrite <- Hf. destruct j; reflexivity. }
  assert (In0 : Forall (fun p => 0 <= fst p < 3) (of_field trend_fld 0 tr)).
  { unfold of_field. rewrite Forall_forall. intros q Hq. apply filter_In in Hq. destruct Hq as [Hq Hf]. apply Nat.eqb_eq in Hf.
    unfold below in B. rewrite Forall_forall in B. exact (table_field_ok trend_table 5 0 0 3 eq_refl _ (B q Hq) Hf). }
  pose proof (K 0 ltac:(lia)) as K0. rewrite Z in K0. unfold folded in K0.
  rewrite trend_ind_words in K0 by first [apply rising_filter, R|exact In0]. cbn [trend_accs nth] in K0.
  split; [|exact Fr1].
  exists (blanked code), (spelled (of_field trend_fld 0 tr)). cbn [cp_code cp_ind cp_common cp_unparsed].
  split; [rewrite Fr1; reflexivity|].
  split. { unfold spelled. rewrite map_length. apply (field_slots _ 0 3); [apply rising_filter, R|exact In0]. }
  split.
  { destruct (of_field trend_fld 0 tr) as [|q l] eqn:Eq.
    - destruct (ti_code (cp_ind p1)); [discriminate K0|reflexivity].
    - destruct (ti_code (cp_ind p1)) as [cc|]; [|discriminate K0]. split; [discriminate|]. cbn [code_of_field] in K0. congruence. }
  rewrite Fr2. cbn [app].
  destruct (split_words (sanitize_visibility (blanked code))) as [S1 S2].
  exists (sanitize_visibility (blanked code)), (split_on 32 (sanitize_visibility (blanked code))), (map snd tr).
  split; [apply mixed_joined|]. split; [exact S1|]. split; [exact S2|]. split; [exact W|].
  rewrite <- spelled_all.
  rewrite (spelled_fields trend_fld 12 5 tr); [| | |exact R|exact B].
  2:{ intros j k g h L. exact (table_mono_ok trend_table 5 eq_refl j k L). }
  2:{ intros j g L. do 12 (destruct j as [|j]; [cbn; lia|]). lia. }
  cbn [seq flat_map]. rewrite (One 1 3), (One 2 4), (All 3), (All 4) by first [lia|reflexivity].
  unfold common_codes. cbn [trend_accs nth]. rewrite app_nil_r. reflexivity.
Qed.
