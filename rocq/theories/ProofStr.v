(** * The text of a report (C61) *)
From Coq Require Import String Ascii.
From Coq Require Import List NArith ZArith Bool Lia.
From Verif Require Import PyBase PyRegex AeroRegex PyTime Utils Base MetarGroups Trend Metar Taf StrFacts  ProofTafText
  SpecLists ProofLists ProofValues ProofProb ProofAbsent SpecKept ProofKept ProofKeptReport ProofKeptMetar SpecStr.
Import ListNotations.
Local Open Scope string_scope.
Local Open Scope nat_scope.
Local Open Scope list_scope.

(** ** An invariant that knows which handlers are still to come *)

Lemma ordered_inv : forall S (hs : list (handler S)) (R : nat -> S -> Prop),
  (forall n i h m s s', nth_error hs i = Some h -> n <= i -> R n s -> h_handle h m s = Ok s' -> R (Datatypes.S i) s') ->
  forall sec s s' un, parse_section hs sec s = Ok (s', un) -> R 0 s -> exists n, R n s'.
Proof.
  intros S hs R Hs sec s s' un E H0.
  destruct (parse_section_spec hs sec s) as (a & D & P). rewrite P in E.
  destruct (effect hs (split_on 32 sec) a s) as [s1|] eqn:Ee; [|discriminate E].
  assert (K : s1 = s') by congruence. subst s1. clear P E. revert s H0 Ee.
  induction D as [lo|lo g gs a i h L N A _ D IH|lo g gs a _ D IH]; intros s H E; cbn [effect] in E.
  - exists lo. congruence.
  - rewrite N in E. unfold accepts in A. destruct (re_match (h_regexp h) g) as [m|]; [|congruence].
    destruct (h_handle h m s) as [s1|] eqn:E1; [|discriminate E]. exact (IH s1 (Hs _ _ _ _ _ _ N L H E1) E).
  - exact (IH s H E).
Qed.

(** ** Lines *)

Lemma lines_snoc : forall l t, lines (l ++ [t]) = lines l ++ t ++ [10%N].
Proof. intros l t. unfold lines. rewrite map_app, concat_app. cbn [map concat]. rewrite app_nil_r. reflexivity. Qed.
Lemma lines_app : forall l k, lines (l ++ k) = lines l ++ lines k.
Proof. intros l k. unfold lines. rewrite map_app, concat_app. reflexivity. Qed.

Lemma concat_empty : forall (T : list (list str)), (forall g, nth g T [] = []) -> concat T = [].
Proof.
  induction T as [|a T IH]; intro H; [reflexivity|]. cbn [concat]. pose proof (H 0) as H0. cbn [nth] in H0. rewrite H0. apply IH.
  intro g. exact (H (S g)).
Qed.

Lemma concat_last : forall f (T : list (list str)) t, f < length T -> (forall g, f < g -> nth g T [] = []) ->
  concat (set_nth f (nth f T [] ++ [t]) T) = concat T ++ [t].
Proof.
  intros f T. revert f. induction T as [|a T IH]; intros [|f] t L H; cbn [length] in L; try lia; cbn [set_nth nth concat].
  - rewrite concat_empty; [rewrite !app_nil_r; reflexivity|]. intro g. exact (H (S g) ltac:(lia)).
  - rewrite IH; [apply app_assoc|lia|]. intros g G. exact (H (S g) ltac:(lia)).
Qed.

(** One more line: field [f] of the fields [T], of which those that begin at
    handler [n] or later are still empty. *)
Definition later_ok (lo : list nat) (i f : nat) : bool :=
  forallb (fun g => Nat.leb g f || Nat.ltb i (nth g lo 99)) (seq 0 (length lo)) && Nat.leb (nth f lo 99) i && Nat.ltb f (length lo).
Definition rest_empty (lo : list nat) (n : nat) (T : list (list str)) : Prop := forall g, n <= nth g lo 99 -> nth g T [] = [].

Lemma advance : forall lo n i f T T' t, length lo = length T -> later_ok lo i f = true -> n <= i -> rest_empty lo n T ->
  T' = set_nth f (nth f T [] ++ [t]) T -> concat T' = concat T ++ [t] /\ rest_empty lo (S i) T'.
Proof.
  intros lo n i f T T' t Hl K N R ->. unfold later_ok in K. rewrite !andb_true_iff in K. destruct K as [[K1 K2] K3].
  apply Nat.leb_le in K2. apply Nat.ltb_lt in K3. rewrite forallb_forall in K1. split.
  - apply concat_last; [lia|]. intros g G. destruct (Nat.lt_ge_cases g (length lo)) as [L|L]; [|apply nth_overflow; lia].
    apply R. specialize (K1 g ltac:(apply in_seq; lia)). apply orb_true_iff in K1. destruct K1 as [K1|K1];
      [apply Nat.leb_le in K1|apply Nat.ltb_lt in K1]; lia.
  - intros g G. rewrite nth_set_other by (intros ->; lia). apply R. lia.
Qed.

(** ** METAR *)

Definition metar_T (e : env) (ty old : list str) (x : metar) : list (list str) := ty :: metar_before e x ++ [old] ++ metar_after x.
Definition metar_lo : list nat := [0; 1; 2; 3; 4; 5; 6; 7; 8; 11; 14; 18; 20; 19; 21; 22; 25; 26].

Definition metar_R (e : env) (P : list str -> Prop) (n : nat) (x : metar) : Prop :=
  exists ty old, type_line (py "METAR") (me_type x) ty /\ P old
    /\ c_string (me_common x) = lines (concat (metar_T e ty old x)) /\ rest_empty metar_lo n (metar_T e ty old x).

Lemma metar_more : forall e (P P' : list str -> Prop) n x, (forall l, P l -> P' l) -> metar_R e P n x -> metar_R e P' n x.
Proof. intros e P P' n x H (ty & old & A & B & C & D). exists ty, old. split; [exact A|]. split; [exact (H _ B)|]. split; [exact C|exact D]. Qed.

Lemma metar_line : forall e P i f t n x x', metar_R e P n x -> n <= i -> later_ok metar_lo i f = true ->
  i <> 0 ->
  c_string (me_common x') = c_string (me_common x) ++ t ++ [10%N] -> me_type x' = me_type x ->
  (forall ty old, rest_empty metar_lo n (metar_T e ty old x) ->
     metar_T e ty old x' = set_nth f (nth f (metar_T e ty old x) [] ++ [t]) (metar_T e ty old x)) ->
  metar_R e P (S i) x'.
Proof.
  intros e P i f t n x x' (ty & old & A & B & C & D) N L I Es Et ET.
  destruct (advance metar_lo n i f (metar_T e ty old x) _ t eq_refl L N D (ET ty old D)) as [C' D'].
  exists ty, old. rewrite Et. split; [exact A|]. split; [exact B|].
  split; [|exact D']. rewrite C', lines_snoc, Es, C. reflexivity.
Qed.

Lemma metar_single : forall e f t n x x', n <= nth f metar_lo 99 ->
  (forall ty old, metar_T e ty old x' = set_nth f [t] (metar_T e ty old x)) ->
  forall ty old, rest_empty metar_lo n (metar_T e ty old x) ->
     metar_T e ty old x' = set_nth f (nth f (metar_T e ty old x) [] ++ [t]) (metar_T e ty old x).
Proof. intros e f t n x x' N H ty old R. rewrite (R f N). cbn [app]. apply H. Qed.

Lemma metar_wind_str_step : forall m c c', handle_wind m c = Ok c' ->
  exists t, c_string c' = c_string c ++ t ++ [10%N] /\ wind_line c' = [t] /\ vis_line c' = vis_line c
    /\ weather_lines c' = weather_lines c /\ cloud_lines c' = cloud_lines c.
Proof.
  intros m c c' E. pose proof (wind_taken _ _ _ E) as (A & B & C & D). unfold vis_line, weather_lines, cloud_lines. rewrite B, C, D.
  exists (metar_wind_str (c_wind c')). unfold wind_line. rewrite A. conjs; try reflexivity.
  unfold handle_wind in E. binds E. ending E. reflexivity.
Qed.
Lemma metar_vis_str_step : forall m c c', handle_prevailing m c = Ok c' ->
  exists t, c_string c' = c_string c ++ t ++ [10%N] /\ vis_line c' = [t] /\ wind_line c' = wind_line c
    /\ weather_lines c' = weather_lines c /\ cloud_lines c' = cloud_lines c.
Proof.
  intros m c c' E. pose proof (vis_taken _ _ _ E) as (A & B & C & D). unfold wind_line, weather_lines, cloud_lines. rewrite B, C, D.
  exists (prevailing_str (c_vis c')). unfold vis_line. rewrite A. conjs; try reflexivity.
  unfold handle_prevailing in E. binds E. ending E. reflexivity.
Qed.
Lemma metar_weather_str_step : forall m c c', handle_weather m c = Ok c' ->
  exists t, c_string c' = c_string c ++ t ++ [10%N] /\ weather_lines c' = weather_lines c ++ [t] /\ wind_line c' = wind_line c
    /\ vis_line c' = vis_line c /\ cloud_lines c' = cloud_lines c.
Proof.
  intros m c c' E. pose proof (weather_taken _ _ _ E) as (_ & B & C & D). unfold wind_line, vis_line, cloud_lines. rewrite B, C, D.
  exists (weather_str (weather_new (Some m))). unfold handle_weather in E. cbv zeta in E.
  destruct (gl_add _ _) as [l|] eqn:G; [|discriminate E]. cbn [bind] in E. ending E. conjs; try reflexivity.
  unfold weather_lines. cbn [c_weathers]. rewrite (gl_add_list _ _ _ _ G), map_app. reflexivity.
Qed.
Lemma metar_cloud_str_step : forall m c c', handle_cloud m c = Ok c' ->
  exists t, c_string c' = c_string c ++ t ++ [10%N] /\ cloud_lines c' = cloud_lines c ++ [t] /\ wind_line c' = wind_line c
    /\ vis_line c' = vis_line c /\ weather_lines c' = weather_lines c.
Proof.
  intros m c c' E. pose proof (cloud_taken _ _ _ E) as (_ & B & C & D). unfold wind_line, vis_line, weather_lines. rewrite B, C, D.
  unfold handle_cloud in E. destruct (cloud_from_metar (Some m)) as [k|]; [|discriminate E]. cbn [bind] in E.
  destruct (gl_add _ _) as [l|] eqn:G; [|discriminate E]. cbn [bind] in E. ending E.
  exists (cloud_str k). conjs; try reflexivity.
  unfold cloud_lines. cbn [c_clouds]. rewrite (gl_add_list _ _ _ _ G), map_app. reflexivity.
Qed.

Lemma metar_weather_line : forall e P n i m x x', metar_R e P n x -> n <= i -> 11 <= i < 14 -> lift handle_weather m x = Ok x' -> metar_R e P (S i) x'.
Proof.
  intros e P n i m x x' H N I E. destruct (lift_inv _ _ _ _ E) as (c & F & ->). destruct (metar_weather_str_step _ _ _ F) as (t & A & B & C & D & K).
  apply (metar_line e P i 9 t n x); [exact H|exact N| |lia|exact A|reflexivity|].
  - do 11 (destruct i as [|i]; [lia|]). do 3 (destruct i as [|i]; [reflexivity|]). lia.
  - intros ty old _. unfold metar_T, metar_before. cbn -[wind_line vis_line weather_lines cloud_lines]. rewrite B, C, D, K. reflexivity.
Qed.
Lemma metar_cloud_line : forall e P n i m x x', metar_R e P n x -> n <= i -> 14 <= i < 18 -> lift handle_cloud m x = Ok x' -> metar_R e P (S i) x'.
Proof.
  intros e P n i m x x' H N I E. destruct (lift_inv _ _ _ _ E) as (c & F & ->). destruct (metar_cloud_str_step _ _ _ F) as (t & A & B & C & D & K).
  apply (metar_line e P i 10 t n x); [exact H|exact N| |lia|exact A|reflexivity|].
  - do 14 (destruct i as [|i]; [lia|]). do 4 (destruct i as [|i]; [reflexivity|]). lia.
  - intros ty old _. unfold metar_T, metar_before. cbn -[wind_line vis_line weather_lines cloud_lines]. rewrite B, C, D, K. reflexivity.
Qed.
Lemma metar_rvr_line : forall e P n i m x x', metar_R e P n x -> n <= i -> 8 <= i < 11 -> handle_runway_range m x = Ok x' -> metar_R e P (S i) x'.
Proof.
  intros e P n i m x x' H N I E. unfold handle_runway_range in E. destruct (runway_range_new _) as [v|]; [|discriminate E]. cbn [bind] in E.
  destruct (gl_add v _) as [l|] eqn:G; [|discriminate E]. cbn [bind] in E. ending E.
  apply (metar_line e P i 8 (runway_range_str v) n x); [exact H|exact N| |lia|reflexivity|reflexivity|].
  - do 8 (destruct i as [|i]; [lia|]). do 3 (destruct i as [|i]; [reflexivity|]). lia.
  - intros ty old _. unfold metar_T, metar_before. cbn -[wind_line vis_line weather_lines cloud_lines runway_range_str].
    rewrite (gl_add_list _ _ _ _ G), map_app. reflexivity.
Qed.
Lemma metar_shear_line : forall e P n i m x x', metar_R e P n x -> n <= i -> 22 <= i < 25 -> handle_windshear m x = Ok x' -> metar_R e P (S i) x'.
Proof.
  intros e P n i m x x' H N I E. unfold handle_windshear in E. cbv zeta in E.
  destruct (gl_add _ _) as [l|] eqn:G; [|discriminate E]. cbn [bind] in E. ending E.
  apply (metar_line e P i 15 (windshear_str (windshear_new (Some m))) n x); [exact H|exact N| |lia|reflexivity|reflexivity|].
  - do 22 (destruct i as [|i]; [lia|]). do 3 (destruct i as [|i]; [reflexivity|]). lia.
  - intros ty old _. unfold metar_T, metar_before, metar_after. cbn -[wind_line vis_line weather_lines cloud_lines windshear_str windshear_new].
    rewrite (gl_add_list _ _ _ _ G), map_app. reflexivity.
Qed.

Ltac one_line f t H N :=
  match goal with |- metar_R ?e ?P (S ?i) _ =>
    apply (metar_line e P i f t _ _ _ H N); [reflexivity|discriminate|reflexivity|reflexivity|apply metar_single; [exact N|]]
  end;
  intros ty old; unfold metar_T, metar_before, metar_after, out_string;
  cbn [app set_nth upd_common upd_station upd_time upd_modifier upd_wvar upd_minvis upd_temps upd_press upd_recent upd_sea upd_rwy
       me_common me_type me_station me_time me_modifier me_wvar me_minvis me_rvr me_temps me_press me_recent me_ws me_sea me_rwy].

(** The line of the first of two pressures. *)
Definition first_line (P : list str -> Prop) (i : nat) (p : pressure) (l : list str) : Prop :=
  (P l /\ (i = 20 -> pr_code p = None)) \/ (i = 20 /\ P [] /\ pr_code p <> None /\ l = [pressure_str (pr_value p)]).

Ltac as_before P := match goal with |- metar_R ?e _ _ _ => apply (metar_more e P); [intros l Hl; left; split; [exact Hl|first [discriminate|intros _; assumption]]|] end.

Lemma metar_lines : forall e y mo P n i h m x x', nth_error (metar_handlers e y mo) i = Some h -> n <= i -> metar_R e P n x ->
  h_handle h m x = Ok x' -> metar_R e (first_line P i (me_press x)) (S i) x'.
Proof.
  intros e y mo P n i h m x x' Hn N H E. unfold metar_handlers in Hn.
  each_slot i Hn ltac:(cbn [h_handle] in E; first [match goal with |- metar_R _ _ 21 _ => idtac end|as_before P]).
  - destruct H as (ty & old & A & B & C & D). assert (n = 0) by lia. subst n.
    assert (Z : ty = []) by exact (D 0 (le_n 0)). subst ty.
    unfold handle_type in E. cbv zeta in E. ending E. exists [type_str (type_new (m_string m))], old.
    split; [left; reflexivity|]. split; [exact B|].
    destruct (advance metar_lo 0 0 0 (metar_T e [] old x) (metar_T e [type_str (type_new (m_string m))] old x) (type_str (type_new (m_string m))) eq_refl eq_refl N D eq_refl) as [C' D'].
    split; [|exact D']. 
    assert (K : c_string (me_common (out_string (type_str (type_new (m_string m))) (upd_type (type_new (m_string m)) x)))
      = c_string (me_common x) ++ type_str (type_new (m_string m)) ++ [10%N]) by reflexivity.
    rewrite K, C, <- lines_snoc, <- C'. reflexivity.
  - unfold handle_station in E. cbv zeta in E. ending E. one_line 1 (station_str e (station_new e (Some (m_string m)))) H N.
    rewrite station_code. reflexivity.
  - unfold handle_time in E. destruct (time_from_metar e (Some m) y mo) as [v|] eqn:Ev; [|discriminate E]. cbn [bind] in E. ending E.
    one_line 2 (time_str v) H N. rewrite (time_code _ _ _ _ _ Ev). reflexivity.
  - unfold handle_modifier in E. cbv zeta in E. ending E. one_line 3 (modifier_str (modifier_new (Some (m_string m)))) H N.
    rewrite modifier_code. reflexivity.
  - destruct (lift_inv _ _ _ _ E) as (c & F & ->). destruct (metar_wind_str_step _ _ _ F) as (t & A & B & C & D & K).
    apply (metar_line e P 4 4 t _ _ _ H N); [reflexivity|discriminate|exact A|reflexivity|apply metar_single; [exact N|]].
    intros ty old. unfold metar_T, metar_before. cbn -[wind_line vis_line weather_lines cloud_lines]. rewrite B, C, D, K. reflexivity.
  - unfold handle_wind_variation in E. destruct (wind_variation_new (Some m)) as [v|] eqn:Ev; [|discriminate E]. cbn [bind] in E. ending E.
    one_line 5 (wind_variation_str v) H N. rewrite (wvar_code _ _ Ev). reflexivity.
  - destruct (lift_inv _ _ _ _ E) as (c & F & ->). destruct (metar_vis_str_step _ _ _ F) as (t & A & B & C & D & K).
    apply (metar_line e P 6 6 t _ _ _ H N); [reflexivity|discriminate|exact A|reflexivity|apply metar_single; [exact N|]].
    intros ty old. unfold metar_T, metar_before. cbn -[wind_line vis_line weather_lines cloud_lines]. rewrite B, C, D, K. reflexivity.
  - unfold handle_minimum_visibility in E. destruct (minimum_visibility_new (Some m)) as [v|] eqn:Ev; [|discriminate E]. cbn [bind] in E. ending E.
    one_line 7 (visibility_dir_str v) H N. rewrite (minvis_code _ _ Ev). reflexivity.
  - exact (metar_rvr_line _ _ _ _ _ _ _ H N ltac:(lia) E).
  - exact (metar_rvr_line _ _ _ _ _ _ _ H N ltac:(lia) E).
  - exact (metar_rvr_line _ _ _ _ _ _ _ H N ltac:(lia) E).
  - exact (metar_weather_line _ _ _ _ _ _ _ H N ltac:(lia) E).
  - exact (metar_weather_line _ _ _ _ _ _ _ H N ltac:(lia) E).
  - exact (metar_weather_line _ _ _ _ _ _ _ H N ltac:(lia) E).
  - exact (metar_cloud_line _ _ _ _ _ _ _ H N ltac:(lia) E).
  - exact (metar_cloud_line _ _ _ _ _ _ _ H N ltac:(lia) E).
  - exact (metar_cloud_line _ _ _ _ _ _ _ H N ltac:(lia) E).
  - exact (metar_cloud_line _ _ _ _ _ _ _ H N ltac:(lia) E).
  - unfold handle_temperatures in E. destruct (temperatures_new (Some m)) as [v|] eqn:Ev; [|discriminate E]. cbn [bind] in E. ending E.
    one_line 11 (temperatures_str v) H N. rewrite (temps_code _ _ Ev). reflexivity.
  - unfold handle_pressure in E. destruct (metar_pressure_new (Some m)) as [v|] eqn:Ev; [|discriminate E]. cbn [bind] in E. ending E.
    one_line 13 (pressure_str (pr_value v)) H N. rewrite (press_code _ _ Ev). reflexivity.
  - unfold handle_pressure in E. destruct (metar_pressure_new (Some m)) as [v|] eqn:Ev; [|discriminate E]. cbn [bind] in E. ending E.
    apply press_code in Ev. destruct (pr_code (me_press x)) as [pc|] eqn:Pc.
    + destruct H as (ty & old & A & B & C & D). assert (Z : old = []) by exact (D 12 N). subst old.
      exists ty, [pressure_str (pr_value (me_press x))]. split; [exact A|].
      split. { right. conjs; [reflexivity|exact B|rewrite Pc; discriminate|reflexivity]. }
      assert (K : c_string (me_common (out_string (pressure_str (pr_value v)) (upd_press v x)))
        = c_string (me_common x) ++ pressure_str (pr_value v) ++ [10%N]) by reflexivity.
      rewrite K, C, <- lines_snoc.
      assert (Z14 : rw_code (me_recent x) = None).
      { pose proof (D 14 ltac:(cbn; lia)) as Z. cbn -[line_of] in Z. destruct (rw_code (me_recent x)); [discriminate Z|reflexivity]. }
      assert (Z15 : map windshear_str (gl_list (me_ws x)) = []) by exact (D 15 ltac:(cbn; lia)).
      assert (Z16 : se_code (me_sea x) = None).
      { pose proof (D 16 ltac:(cbn; lia)) as Z. cbn -[line_of] in Z. destruct (se_code (me_sea x)); [discriminate Z|reflexivity]. }
      assert (Z17 : rs_code (me_rwy x) = None).
      { pose proof (D 17 ltac:(cbn; lia)) as Z. cbn -[line_of] in Z. destruct (rs_code (me_rwy x)); [discriminate Z|reflexivity]. }
      assert (Ta : metar_after x = [[pressure_str (pr_value (me_press x))]; []; []; []; []]).
      { unfold metar_after. rewrite Pc, Z14, Z15, Z16, Z17. reflexivity. }
      assert (Tb : metar_after (out_string (pressure_str (pr_value v)) (upd_press v x)) = [[pressure_str (pr_value v)]; []; []; []; []]).
      { unfold metar_after. cbn [out_string upd_common upd_press me_press me_recent me_ws me_sea me_rwy]. rewrite Ev, Z14, Z15, Z16, Z17. reflexivity. }
      assert (Tc : metar_before e (out_string (pressure_str (pr_value v)) (upd_press v x)) = metar_before e x) by reflexivity.
      unfold metar_T in *. rewrite Ta in *. rewrite Tb, Tc. split.
      * f_equal. cbn [concat]. rewrite !concat_app. cbn [concat]. rewrite <- !app_assoc. cbn [app]. rewrite ?app_nil_r. reflexivity.
      * intros g G. do 18 (destruct g as [|g]; [cbn in G; first [lia|reflexivity]|]). cbn. destruct g; reflexivity.
    + as_before P. apply (metar_line e P 20 13 (pressure_str (pr_value v)) _ _ _ H N); [reflexivity|discriminate|reflexivity|reflexivity|].
      intros ty old _. unfold metar_T, metar_before, metar_after, out_string. cbn [app set_nth upd_common upd_press me_press].
      rewrite Ev, Pc. reflexivity.
  - unfold handle_recent_weather in E. cbv zeta in E. ending E. one_line 14 (recent_weather_str (recent_weather_new (Some m))) H N.
    rewrite recent_code. reflexivity.
  - exact (metar_shear_line _ _ _ _ _ _ _ H N ltac:(lia) E).
  - exact (metar_shear_line _ _ _ _ _ _ _ H N ltac:(lia) E).
  - exact (metar_shear_line _ _ _ _ _ _ _ H N ltac:(lia) E).
  - unfold handle_sea_state in E. destruct (sea_state_new (Some m)) as [v|] eqn:Ev; [|discriminate E]. cbn [bind] in E. ending E.
    one_line 16 (sea_state_str v) H N. rewrite (sea_code _ _ Ev). reflexivity.
  - unfold handle_runway_state in E. cbv zeta in E. ending E. one_line 17 (runway_state_str (runway_state_new (Some m))) H N.
    rewrite runway_code. reflexivity.
Qed.

Lemma common_fresh : exists c, common_new [] = Ok c /\ c_string c = [] /\ wind_line c = [] /\ vis_line c = [] /\ weather_lines c = [] /\ cloud_lines c = [].
Proof. eexists. split; [vm_compute; reflexivity|]. vm_compute. auto. Qed.

Lemma metar_start_text : forall e raw y mo x, metar_init e raw y mo = Ok x -> metar_R e (eq []) 0 x /\ pr_code (me_press x) = None.
Proof.
  intros e raw y mo x E. unfold metar_init in E.
  destruct (time_new e None None None None None None); [|discriminate E]. cbn [bind] in E.
  destruct common_fresh as (c & Ec & C0 & C1 & C2 & C3 & C4). rewrite Ec in E. cbn [bind] in E.
  destruct (time_from_metar e None y mo) as [t|] eqn:T; [|discriminate E]. cbn [bind] in E.
  assert (T1 : t_code t = None).
  { unfold time_from_metar, time_new in T. cbv zeta in T. binds T. injection T as <-. reflexivity. }
  assert (W1 : exists v, wind_variation_new None = Ok v /\ wv_code v = None) by (eexists; split; vm_compute; reflexivity).
  assert (W2 : exists v, minimum_visibility_new None = Ok v /\ v_code v = None) by (eexists; split; vm_compute; reflexivity).
  assert (W3 : exists v, temperatures_new None = Ok v /\ te_code v = None) by (eexists; split; vm_compute; reflexivity).
  assert (W4 : exists v, metar_pressure_new None = Ok v /\ pr_code v = None) by (eexists; split; vm_compute; reflexivity).
  assert (W5 : exists v, sea_state_new None = Ok v /\ se_code v = None) by (eexists; split; vm_compute; reflexivity).
  destruct W1 as (v1 & E1 & K1). destruct W2 as (v2 & E2 & K2). destruct W3 as (v3 & E3 & K3). destruct W4 as (v4 & E4 & K4).
  destruct W5 as (v5 & E5 & K5). rewrite E1, E2, E3, E4, E5 in E. cbn [bind] in E. ending E.
  set (x := mk_metar _ _ _ _ _ _ _ _ _ _ _ _ _ _ _ _ _ _ _).
  assert (A : metar_T e [] [] x = repeat [] 18).
  { unfold metar_T, metar_before, metar_after, x.
    cbn [me_type me_station me_time me_modifier me_common me_wvar me_minvis me_rvr me_temps me_press me_recent me_ws me_sea me_rwy].
    rewrite C1, C2, C3, C4, T1, K1, K2, K3, K4, K5. reflexivity. }
  split; [|exact K4].
  exists [], []. split; [right; split; [reflexivity|unfold x; cbn [me_type]; reflexivity]|]. split; [reflexivity|]. rewrite A.
  split; [exact C0|]. intros g _. do 18 (destruct g as [|g]; [reflexivity|]). destruct g; reflexivity.
Qed.

(** ** Trends *)

Definition trend_T (c : common) : list (list str) := [wind_line c; vis_line c; weather_lines c; cloud_lines c].
Definition trend_lo : list nat := [3; 4; 5; 8].
Definition trend_R (n : nat) (p : change_period) : Prop :=
  c_string (cp_common p) = trend_head (cp_ind p) ++ lines (concat (trend_T (cp_common p)))
    /\ rest_empty trend_lo n (trend_T (cp_common p)) /\ (n = 0 -> ti_code (cp_ind p) = None)
    /\ ti_trans (cp_ind p) <> Some [].

Lemma trend_common : forall n i f t p c, trend_R n p -> n <= i -> 2 < i -> later_ok trend_lo i f = true ->
  c_string c = c_string (cp_common p) ++ t ++ [10%N] ->
  (rest_empty trend_lo n (trend_T (cp_common p)) -> trend_T c = set_nth f (nth f (trend_T (cp_common p)) [] ++ [t]) (trend_T (cp_common p))) ->
  trend_R (S i) (cp_set_common c p).
Proof.
  intros n i f t p c (A & D & F & G) N I L Es ET.
  destruct (advance trend_lo n i f (trend_T (cp_common p)) _ t eq_refl L N D (ET D)) as [C' D'].
  unfold trend_R. cbn [cp_common cp_set_common cp_ind]. rewrite Es, A, C', lines_snoc, <- app_assoc.
  split; [reflexivity|]. split; [exact D'|]. split; [discriminate|exact G].
Qed.

Lemma trend_single : forall f t n T T', n <= nth f trend_lo 99 -> T' = set_nth f [t] T ->
  rest_empty trend_lo n T -> T' = set_nth f (nth f T [] ++ [t]) T.
Proof. intros f t n T T' N H R. rewrite (R f N). cbn [app]. apply H. Qed.

Lemma trend_weather_line : forall n i m p p', trend_R n p -> n <= i -> 5 <= i < 8 -> cp_lift handle_weather m p = Ok p' -> trend_R (S i) p'.
Proof.
  intros n i m p p' H N I E. destruct (cp_lift_inv _ _ _ _ E) as (c & F & ->). destruct (metar_weather_str_step _ _ _ F) as (t & A & B & C & D & K).
  apply (trend_common n i 2 t); [exact H|exact N|lia| |exact A|].
  - do 5 (destruct i as [|i]; [lia|]). do 3 (destruct i as [|i]; [reflexivity|]). lia.
  - intros _. unfold trend_T. rewrite B, C, D, K. reflexivity.
Qed.
Lemma trend_cloud_line : forall n i m p p', trend_R n p -> n <= i -> 8 <= i < 12 -> cp_lift handle_cloud m p = Ok p' -> trend_R (S i) p'.
Proof.
  intros n i m p p' H N I E. destruct (cp_lift_inv _ _ _ _ E) as (c & F & ->). destruct (metar_cloud_str_step _ _ _ F) as (t & A & B & C & D & K).
  apply (trend_common n i 3 t); [exact H|exact N|lia| |exact A|].
  - do 8 (destruct i as [|i]; [lia|]). do 4 (destruct i as [|i]; [reflexivity|]). lia.
  - intros _. unfold trend_T. rewrite B, C, D, K. reflexivity.
Qed.

Lemma rest_all : forall n T, n <= 3 -> length T = 4 -> rest_empty trend_lo n T -> concat T = [].
Proof.
  intros n T N L R. apply concat_empty. intro g. destruct (Nat.lt_ge_cases g 4) as [G|G]; [|apply nth_overflow; lia].
  apply R. do 4 (destruct g as [|g]; [cbn; lia|]). lia.
Qed.

Lemma translations_said : forall s t, assoc s CHANGE_TRANSLATIONS = Some t -> t <> [].
Proof.
  assert (K : forallb (fun q => match snd q with [] => false | _ => true end) CHANGE_TRANSLATIONS = true) by (vm_compute; reflexivity).
  intros s t A -> . rewrite forallb_forall in K. generalize CHANGE_TRANSLATIONS A K. intro l. induction l as [|[a b] l IH]; intros E H; [discriminate E|].
  cbn [assoc] in E. destruct (str_eqb s a).
  - injection E as ->. discriminate (H (a, []) (or_introl eq_refl)).
  - apply IH; [exact E|]. intros q Q. exact (H q (or_intror Q)).
Qed.
Lemma indicator_said : forall m r, change_indicator_new (Some m) = Ok r -> snd r <> Some [].
Proof.
  intros m r E. unfold change_indicator_new in E. cbv zeta in E.
  destruct (assoc (m_string m) CHANGE_TRANSLATIONS) as [t|] eqn:A.
  { injection E as <-. cbn [snd]. intro K. injection K as ->. exact (translations_said _ _ A eq_refl). }
  destruct (starts_with (py "PROB") (m_string m)); [|injection E as <-; discriminate].
  destruct (split_on 95 (m_string m)) as [|c0 [|c1 l]]; [discriminate E|destruct (assoc c0 CHANGE_TRANSLATIONS); discriminate E|].
  destruct (assoc c0 CHANGE_TRANSLATIONS) as [a|]; [|discriminate E]. destruct (assoc c1 CHANGE_TRANSLATIONS); [|discriminate E].
  injection E as <-. cbn [snd]. intro K. destruct a; discriminate K.
Qed.

Lemma replace_line : forall old new, 1 < length old -> replace old new (old ++ [10%N]) = new ++ [10%N].
Proof.
  intros old new L. assert (old <> []) by (intros ->; cbn in L; lia). rewrite replace_at by assumption. f_equal.
  rewrite replace_step; [rewrite replace_nil by assumption; reflexivity|assumption|].
  destruct old as [|a [|b old]]; [contradiction|cbn in L; lia|]. cbn. destruct (N.eqb a 10); reflexivity.
Qed.

Lemma translated_long : forall i, ti_trans i <> None -> ti_trans i <> Some [] -> 1 < length (trend_ind_str i).
Proof.
  intros i A B. unfold trend_ind_str. destruct (ti_trans i) as [[|c t]|]; [contradiction (B eq_refl)| |contradiction (A eq_refl)].
  change (truthy (Some (c :: t))) with true.
  assert (L : forall u, 1 < length (translation_str (Some (c :: t)) ++ py " at " ++ u)
                /\ 1 < length (translation_str (Some (c :: t)) ++ py " from " ++ u)).
  { intro u. rewrite !app_length. cbn [translation_str length]. split; (change (length (py " at ")) with 4 || change (length (py " from ")) with 6); lia. }
  destruct (ti_at i) as [a|]; [destruct (time_truthy a)|]; apply L.
Qed.

(** An indicator without a translation has an AT time as its text, or none. *)
Lemma untranslated : forall i, ti_trans i = None -> trend_ind_str i = [] \/ exists u, trend_ind_str i = py " at " ++ u.
Proof.
  intros i H. unfold trend_ind_str. rewrite H. change (translation_str None) with (@nil N). change (truthy None) with false. cbv iota.
  destruct (ti_at i) as [a|]; [|left; reflexivity]. destruct (time_truthy a); [right; exists (time_str a); reflexivity|left; reflexivity].
Qed.
Lemma replace_twice : forall old new, old = [] \/ (exists u, old = py " at " ++ u) ->
  replace old new (old ++ [10%N] ++ old) = new ++ [10%N] ++ new.
Proof.
  intros old new [->|(u & ->)]; [reflexivity|]. set (o := py " at " ++ u). assert (No : o <> []) by discriminate.
  rewrite replace_at by exact No. f_equal. change ([10%N] ++ o) with (10%N :: o). rewrite replace_step by (first [exact No|reflexivity]).
  change ([10%N] ++ new) with (10%N :: new). f_equal. rewrite <- (app_nil_r o) at 2. rewrite replace_at by exact No.
  rewrite replace_nil by exact No. apply app_nil_r.
Qed.

Lemma trend_time_line : forall n i m p p', trend_R n p -> n <= i -> i <= 2 -> handle_time_period m p = Ok p' -> trend_R (S i) p'.
Proof.
  intros n i m p p' (A & D & F & G) N I E.
  rewrite (rest_all n) in A by (first [exact D|reflexivity|lia]). cbn [lines map concat] in A. rewrite app_nil_r in A.
  unfold handle_time_period in E. cbv zeta in E. destruct (add_period m (cp_ind p)) as [v|] eqn:Ev; [|discriminate E]. cbn [bind] in E.
  unfold add_period in Ev. destruct (ti_code (cp_ind p)) as [c|] eqn:Ci; [|discriminate Ev]. cbv zeta in Ev. binds Ev.
  assert (V : ti_trans v = ti_trans (cp_ind p) /\ ti_code v = Some (c ++ py " " ++ m_string m)).
  { repeat match type of Ev with context [if ?b then _ else _] => destruct b end; ending Ev; split; reflexivity. }
  destruct V as (V1 & V2). clear Ev.
  assert (D' : rest_empty trend_lo (S i) (trend_T (cp_common p))) by (intros g Hg; apply D; lia).
  ending E. unfold trend_R. cbn [cp_common cp_ind set_string c_string]. split.
  { unfold trend_T. change (wind_line (set_string _ _)) with (wind_line (cp_common p)).
    change (vis_line (set_string _ _)) with (vis_line (cp_common p)).
    change (weather_lines (set_string _ _)) with (weather_lines (cp_common p)).
    change (cloud_lines (set_string _ _)) with (cloud_lines (cp_common p)).
    fold (trend_T (cp_common p)). rewrite (rest_all n) by (first [exact D|reflexivity|lia]). cbn [lines map concat]. rewrite app_nil_r, A.
    unfold trend_head. rewrite Ci, V1, V2. destruct (ti_trans (cp_ind p)) as [tr|] eqn:Tr.
    - apply replace_line. apply translated_long; rewrite Tr; [discriminate|exact G].
    - apply replace_twice, untranslated, Tr. }
  split; [exact D'|]. split; [discriminate|]. rewrite V1. exact G.
Qed.

Lemma trend_lines : forall n i h m p p', nth_error trend_handlers i = Some h -> n <= i -> trend_R n p -> h_handle h m p = Ok p' -> trend_R (S i) p'.
Proof.
  intros n i h m p p' Hn N H E. unfold trend_handlers in Hn. each_slot i Hn ltac:(cbn [h_handle] in E).
  - destruct H as (A & D & F & G). assert (n = 0) by lia. subst n. unfold trend_head in A. rewrite (F eq_refl) in A.
    rewrite (rest_all 0) in A by (first [exact D|reflexivity|lia]). cbn in A.
    unfold handle_trend_indicator in E. destruct (trend_ind_new (Some m) _) as [v|] eqn:Ev; [|discriminate E]. cbn [bind] in E. ending E.
    unfold trend_ind_new in Ev. destruct (change_indicator_new (Some m)) as [ct|] eqn:Ct; [|discriminate Ev]. cbn [bind] in Ev. cbv zeta in Ev.
    binds Ev. pose proof (change_ind_code _ _ Ct) as K1. pose proof (indicator_said _ _ Ct) as K2.
    assert (V : ti_code v = Some (blanked (m_string m)) /\ ti_trans v <> Some [] /\ ti_at v = None) by (ending Ev; cbn [ti_code ti_trans ti_at]; auto).
    destruct V as (V1 & V2 & V3). clear Ev.
    unfold trend_R. cbn [cp_common cp_ind]. split.
    { change (trend_T (add_string (trend_ind_str v) (cp_common p))) with (trend_T (cp_common p)).
      rewrite (rest_all 0) by (first [exact D|reflexivity|lia]). cbn [add_string set_string c_string].
      unfold concat_string. rewrite A. cbn [lines map concat app]. rewrite app_nil_r. unfold trend_head. rewrite V1.
      destruct (ti_trans v) as [tr|] eqn:Tr; [reflexivity|]. assert (Z : trend_ind_str v = []) by (unfold trend_ind_str; rewrite V3, Tr; reflexivity).
      rewrite Z. reflexivity. }
    split; [intros g Hg; apply D; lia|]. split; [discriminate|exact V2].
  - exact (trend_time_line _ _ _ _ _ H N ltac:(lia) E).
  - exact (trend_time_line _ _ _ _ _ H N ltac:(lia) E).
  - destruct (cp_lift_inv _ _ _ _ E) as (c & F & ->). destruct (metar_wind_str_step _ _ _ F) as (t & A & B & C & D & K).
    apply (trend_common _ 3 0 t _ _ H N); [lia|reflexivity|exact A|apply trend_single; [exact N|]].
    unfold trend_T. rewrite B, C, D, K. reflexivity.
  - destruct (cp_lift_inv _ _ _ _ E) as (c & F & ->). destruct (metar_vis_str_step _ _ _ F) as (t & A & B & C & D & K).
    apply (trend_common _ 4 1 t _ _ H N); [lia|reflexivity|exact A|apply trend_single; [exact N|]].
    unfold trend_T. rewrite B, C, D, K. reflexivity.
  - exact (trend_weather_line _ _ _ _ _ H N ltac:(lia) E).
  - exact (trend_weather_line _ _ _ _ _ H N ltac:(lia) E).
  - exact (trend_weather_line _ _ _ _ _ H N ltac:(lia) E).
  - exact (trend_cloud_line _ _ _ _ _ H N ltac:(lia) E).
  - exact (trend_cloud_line _ _ _ _ _ H N ltac:(lia) E).
  - exact (trend_cloud_line _ _ _ _ _ H N ltac:(lia) E).
  - exact (trend_cloud_line _ _ _ _ _ H N ltac:(lia) E).
Qed.

Lemma trend_text_ok : forall code t p, change_period_new code t = Ok p -> trend_text p.
Proof.
  intros code t p E. unfold change_period_new in E. cbv zeta in E.
  destruct common_fresh as (c & Ec & C0 & C1 & C2 & C3 & C4). rewrite Ec in E. cbn [bind] in E.
  destruct (trend_ind_new None t) as [i|] eqn:Ei; [|discriminate E]. cbn [bind] in E.
  assert (I1 : ti_code i = None /\ ti_trans i = None).
  { unfold trend_ind_new in Ei. cbn [change_indicator_new bind] in Ei. cbv zeta in Ei. binds Ei. injection Ei as <-. split; reflexivity. }
  destruct (parse_section trend_handlers _ _) as [[p1 un]|] eqn:E1; [|discriminate E]. cbn [bind] in E.
  destruct (ordered_inv _ _ trend_R trend_lines _ _ _ _ E1) as (n & A & _).
  { unfold trend_R. cbn [cp_common cp_ind]. assert (Z : trend_T c = repeat [] 4) by (unfold trend_T; rewrite C1, C2, C3, C4; reflexivity).
    rewrite Z. unfold trend_head. rewrite (proj1 I1). split; [exact C0|].
    split; [intros g _; do 4 (destruct g as [|g]; [reflexivity|]); destruct g; reflexivity|]. split; [reflexivity|].
    rewrite (proj2 I1). discriminate. }
  ending E. unfold trend_text, change_period_str. cbn [cp_common cp_ind].
  rewrite A. unfold trend_T. cbn [concat]. rewrite app_nil_r. reflexivity.
Qed.

(** ** The whole METAR *)

Lemma trends_text : forall e l x x', handle_trends l x = Ok x' ->
  gl_n (me_trends x') = gl_n (me_trends x)
  /\ exists ps, gl_list (me_trends x') = gl_list (me_trends x) ++ ps /\ Forall trend_text ps
       /\ c_string (me_common x') = c_string (me_common x) ++ lines (map change_period_str ps)
       /\ (forall ty old, metar_T e ty old x' = metar_T e ty old x) /\ me_type x' = me_type x /\ me_press x' = me_press x.
Proof.
  intros e l. induction l as [|w l IH]; intros x x' E; cbn [handle_trends] in E.
  - injection E as <-. split; [reflexivity|]. exists []. rewrite app_nil_r. cbn [map lines concat]. unfold lines. cbn [map concat]. rewrite app_nil_r. auto 8.
  - destruct w as [|c w]; [exact (IH _ _ E)|]. unfold handle_weather_trend in E.
    destruct (change_period_new (c :: w) _) as [p|] eqn:C; [|discriminate E]. cbn [bind] in E. apply trend_text_ok in C.
    destruct (gl_add p (me_trends x)) as [g|] eqn:G; [|discriminate E]. cbn [bind] in E.
    destruct (IH _ _ E) as (N & ps & L & P & S & T & Ty & Pr).
    split; [rewrite N; exact (gl_add_place _ _ _ _ G)|].
    exists (p :: ps). split; [rewrite L; cbn -[app]; rewrite (gl_add_list _ _ _ _ G), <- app_assoc; reflexivity|].
    split; [constructor; assumption|]. split.
    { rewrite S. cbn [map]. change (change_period_str p :: map change_period_str ps) with ([change_period_str p] ++ map change_period_str ps).
      rewrite lines_app. unfold lines at 2. cbn [map concat]. rewrite app_nil_r, app_assoc. reflexivity. }
    split; [exact T|]. split; [exact Ty|exact Pr].
Qed.

(** A handler keeps the pressure or reads one. *)
Lemma pressure_step : forall e y mo i h m x x', nth_error (metar_handlers e y mo) i = Some h -> h_handle h m x = Ok x' ->
  ((i < 19 \/ 20 < i) /\ me_press x' = me_press x) \/ ((i = 19 \/ i = 20) /\ h_regexp h = r_PRESSURE /\ metar_pressure_new (Some m) = Ok (me_press x')).
Proof.
  intros e y mo i h m x x' Hn E. unfold metar_handlers in Hn.
  each_slot i Hn ltac:(cbn [h_handle h_regexp] in *);
    try (left; split; [lia|];
      unfold lift, handle_type, handle_station, handle_time, handle_modifier, handle_wind_variation, handle_minimum_visibility,
        handle_runway_range, handle_temperatures, handle_pressure, handle_recent_weather, handle_windshear, handle_sea_state,
        handle_runway_state in E; cbv zeta in E; binds E; ending E; reflexivity);
    right; (split; [lia|]); (split; [reflexivity|]); unfold handle_pressure in E;
    (destruct (metar_pressure_new (Some m)) as [v|] eqn:Ev; [|discriminate E]); cbn [bind] in E; ending E; reflexivity.
Qed.

(** What is known of the body holds of the report. *)
Lemma metar_text_by : forall e code y mo tr x, metar_parse e code y mo tr = Ok x ->
  exists raw x0 x1 un, report_raw_code code = Ok raw /\ metar_init e raw y mo = Ok x0
    /\ parse_section (metar_handlers e y mo) (sanitize_body (nth 0 (me_sections x0) [])) x0 = Ok (x1, un)
    /\ me_press x = me_press x1
    /\ forall P n, metar_R e P n x1 ->
       exists ty old, type_line (py "METAR") (me_type x) ty /\ P old
         /\ metar_str x = strip (lines (ty ++ concat (metar_before e x) ++ old ++ concat (metar_after x)
                                        ++ map change_period_str (gl_list (me_trends x))))
         /\ Forall trend_text (gl_list (me_trends x)).
Proof.
  intros e code y mo tr x E. unfold metar_parse in E. destruct (report_raw_code code) as [raw|] eqn:Er; [|discriminate E]. cbn [bind] in E.
  destruct (metar_init e raw y mo) as [x0|] eqn:E0; [|discriminate E]. cbn [bind] in E.
  pose proof (metar_fresh _ _ _ _ _ E0) as (_ & _ & F3).
  unfold parse_body in E. destruct (parse_section (metar_handlers e y mo) _ x0) as [[x1 un]|] eqn:E1; [|discriminate E]. cbn [bind] in E.
  exists raw, x0, x1, un. split; [exact eq_refl|]. split; [exact E0|]. split; [exact E1|].
  assert (K1 : me_trends x1 = me_trends x0).
  { apply (parse_section_inv _ (fun x => me_trends x = me_trends x0)) in E1; [exact E1| |auto].
    intros h m s s' I Eh K. destruct (metar_frame _ _ _ _ _ _ _ I Eh) as (L1 & _). rewrite L1. exact K. }
  unfold parse_weather_trend in E. destruct (handle_trends _ _) as [x2|] eqn:E2; [|discriminate E]. cbn [bind] in E.
  destruct (trends_text e _ _ _ E2) as (N & ps & L & Pt & S & T & Ty & Pr).
  cbn [me_trends upd_unparsed] in N, L. rewrite K1, F3 in N, L. cbn in N, L.
  rewrite (gl_collect_fresh _ N) in E. cbv zeta in E.
  set (x3 := upd_unparsed _ _) in E.
  assert (X : x = x3) by (destruct (me_unparsed x3); [congruence|]; destruct tr; [discriminate E|congruence]).
  rewrite X. change (me_press x3) with (me_press x2). split; [exact Pr|].
  intros P n (ty & old & A & B & C & _). exists ty, old. change (me_type x3) with (me_type x2). rewrite Ty.
  split; [exact A|]. split; [exact B|].
  change (metar_before e x3) with (metar_before e x2). change (metar_after x3) with (metar_after x2).
  change (gl_list (me_trends x3)) with (gl_list (me_trends x2)). rewrite L. split; [|exact Pt].
  unfold metar_str. change (c_string (me_common x3)) with (c_string (me_common x2)). rewrite S.
  change (c_string (me_common (upd_unparsed _ x1))) with (c_string (me_common x1)). rewrite C.
  change (metar_T e ty old x1) with (metar_T e ty old (upd_unparsed (me_unparsed x1 ++ un) x1)).
  rewrite <- T. unfold metar_T. rewrite <- lines_app. cbn [concat]. rewrite !concat_app. cbn [concat].
  rewrite <- !app_assoc. cbn [app]. reflexivity.
Qed.

Lemma metar_text_ok : forall e code y mo tr x, metar_parse e code y mo tr = Ok x -> metar_text e x.
Proof.
  intros e code y mo tr x E. destruct (metar_text_by _ _ _ _ _ _ E) as (raw & x0 & x1 & un & _ & E0 & E1 & Pr & H).
  apply metar_start_text in E0. destruct E0 as [E0 _].
  assert (K : exists n, metar_R e (old_pressure (me_press x1)) n x1).
  { apply (ordered_inv _ _ (fun n x => metar_R e (old_pressure (me_press x)) n x)) with (2 := E1).
    - intros n i h m s s' Hn Hl Hr Eh. pose proof (metar_lines _ _ _ _ _ _ _ _ _ _ Hn Hl Hr Eh) as R. refine (metar_more _ _ _ _ _ _ R).
      intros l [(Hl1 & _)|(-> & _ & Hc & ->)]; destruct (pressure_step _ _ _ _ _ _ _ _ Hn Eh) as [(Hi & ->)|(Hi & _ & Hp)].
      + exact Hl1.
      + destruct Hl1 as [->|(_ & Hv)]; [left; reflexivity|right]. rewrite (press_code _ _ Hp). split; [discriminate|exact Hv].
      + lia.
      + right. rewrite (press_code _ _ Hp). split; [discriminate|]. eexists. reflexivity.
    - refine (metar_more _ _ _ _ _ _ E0). intros l <-. left. reflexivity. }
  destruct K as (n & K). unfold metar_text. rewrite Pr. exact (H _ _ K).
Qed.
