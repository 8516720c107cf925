(** * No group raises ParserError, and only the lists raise RangeError *)
From Coq Require Import String Ascii.
From Coq Require Import List NArith ZArith Bool Lia.
From Verif Require Import PyBase PyRegex AeroRegex PyFloat PyTime Utils Base MetarGroups Trend Metar Taf SpecFailures
  Outcomes OutMetar.
Import ListNotations.
Local Open Scope string_scope.
Local Open Scope nat_scope.
Local Open Scope list_scope.

Definition mild (e : exn) : bool := match e with RangeError | ParserError => false | _ => true end.
Definition calm {A} (r : result A) : Prop := match r with Raise e => mild e = true | Ok _ => True end.

Lemma calm_bind : forall A B (r : result A) (f : A -> result B), calm r -> (forall a, calm (f a)) -> calm (bind r f).
Proof. intros A B [a|e] f H K; [apply K|exact H]. Qed.

Create HintDb calm discriminated.
Ltac calmly :=
  repeat first
    [ progress cbv zeta
    | assumption
    | match goal with
      | |- calm (Ok _) => exact Logic.I
      | |- calm (Raise _) => exact (eq_refl true)
      end
    | solve [eauto 1 with calm nocore]
    | match goal with
      | |- calm (bind _ _) => apply calm_bind; [|intro]
      | |- calm (match ?x with _ => _ end) => destruct x
      | |- calm (let (_, _) := ?x in _) => destruct x
      end ].

Lemma calm_int : forall s, calm (int_of_str s). Proof. intro s. unfold int_of_str. calmly. Qed.
#[export] Hint Resolve calm_int : calm.
Lemma calm_int_opt : forall s, calm (int_of_opt s). Proof. intro s. unfold int_of_opt. calmly. Qed.
#[export] Hint Resolve calm_int_opt : calm.
Lemma calm_float : forall s, calm (float_of_str s). Proof. intro s. unfold float_of_str. calmly. Qed.
#[export] Hint Resolve calm_float : calm.
Lemma calm_add : forall t k, calm (dt_add_minutes t k). Proof. intros t k. unfold dt_add_minutes. calmly. Qed.
#[export] Hint Resolve calm_add : calm.
Lemma calm_hours : forall t k, calm (dt_add_hours t k). Proof. intros t k. unfold dt_add_hours. calmly. Qed.
#[export] Hint Resolve calm_hours : calm.
Lemma calm_days : forall t k, calm (dt_add_days t k). Proof. intros t k. unfold dt_add_days. calmly. Qed.
#[export] Hint Resolve calm_days : calm.
Lemma calm_rhour : forall t k, calm (dt_replace_hour t k). Proof. intros t k. unfold dt_replace_hour. calmly. Qed.
#[export] Hint Resolve calm_rhour : calm.
Lemma calm_rminute : forall t k, calm (dt_replace_minute t k). Proof. intros t k. unfold dt_replace_minute. calmly. Qed.
#[export] Hint Resolve calm_rminute : calm.
Lemma calm_lstrip : forall s, calm (int_lstrip s). Proof. intros s. unfold int_lstrip. calmly. Qed.
#[export] Hint Resolve calm_lstrip : calm.
Lemma calm_strptime : forall s, calm (strptime s). Proof. intros s. unfold strptime. calmly. Qed.
#[export] Hint Resolve calm_strptime : calm.
Lemma calm_temperature : forall s, calm (temperature_new s). Proof. intros s. unfold temperature_new. calmly. Qed.
#[export] Hint Resolve calm_temperature : calm.
Lemma calm_direction : forall s, calm (direction_new s). Proof. intros s. unfold direction_new. calmly. Qed.
#[export] Hint Resolve calm_direction : calm.
Lemma calm_cardinal : forall s, calm (from_cardinal s). Proof. intros s. unfold from_cardinal. calmly. Qed.
#[export] Hint Resolve calm_cardinal : calm.
Lemma calm_speed : forall s, calm (speed_new s). Proof. intros s. unfold speed_new. calmly. Qed.
#[export] Hint Resolve calm_speed : calm.
Lemma calm_cloud : forall m, calm (cloud_from_metar m). Proof. intros m. unfold cloud_from_metar. calmly. Qed.
#[export] Hint Resolve calm_cloud : calm.
Lemma calm_time_new : forall e c mi h d mo y, calm (time_new e c mi h d mo y). Proof. intros. unfold time_new. calmly. Qed.
#[export] Hint Resolve calm_time_new : calm.
Lemma calm_time : forall e m y mo, calm (time_from_metar e m y mo). Proof. intros. unfold time_from_metar. calmly. Qed.
#[export] Hint Resolve calm_time : calm.
Lemma calm_indicator : forall m, calm (change_indicator_new m). Proof. intros. unfold change_indicator_new. calmly. Qed.
#[export] Hint Resolve calm_indicator : calm.
Lemma calm_wind : forall m, calm (metar_wind_new m). Proof. intros. unfold metar_wind_new. calmly. Qed.
#[export] Hint Resolve calm_wind : calm.
Lemma calm_wvar : forall m, calm (wind_variation_new m). Proof. intros. unfold wind_variation_new. calmly. Qed.
#[export] Hint Resolve calm_wvar : calm.
Lemma calm_minvis : forall m, calm (minimum_visibility_new m). Proof. intros. unfold minimum_visibility_new. calmly. Qed.
#[export] Hint Resolve calm_minvis : calm.
Lemma calm_div : forall a b, calm (int_div a b). Proof. intros. unfold int_div. calmly. Qed.
#[export] Hint Resolve calm_div : calm.
Lemma calm_miles : forall a b, calm (from_sea_miles a b). Proof. intros. unfold from_sea_miles. calmly. Qed.
#[export] Hint Resolve calm_miles : calm.
Lemma calm_prevailing : forall m, calm (prevailing_new m). Proof. intros. unfold prevailing_new. calmly. Qed.
#[export] Hint Resolve calm_prevailing : calm.
Lemma calm_rvr_range : forall c u, calm (rvr_set_range c u). Proof. intros. unfold rvr_set_range. calmly. Qed.
#[export] Hint Resolve calm_rvr_range : calm.
Lemma calm_rvr : forall m, calm (runway_range_new m). Proof. intros. unfold runway_range_new. calmly. Qed.
#[export] Hint Resolve calm_rvr : calm.
Lemma calm_set_temp : forall c s, calm (set_temperature c s). Proof. intros. unfold set_temperature. calmly. Qed.
#[export] Hint Resolve calm_set_temp : calm.
Lemma calm_temps : forall m, calm (temperatures_new m). Proof. intros. unfold temperatures_new. calmly. Qed.
#[export] Hint Resolve calm_temps : calm.
Lemma calm_press : forall m, calm (metar_pressure_new m). Proof. intros. unfold metar_pressure_new. calmly. Qed.
#[export] Hint Resolve calm_press : calm.
Lemma calm_sea : forall m, calm (sea_state_new m). Proof. intros. unfold sea_state_new. calmly. Qed.
#[export] Hint Resolve calm_sea : calm.
Lemma calm_common : forall b, calm (common_new b). Proof. intros. unfold common_new. calmly. Qed.
#[export] Hint Resolve calm_common : calm.
Lemma calm_trend_ind : forall m t, calm (trend_ind_new m t). Proof. intros. unfold trend_ind_new. calmly. Qed.
#[export] Hint Resolve calm_trend_ind : calm.
Lemma calm_period_time : forall i h m, calm (period_time i h m). Proof. intros. unfold period_time. calmly. Qed.
#[export] Hint Resolve calm_period_time : calm.
Lemma calm_add_period : forall m i, calm (add_period m i). Proof. intros. unfold add_period. calmly. Qed.
#[export] Hint Resolve calm_add_period : calm.
Lemma calm_valid : forall m t, calm (valid_from_taf m t). Proof. intros. unfold valid_from_taf. calmly. Qed.
#[export] Hint Resolve calm_valid : calm.
Lemma calm_taf_temp : forall m t, calm (taf_temp_new m t). Proof. intros. unfold taf_temp_new. calmly. Qed.
#[export] Hint Resolve calm_taf_temp : calm.
Lemma calm_roll : forall f d t, calm (roll_to_day f d t).
Proof. induction f as [|f IH]; intros d t; cbn [roll_to_day]; calmly. Qed.
#[export] Hint Resolve calm_roll : calm.
Lemma calm_taf_ind : forall m v, calm (taf_ind_new m v). Proof. intros. unfold taf_ind_new. calmly. Qed.
#[export] Hint Resolve calm_taf_ind : calm.
Lemma calm_set_valid : forall m t i, calm (set_valid_period m t i). Proof. intros. unfold set_valid_period. calmly. Qed.
#[export] Hint Resolve calm_set_valid : calm.
Lemma calm_reset : forall t i, calm (reset_until_period t i). Proof. intros. unfold reset_until_period. calmly. Qed.
#[export] Hint Resolve calm_reset : calm.
Lemma calm_pop : forall u rl temp, calm (pop_changes u rl temp).
Proof. intros u rl. induction rl as [|l rl IH]; intros temp; cbn [pop_changes]; calmly. Qed.
#[export] Hint Resolve calm_pop : calm.

(** ** No ParserError *)

Definition sound {A} (r : result A) : Prop := r <> Raise ParserError.
Lemma sound_bind : forall A B (r : result A) (f : A -> result B), sound r -> (forall a, sound (f a)) -> sound (bind r f).
Proof. intros A B [a|e] f H K; [apply K|]. intro E. apply H. cbn in E. congruence. Qed.
Lemma sound_calm : forall A (r : result A), calm r -> sound r.
Proof. intros A [a|e] H E; [discriminate|]. injection E as ->. discriminate. Qed.
Lemma sound_ok : forall A (a : A), sound (Ok a). Proof. intros A a E. discriminate. Qed.
#[export] Hint Resolve sound_ok : calm.
Lemma sound_gl : forall A (x : A) g, sound (gl_add x g).
Proof. intros A x g. unfold gl_add. destruct (Nat.leb _ _); discriminate. Qed.
#[export] Hint Resolve sound_gl : calm.

Ltac soundly :=
  repeat first
    [ progress cbv zeta
    | assumption
    | apply sound_ok
    | solve [eauto 1 with calm nocore]
    | solve [apply sound_calm; eauto 1 with calm nocore]
    | match goal with
      | |- sound (bind _ _) => apply sound_bind; [|intro]
      | |- sound (match ?x with _ => _ end) => destruct x
      | |- sound (let (_, _) := ?x in _) => destruct x
      end ].

Definition sound_handlers {S} (hs : list (handler S)) : Prop := Forall (fun h => forall m x, sound (h_handle h m x)) hs.

Lemma sound_groups : forall S (hs : list (handler S)) gs i un st, sound_handlers hs -> sound (parse_groups hs gs i un st).
Proof.
  intros S hs gs. induction gs as [|g gs IH]; intros i un st H; cbn [parse_groups]; [apply sound_ok|]. cbv zeta.
  destruct (first_match (skipn i hs) 0 g) as [[[k h] m]|] eqn:E; [|apply IH; exact H].
  apply sound_bind; [|intro; apply IH; exact H].
  destruct (first_match_nth _ _ _ _ _ _ _ E) as (j & En & _). rewrite nth_skipn in En.
  unfold sound_handlers in H. rewrite Forall_forall in H. exact (H h (nth_error_In _ _ En) m st).
Qed.
Lemma sound_section : forall S (hs : list (handler S)) s st, sound_handlers hs -> sound (parse_section hs s st).
Proof. intros S hs s st H. unfold parse_section. apply sound_groups. exact H. Qed.

Lemma sound_hwind : forall m c, sound (handle_wind m c). Proof. intros. unfold handle_wind. soundly. Qed.
#[export] Hint Resolve sound_hwind : calm.
Lemma sound_hprev : forall m c, sound (handle_prevailing m c). Proof. intros. unfold handle_prevailing. soundly. Qed.
#[export] Hint Resolve sound_hprev : calm.
Lemma sound_hweather : forall m c, sound (handle_weather m c). Proof. intros. unfold handle_weather. soundly. Qed.
#[export] Hint Resolve sound_hweather : calm.
Lemma sound_hcloud : forall m c, sound (handle_cloud m c). Proof. intros. unfold handle_cloud. soundly. Qed.
#[export] Hint Resolve sound_hcloud : calm.

Ltac handlers := unfold sound_handlers; repeat (apply Forall_cons; [intros; cbn [h_handle]|]); try apply Forall_nil.

Lemma sound_trend_handlers : sound_handlers trend_handlers.
Proof. unfold trend_handlers. handlers; unfold handle_trend_indicator, handle_time_period, cp_lift; soundly. Qed.
#[export] Hint Resolve sound_trend_handlers : calm.
Lemma sound_change_period : forall c t, sound (change_period_new c t).
Proof. intros. unfold change_period_new. soundly. apply sound_section. exact sound_trend_handlers. Qed.
#[export] Hint Resolve sound_change_period : calm.
Lemma sound_metar_handlers : forall e y mo, sound_handlers (metar_handlers e y mo).
Proof.
  intros e y mo. unfold metar_handlers. handlers;
    unfold handle_type, handle_station, handle_time, handle_modifier, handle_wind_variation, handle_minimum_visibility,
      handle_runway_range, handle_temperatures, handle_pressure, handle_recent_weather, handle_windshear, handle_sea_state,
      handle_runway_state, lift; soundly.
Qed.
#[export] Hint Resolve sound_metar_handlers : calm.
Lemma sound_body : forall e y mo x, sound (parse_body e y mo x).
Proof. intros. unfold parse_body. soundly. apply sound_section. apply sound_metar_handlers. Qed.
#[export] Hint Resolve sound_body : calm.
Lemma sound_trends : forall l x, sound (handle_trends l x).
Proof.
  induction l as [|w l IH]; intro x; cbn [handle_trends]; [apply sound_ok|]. destruct w as [|c w]; [apply IH|].
  apply sound_bind; [|intro; apply IH]. unfold handle_weather_trend. apply sound_bind; [apply sound_change_period|intro]. soundly.
Qed.
#[export] Hint Resolve sound_trends : calm.
Lemma sound_init : forall e raw y mo, sound (metar_init e raw y mo).
Proof. intros. unfold metar_init. soundly. Qed.
#[export] Hint Resolve sound_init : calm.

Lemma sound_change_handlers : sound_handlers change_handlers.
Proof. unfold change_handlers. handlers; unfold handle_change_indicator, handle_change_valid, cf_lift; soundly. Qed.
#[export] Hint Resolve sound_change_handlers : calm.
Lemma sound_change : forall c v, sound (change_fc_new c v).
Proof. intros. unfold change_fc_new. soundly. apply sound_section. exact sound_change_handlers. Qed.
#[export] Hint Resolve sound_change : calm.
Lemma sound_add_all : forall A (l : list A) g, sound (gl_add_all l g).
Proof. intros A l. induction l as [|x l IH]; intro g; cbn [gl_add_all]; [apply sound_ok|]. apply sound_bind; [apply sound_gl|intro; apply IH]. Qed.
#[export] Hint Resolve sound_add_all : calm.
Lemma sound_changes_add : forall p g, sound (changes_add p g).
Proof. intros. unfold changes_add. soundly. Qed.
#[export] Hint Resolve sound_changes_add : calm.
Lemma sound_taf_handlers : forall e y mo, sound_handlers (taf_handlers e y mo).
Proof.
  intros e y mo. unfold taf_handlers. handlers;
    unfold thandle_type, thandle_station, thandle_time, thandle_modifier, thandle_missing, thandle_valid, thandle_cancelled,
      thandle_temperature, tlift; soundly.
Qed.
#[export] Hint Resolve sound_taf_handlers : calm.
Lemma sound_taf_body : forall e y mo x, sound (taf_parse_body e y mo x).
Proof. intros. unfold taf_parse_body. soundly. apply sound_section. apply sound_taf_handlers. Qed.
#[export] Hint Resolve sound_taf_body : calm.
Lemma sound_changes : forall l x, sound (handle_changes l x).
Proof.
  induction l as [|w l IH]; intro x; cbn [handle_changes]; [apply sound_ok|]. destruct w as [|c w]; [apply IH|].
  apply sound_bind; [|intro; apply IH]. unfold handle_change_forecasted. apply sound_bind; [apply sound_change|intro].
  apply sound_bind; [apply sound_changes_add|intro]. apply sound_ok.
Qed.
#[export] Hint Resolve sound_changes : calm.
Lemma sound_taf_init : forall e raw, sound (taf_init e raw).
Proof. intros. unfold taf_init. soundly. Qed.
#[export] Hint Resolve sound_taf_init : calm.

(** ** Truncation *)

Lemma metar_truncate : forall e code y mo,
  match metar_parse e code y mo false with
  | Ok x => metar_parse e code y mo true = match me_unparsed x with [] => Ok x | _ :: _ => Raise ParserError end
  | Raise ex => metar_parse e code y mo true = Raise ex /\ ex <> ParserError
  end.
Proof.
  intros e code y mo. unfold metar_parse.
  destruct (report_raw_code code) as [raw|ex] eqn:E1; cbn [bind].
  2: { split; [reflexivity|]. destruct code; [injection E1 as <-|]; discriminate. }
  destruct (metar_init e raw y mo) as [x0|ex] eqn:E2; cbn [bind].
  2: { split; [reflexivity|]. intros ->. exact (sound_init _ _ _ _ E2). }
  destruct (parse_body e y mo x0) as [x1|ex] eqn:E3; cbn [bind].
  2: { split; [reflexivity|]. intros ->. exact (sound_body _ _ _ _ E3). }
  unfold parse_weather_trend.
  destruct (handle_trends (trend_codes (section 1 (me_sections x1))) x1) as [x2|ex] eqn:E4; cbn [bind].
  2: { split; [reflexivity|]. intros ->. exact (sound_trends _ _ E4). }
  destruct (gl_collect (me_trends x2)) as [l g]. cbv zeta.
  destruct (me_unparsed (upd_unparsed _ _)) as [|u us] eqn:E5; rewrite E5; reflexivity.
Qed.

Lemma taf_truncate : forall e code y mo,
  match taf_parse e code y mo false with
  | Ok x => taf_parse e code y mo true = match ta_unparsed x with [] => Ok x | _ :: _ => Raise ParserError end
  | Raise ex => taf_parse e code y mo true = Raise ex /\ ex <> ParserError
  end.
Proof.
  intros e code y mo. unfold taf_parse.
  destruct (report_raw_code code) as [raw|ex] eqn:E1; cbn [bind].
  2: { split; [reflexivity|]. destruct code; [injection E1 as <-|]; discriminate. }
  destruct (taf_init e raw) as [x0|ex] eqn:E2; cbn [bind].
  2: { split; [reflexivity|]. intros ->. exact (sound_taf_init _ _ E2). }
  destruct (taf_parse_body e y mo x0) as [x1|ex] eqn:E3; cbn [bind].
  2: { split; [reflexivity|]. intros ->. exact (sound_taf_body _ _ _ _ E3). }
  unfold parse_changes_forecasted.
  destruct (handle_changes (ta_codes x1) x1) as [x2|ex] eqn:E4; cbn [bind].
  2: { split; [reflexivity|]. intros ->. exact (sound_changes _ _ E4). }
  destruct (gl_collect (ta_changes x2)) as [l g]. cbv zeta.
  destruct (ta_unparsed (tupd_unparsed _ _)) as [|u us] eqn:E5; rewrite E5; reflexivity.
Qed.

(** ** The lists of a METAR body never overflow *)

Definition within {A} (n l : nat) (g : grouplist A) : Prop := gl_max g = n /\ length (gl_list g) <= Nat.min n l.
Lemma within_mono : forall A n l l' (g : grouplist A), l <= l' -> within n l g -> within n l' g.
Proof. intros A n l l' g H [E L]. split; [exact E|lia]. Qed.
Lemma within_add : forall A n l (x : A) g, within n l g -> l < n -> exists g', gl_add x g = Ok g' /\ within n (S l) g'.
Proof.
  intros A n l x g [E L] H. unfold gl_add. rewrite E. replace (Nat.leb n (length (gl_list g))) with false.
  - eexists. split; [reflexivity|]. split; [reflexivity|]. cbn [gl_list]. rewrite app_length. cbn [length]. lia.
  - symmetry. apply Nat.leb_gt. lia.
Qed.

Definition lists_inv (k : nat) (x : metar) : Prop :=
  within 3 (k - 8) (me_rvr x) /\ within 3 (k - 11) (c_weathers (me_common x)) /\ within 4 (k - 14) (c_clouds (me_common x))
  /\ within 3 (k - 22) (me_ws x).
Definition not_range (g : str) (e : exn) : Prop := e <> RangeError.

Lemma lists_mono : forall i j x, i <= j -> lists_inv i x -> lists_inv j x.
Proof.
  intros i j x H (A & B & C & D). split; [|split; [|split]].
  - apply (within_mono _ _ (i - 8)); [lia|exact A].
  - apply (within_mono _ _ (i - 11)); [lia|exact B].
  - apply (within_mono _ _ (i - 14)); [lia|exact C].
  - apply (within_mono _ _ (i - 22)); [lia|exact D].
Qed.

Lemma outcome_calm : forall A B (r : result A) (f : A -> result B) g Q, calm r -> (forall a, outcome (not_range g) Q (f a)) ->
  outcome (not_range g) Q (bind r f).
Proof. intros A B [a|e] f g Q H K; [apply K|]. cbn in *. intros ->. discriminate. Qed.

Lemma lists_weather : forall k g m x, 11 <= k < 14 -> lists_inv k x -> outcome (not_range g) (lists_inv (S k)) (lift handle_weather m x).
Proof.
  intros k g m x Hk (A & B & C & D). unfold lift, handle_weather. cbv zeta.
  destruct (within_add _ _ _ (weather_new (Some m)) _ B) as (l & -> & B'); [lia|]. cbn [bind outcome].
  split; [apply (within_mono _ _ (k - 8)); [lia|exact A]|]. split; [apply (within_mono _ _ (S (k - 11))); [lia|exact B']|].
  split; [apply (within_mono _ _ (k - 14)); [lia|exact C]|apply (within_mono _ _ (k - 22)); [lia|exact D]].
Qed.
Lemma lists_cloud : forall k g m x, 14 <= k < 18 -> lists_inv k x -> outcome (not_range g) (lists_inv (S k)) (lift handle_cloud m x).
Proof.
  intros k g m x Hk (A & B & C & D). unfold lift, handle_cloud.
  pose proof (calm_cloud (Some m)) as K. destruct (cloud_from_metar (Some m)) as [cl|ex]; cbn [bind outcome calm] in *;
    [|intros ->; discriminate].
  destruct (within_add _ _ _ cl _ C) as (l & -> & C'); [lia|]. cbn [bind outcome].
  split; [apply (within_mono _ _ (k - 8)); [lia|exact A]|]. split; [apply (within_mono _ _ (k - 11)); [lia|exact B]|].
  split; [apply (within_mono _ _ (S (k - 14))); [lia|exact C']|apply (within_mono _ _ (k - 22)); [lia|exact D]].
Qed.
Lemma lists_rvr : forall k g m x, 8 <= k < 11 -> lists_inv k x -> outcome (not_range g) (lists_inv (S k)) (handle_runway_range m x).
Proof.
  intros k g m x Hk (A & B & C & D). unfold handle_runway_range.
  pose proof (calm_rvr (Some m)) as K. destruct (runway_range_new (Some m)) as [r|ex]; cbn [bind outcome calm] in *;
    [|intros ->; discriminate].
  destruct (within_add _ _ _ r _ A) as (l & -> & A'); [lia|]. cbn [bind outcome].
  split; [apply (within_mono _ _ (S (k - 8))); [lia|exact A']|]. split; [apply (within_mono _ _ (k - 11)); [lia|exact B]|].
  split; [apply (within_mono _ _ (k - 14)); [lia|exact C]|apply (within_mono _ _ (k - 22)); [lia|exact D]].
Qed.
Lemma lists_ws : forall k g m x, 22 <= k < 25 -> lists_inv k x -> outcome (not_range g) (lists_inv (S k)) (handle_windshear m x).
Proof.
  intros k g m x Hk (A & B & C & D). unfold handle_windshear. cbv zeta.
  destruct (within_add _ _ _ (windshear_new (Some m)) _ D) as (l & -> & D'); [lia|]. cbn [bind outcome].
  split; [apply (within_mono _ _ (k - 8)); [lia|exact A]|]. split; [apply (within_mono _ _ (k - 11)); [lia|exact B]|].
  split; [apply (within_mono _ _ (k - 14)); [lia|exact C]|apply (within_mono _ _ (S (k - 22))); [lia|exact D']].
Qed.

Lemma lists_steps : forall e y mo k h g m x, nth_error (metar_handlers e y mo) k = Some h -> lists_inv k x ->
  outcome (not_range g) (lists_inv (S k)) (h_handle h m x).
Proof.
  intros e y mo k h g m x E H. assert (H' := lists_mono k (S k) x ltac:(lia) H). unfold metar_handlers in E.
  nth_cases k E;
    try (apply lists_weather; [lia|exact H]); try (apply lists_cloud; [lia|exact H]);
    try (apply lists_rvr; [lia|exact H]); try (apply lists_ws; [lia|exact H]);
    unfold handle_type, handle_station, handle_time, handle_modifier, handle_wind_variation, handle_minimum_visibility,
      handle_temperatures, handle_pressure, handle_recent_weather, handle_sea_state,
      handle_runway_state, lift, handle_wind, handle_prevailing; cbv zeta;
    try exact H';
    try (apply outcome_calm; [solve [eauto 1 with calm nocore]|intro; exact H']).
  - pose proof (calm_wind (Some m)) as K. destruct (metar_wind_new (Some m)); cbn [bind outcome calm] in *;
      [exact H'|intros ->; discriminate].
  - pose proof (calm_prevailing (Some m)) as K. destruct (prevailing_new (Some m)); cbn [bind outcome calm] in *;
      [exact H'|intros ->; discriminate].
  - destruct k; discriminate E.
Qed.

Lemma body_lists : forall e y mo s x0, lists_inv 0 x0 ->
  match parse_section (metar_handlers e y mo) s x0 with
  | Ok (x, _) => length (gl_list (me_rvr x)) <= 3 /\ length (gl_list (c_weathers (me_common x))) <= 3
                 /\ length (gl_list (c_clouds (me_common x))) <= 4 /\ length (gl_list (me_ws x)) <= 3
  | Raise ex => ex <> RangeError
  end.
Proof.
  intros e y mo s x0 H.
  pose proof (parse_section_outcome _ (metar_handlers e y mo) lists_inv not_range s x0 lists_mono) as P.
  specialize (P (fun k h g m st E _ _ => lists_steps e y mo k h g m st E) H).
  destruct (parse_section (metar_handlers e y mo) s x0) as [[x un]|ex]; cbn [outcome fst] in P.
  - destruct P as (k & [_ A] & [_ B] & [_ C] & [_ D]). lia.
  - destruct P as (g & _ & N). exact N.
Qed.

Lemma init_lists : forall e raw y mo x, metar_init e raw y mo = Ok x -> lists_inv 0 x.
Proof.
  intros e raw y mo x. unfold metar_init.
  destruct (time_new e None None None None None None) as [t0|ex]; [|discriminate]. cbn [bind].
  destruct (time_from_metar e None y mo) as [t|ex]; [|discriminate]. cbn [bind common_new].
  intro E. injection E as <-. unfold lists_inv, within. cbn. lia.
Qed.
