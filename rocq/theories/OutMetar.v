(** * Which exceptions parsing a METAR can raise *)
From Coq Require Import String Ascii.
From Coq Require Import List NArith ZArith Bool Lia.
From Verif Require Import PyBase PyRegex AeroRegex PyFloat PyTime Utils Base MetarGroups Trend Metar Taf
  SpecNum SpecTime SpecTaf SpecFailures SymRegex SymFirst StrFacts RegexPaths Captures DigitFacts ReprFacts FloatFacts
  SpecGroups ProofGroups ProofValues TimeFacts ProofTime Outcomes OutTime.
Import ListNotations.
Local Open Scope string_scope.
Local Open Scope nat_scope.
Local Open Scope list_scope.

(** ** Running handlers *)

Lemma first_match_nth : forall S (hs : list (handler S)) n g k h m, first_match hs n g = Some (k, h, m) ->
  exists j, nth_error hs j = Some h /\ re_match (h_regexp h) g = Some m /\ k = n + Datatypes.S j.
Proof.
  intros S hs. induction hs as [|h0 hs IH]; intros n g k h m E; [discriminate|]. cbn [first_match] in E.
  destruct (re_match (h_regexp h0) g) as [m0|] eqn:Em.
  - injection E as <- <- <-. exists 0. split; [reflexivity|]. split; [exact Em|lia].
  - apply IH in E. destruct E as (j & E1 & E2 & ->). exists (Datatypes.S j). split; [exact E1|]. split; [exact E2|lia].
Qed.

Lemma nth_skipn : forall A n (l : list A) j, nth_error (skipn n l) j = nth_error l (n + j).
Proof.
  intros A n. induction n as [|n IH]; intros l j; [reflexivity|]. destruct l as [|x l]; [destruct j; reflexivity|]. apply IH.
Qed.

(** [J k]: what holds when the next handler to try is the [k]-th;
    [P g e]: group [g] may raise [e]. *)
Lemma parse_groups_outcome : forall S (hs : list (handler S)) (J : nat -> S -> Prop) (G : list str) (P : str -> exn -> Prop),
  (forall i j st, i <= j -> J i st -> J j st) ->
  (forall k h g m st, nth_error hs k = Some h -> In g G -> re_match (h_regexp h) g = Some m -> J k st ->
     outcome (P g) (J (Datatypes.S k)) (h_handle h m st)) ->
  forall gs index un st, incl gs G -> J index st ->
  outcome (fun e => exists g, In g G /\ P g e) (fun r => exists k, J k (fst r)) (parse_groups hs gs index un st).
Proof.
  intros S hs J G P Mono Step gs. induction gs as [|g gs IH]; intros index un st Inc H; cbn [parse_groups].
  - exists index. exact H.
  - assert (Ig : In g G) by (apply Inc; left; reflexivity).
    assert (Is : incl gs G) by (intros x Hx; apply Inc; right; exact Hx).
    destruct (first_match (skipn index hs) 0 g) as [[[k h] m]|] eqn:F; [|apply IH; assumption].
    apply first_match_nth in F. destruct F as (j & Ej & Em & ->). rewrite nth_skipn in Ej.
    pose proof (Step _ h g m st Ej Ig Em (Mono index (index + j) st ltac:(lia) H)) as K.
    destruct (h_handle h m st) as [st1|e]; cbn [bind outcome] in *.
    + apply IH; [exact Is|]. replace (index + (0 + Datatypes.S j)) with (Datatypes.S (index + j)) by lia. exact K.
    + exists g. split; [exact Ig|exact K].
Qed.

Lemma parse_section_outcome : forall S (hs : list (handler S)) (J : nat -> S -> Prop) (P : str -> exn -> Prop) sec st,
  (forall i j st, i <= j -> J i st -> J j st) ->
  (forall k h g m st, nth_error hs k = Some h -> In g (split_on 32%N sec) -> re_match (h_regexp h) g = Some m -> J k st ->
     outcome (P g) (J (Datatypes.S k)) (h_handle h m st)) ->
  J 0 st ->
  outcome (fun e => exists g, In g (split_on 32%N sec) /\ P g e) (fun r => exists k, J k (fst r)) (parse_section hs sec st).
Proof.
  intros S hs J P sec st Mono Step H. unfold parse_section.
  apply parse_groups_outcome; [exact Mono|exact Step|intros x Hx; exact Hx|exact H].
Qed.

Ltac nth_cases k E :=
  destruct k as [|k]; [injection E as <-; cbn [h_regexp h_handle] in * | try nth_cases k E].

(** ** Lists with room left *)

Definition room {A} (n l : nat) (g : grouplist A) : Prop := gl_max g = n /\ length (gl_list g) <= l.

Lemma room_mono : forall A n l l' (g : grouplist A), l <= l' -> room n l g -> room n l' g.
Proof. intros A n l l' g H [E L]. split; [exact E|lia]. Qed.

Lemma room_add : forall A n l (x : A) g, room n l g -> l < n -> exists g', gl_add x g = Ok g' /\ room n (Datatypes.S l) g'.
Proof.
  intros A n l x g [E L] H. unfold gl_add. rewrite E. replace (Nat.leb n (length (gl_list g))) with false.
  - eexists. split; [reflexivity|]. split; [reflexivity|]. cbn [gl_list]. rewrite app_length. cbn. lia.
  - symmetry. apply Nat.leb_gt. lia.
Qed.

Lemma fine_outcome : forall A B (P : exn -> Prop) (Q : B -> Prop) (r : result A) (f : A -> result B),
  fine r -> (forall a, outcome P Q (f a)) -> outcome P Q (bind r f).
Proof. intros A B P Q r f (a & ->) H. exact (H a). Qed.

(** ** The body of a METAR *)

Definition body_cause (y mo : Z) (g : str) (e : exn) : Prop :=
  match e with
  | ZeroDivisionError => exists x, contains g x /\ over_zero x
  | TypeError => exists x, contains g x /\ fraction_km x
  | ValueError => (exists x, contains g x /\ no_direction x)
                  \/ (exists x d h mi, contains g x /\ stamp x d h mi /\ impossible y mo d h)
  | _ => False
  end.

Lemma vis_body : forall y mo g e, vis_cause g e -> body_cause y mo g e.
Proof. intros y mo g e H. destruct e; cbn in *; auto. Qed.

(** The report time is the first of the month or the one of a time group. *)
Definition time_of (y mo : Z) (G : list str) (t : datetime) : Prop :=
  real_time t /\ dt_year t = y /\ dt_month t = mo
  /\ (t = mk_dt y mo 1 0 0
      \/ exists g x d h mi, In g G /\ contains g x /\ stamp x d h mi /\ t = mk_dt y mo (Z.of_N d) (Z.of_N h) (Z.of_N mi)).

Definition body_inv (y mo : Z) (G : list str) (secs : list str) (k : nat) (x : metar) : Prop :=
  room 3 (k - 8) (me_rvr x) /\ room 3 (k - 11) (c_weathers (me_common x)) /\ room 4 (k - 14) (c_clouds (me_common x))
  /\ room 3 (k - 22) (me_ws x) /\ time_of y mo G (t_dt (me_time x)) /\ me_sections x = secs /\ me_trends x = gl_new 2
  /\ me_unparsed x = [].

Lemma body_mono : forall y mo G secs i j x, i <= j -> body_inv y mo G secs i x -> body_inv y mo G secs j x.
Proof.
  intros y mo G secs i j x H (A & B & C & D & R). unfold body_inv. split; [|split; [|split; [|split; [|exact R]]]].
  - apply (room_mono _ _ (i - 8)); [lia|exact A].
  - apply (room_mono _ _ (i - 11)); [lia|exact B].
  - apply (room_mono _ _ (i - 14)); [lia|exact C].
  - apply (room_mono _ _ (i - 22)); [lia|exact D].
Qed.

Section Body.
Variables (e : env) (year month : option Z) (G secs : list str).
Hypothesis W : month_wf e year month.
Notation y := (opt_default (now_year e) year).
Notation mo := (opt_default (now_month e) month).
Notation inv := (body_inv y mo G secs).
Notation ends g := (outcome (body_cause y mo g)).

Lemma inv_common : forall k x c, inv k x -> c_weathers c = c_weathers (me_common x) -> c_clouds c = c_clouds (me_common x) ->
  inv (S k) (upd_common c x).
Proof.
  intros k x c (A & B & C & D & R) E1 E2. apply (body_mono _ _ _ _ k); [lia|].
  unfold body_inv. cbn [upd_common me_rvr me_common me_ws me_time me_sections me_trends me_unparsed]. rewrite E1, E2. auto.
Qed.

Lemma inv_out : forall k x s, inv k x -> inv (S k) (out_string s x).
Proof. intros k x s H. unfold out_string. apply inv_common; [exact H|reflexivity|reflexivity]. Qed.

Lemma step_wind : forall k g m x, re_match r_WIND g = Some m -> inv k x -> ends g (inv (S k)) (lift handle_wind m x).
Proof.
  intros k g m x M H. unfold lift, handle_wind.
  destruct (wind_fine r_WIND g m (proj1 wind_checks_ok) M) as (w & ->). cbn [bind outcome].
  apply inv_common; [exact H|reflexivity|reflexivity].
Qed.

Lemma step_prevailing : forall k g m x, re_match r_VISIBILITY g = Some m -> inv k x ->
  ends g (inv (S k)) (lift handle_prevailing m x).
Proof.
  intros k g m x M H. unfold lift, handle_prevailing.
  pose proof (prevailing_outcome r_VISIBILITY g m (proj1 vis_checks_ok) M) as P.
  destruct (prevailing_new (Some m)) as [v|ex]; cbn [bind outcome] in *.
  - apply inv_common; [exact H|reflexivity|reflexivity].
  - exact (vis_body _ _ _ _ P).
Qed.

Lemma step_weather : forall k g m x, 11 <= k < 14 -> inv k x -> ends g (inv (S k)) (lift handle_weather m x).
Proof.
  intros k g m x Hk (A & B & C & D & R). unfold lift, handle_weather. cbv zeta.
  destruct (room_add _ _ _ (weather_new (Some m)) _ B) as (l & -> & B'); [lia|]. cbn [bind outcome].
  unfold body_inv. cbn [upd_common me_rvr me_common me_ws me_time me_sections me_trends me_unparsed c_weathers c_clouds].
  split; [apply (room_mono _ _ (k - 8)); [lia|exact A]|]. split; [apply (room_mono _ _ (S (k - 11))); [lia|exact B']|].
  split; [apply (room_mono _ _ (k - 14)); [lia|exact C]|]. split; [apply (room_mono _ _ (k - 22)); [lia|exact D]|]. exact R.
Qed.

Lemma step_cloud : forall k g m x, 14 <= k < 18 -> re_match r_CLOUD g = Some m -> inv k x ->
  ends g (inv (S k)) (lift handle_cloud m x).
Proof.
  intros k g m x Hk M (A & B & C & D & R). unfold lift, handle_cloud.
  destruct (cloud_fine g m M) as (cl & ->). cbn [bind].
  destruct (room_add _ _ _ cl _ C) as (l & -> & C'); [lia|]. cbn [bind outcome].
  unfold body_inv. cbn [upd_common me_rvr me_common me_ws me_time me_sections me_trends me_unparsed c_weathers c_clouds].
  split; [apply (room_mono _ _ (k - 8)); [lia|exact A]|]. split; [apply (room_mono _ _ (k - 11)); [lia|exact B]|].
  split; [apply (room_mono _ _ (S (k - 14))); [lia|exact C']|]. split; [apply (room_mono _ _ (k - 22)); [lia|exact D]|]. exact R.
Qed.

Lemma step_rvr : forall k g m x, 8 <= k < 11 -> re_match r_RUNWAY_RANGE g = Some m -> inv k x ->
  ends g (inv (S k)) (handle_runway_range m x).
Proof.
  intros k g m x Hk M (A & B & C & D & R). unfold handle_runway_range.
  destruct (rvr_fine g m M) as (r & ->). cbn [bind].
  destruct (room_add _ _ _ r _ A) as (l & -> & A'); [lia|]. cbn [bind outcome].
  unfold body_inv, out_string.
  cbn [upd_common upd_rvr add_string set_string me_rvr me_common me_ws me_time me_sections me_trends me_unparsed c_weathers c_clouds].
  split; [apply (room_mono _ _ (S (k - 8))); [lia|exact A']|]. split; [apply (room_mono _ _ (k - 11)); [lia|exact B]|].
  split; [apply (room_mono _ _ (k - 14)); [lia|exact C]|]. split; [apply (room_mono _ _ (k - 22)); [lia|exact D]|]. exact R.
Qed.

Lemma step_ws : forall k g m x, 22 <= k < 25 -> inv k x -> ends g (inv (S k)) (handle_windshear m x).
Proof.
  intros k g m x Hk (A & B & C & D & R). unfold handle_windshear. cbv zeta.
  destruct (room_add _ _ _ (windshear_new (Some m)) _ D) as (l & -> & D'); [lia|]. cbn [bind outcome].
  unfold body_inv, out_string.
  cbn [upd_common upd_ws add_string set_string me_rvr me_common me_ws me_time me_sections me_trends me_unparsed c_weathers c_clouds].
  split; [apply (room_mono _ _ (k - 8)); [lia|exact A]|]. split; [apply (room_mono _ _ (k - 11)); [lia|exact B]|].
  split; [apply (room_mono _ _ (k - 14)); [lia|exact C]|]. split; [apply (room_mono _ _ (S (k - 22))); [lia|exact D']|]. exact R.
Qed.

Lemma step_time : forall k g m x, In g G -> re_match r_TIME g = Some m -> inv k x ->
  ends g (inv (S k)) (handle_time e year month m x).
Proof.
  intros k g m x Ig M (A & B & C & D & T & R). unfold handle_time.
  destruct (time_any e g m year month M W) as (z & d & h & mi & Cz & Sz & ->).
  destruct (valid_date y mo (Z.of_N d)) eqn:V.
  - destruct (N.ltb_spec h 24) as [L|L]; cbn [andb bind outcome].
    + apply (body_mono _ _ _ _ k); [lia|]. unfold body_inv, out_string.
      cbn [upd_common upd_time add_string set_string me_rvr me_common me_ws me_time me_sections me_trends me_unparsed c_weathers c_clouds t_dt].
      split; [exact A|]. split; [exact B|]. split; [exact C|]. split; [exact D|]. split; [|exact R].
      apply valid_date_spec in V. split; [|split; [reflexivity|split; [reflexivity|]]].
      * split; [exact V|]. cbn [dt_hour dt_minute]. destruct Sz as (sa & sb & sc & _ & _ & _ & _ & _ & _ & _ & _ & _ & Bm). lia.
      * right. exists g, z, d, h, mi. auto.
    + right. exists z, d, h, mi. split; [exact Cz|]. split; [exact Sz|]. right.
      destruct Sz as (sa & sb & sc & _ & _ & _ & _ & _ & _ & _ & _ & Bh & _). lia.
  - cbn [andb bind outcome]. right. exists z, d, h, mi. split; [exact Cz|]. split; [exact Sz|]. left.
    intros N. apply valid_date_spec in N. congruence.
Qed.

Lemma body_steps : forall k h g m x, nth_error (metar_handlers e year month) k = Some h -> In g G ->
  re_match (h_regexp h) g = Some m -> inv k x -> ends g (inv (S k)) (h_handle h m x).
Proof.
  intros k h g m x E Ig M H. unfold metar_handlers in E.
  nth_cases k E.
  - apply inv_out. exact H.
  - apply inv_out. exact H.
  - exact (step_time 2 g m x Ig M H).
  - apply inv_out. exact H.
  - exact (step_wind 4 g m x M H).
  - unfold handle_wind_variation. destruct (wvar_fine g m M) as (v & ->). apply inv_out. exact H.
  - exact (step_prevailing 6 g m x M H).
  - unfold handle_minimum_visibility.
    pose proof (minimum_outcome r_MINIMUM_VISIBILITY g m (proj2 (proj2 vis_checks_ok)) M) as P.
    destruct (minimum_visibility_new (Some m)) as [v|ex]; cbn [bind outcome] in *.
    + apply inv_out. exact H.
    + exact (vis_body _ _ _ _ P).
  - apply step_rvr; [lia|exact M|exact H].
  - apply step_rvr; [lia|exact M|exact H].
  - apply step_rvr; [lia|exact M|exact H].
  - apply step_weather; [lia|exact H].
  - apply step_weather; [lia|exact H].
  - apply step_weather; [lia|exact H].
  - apply step_cloud; [lia|exact M|exact H].
  - apply step_cloud; [lia|exact M|exact H].
  - apply step_cloud; [lia|exact M|exact H].
  - apply step_cloud; [lia|exact M|exact H].
  - unfold handle_temperatures. destruct (temps_fine g m M) as (v & ->). apply inv_out. exact H.
  - unfold handle_pressure. destruct (press_fine g m M) as (v & ->). apply inv_out. exact H.
  - unfold handle_pressure. destruct (press_fine g m M) as (v & ->). apply inv_out. exact H.
  - apply inv_out. exact H.
  - apply step_ws; [lia|exact H].
  - apply step_ws; [lia|exact H].
  - apply step_ws; [lia|exact H].
  - unfold handle_sea_state. destruct (sea_fine g m M) as (v & ->). apply inv_out. exact H.
  - apply inv_out. exact H.
  - destruct k; discriminate E.
Qed.

End Body.

(** ** A change period of the trend *)

Definition trend_cause (t : datetime) (g : str) (e : exn) : Prop :=
  match e with
  | ZeroDivisionError => exists x, contains g x /\ over_zero x
  | TypeError => exists x, contains g x /\ (fraction_km x \/ period x)
  | ValueError => exists x, contains g x /\ no_direction x
  | OverflowError => late t
  | _ => False
  end.

Lemma vis_trend : forall t g e, vis_cause g e -> trend_cause t g e.
Proof. intros t g e H. destruct e; cbn in *; auto; try contradiction. destruct H as (x & C & F). exists x. auto. Qed.

Definition trend_inv (t : datetime) (k : nat) (p : change_period) : Prop :=
  ind_of t (cp_ind p) /\ t_dt (cp_time p) = t
  /\ room 3 (k - 5) (c_weathers (cp_common p)) /\ room 4 (k - 8) (c_clouds (cp_common p)).

Lemma trend_mono : forall t i j p, i <= j -> trend_inv t i p -> trend_inv t j p.
Proof.
  intros t i j p H (A & B & C & D). split; [exact A|]. split; [exact B|]. split.
  - apply (room_mono _ _ (i - 5)); [lia|exact C].
  - apply (room_mono _ _ (i - 8)); [lia|exact D].
Qed.

Lemma trend_steps : forall t k h g m p, nth_error trend_handlers k = Some h -> re_match (h_regexp h) g = Some m ->
  trend_inv t k p -> outcome (trend_cause t g) (trend_inv t (S k)) (h_handle h m p).
Proof.
  assert (PER : forall t k g m p, re_match r_TREND_TIME_PERIOD g = Some m -> trend_inv t k p ->
    outcome (trend_cause t g) (trend_inv t (S k)) (handle_time_period m p)).
  { intros t k g m p M H. assert (H' := trend_mono t k (S k) p ltac:(lia) H). destruct H' as (A & B & C & D).
    unfold handle_time_period. cbv zeta. pose proof (add_period_outcome t g m (cp_ind p) (proj1 H) M) as P.
    destruct (add_period m (cp_ind p)) as [i|ex]; cbn [bind outcome].
    - split; [exact P|]. split; [exact B|]. split; [exact C|exact D].
    - destruct P as [-> (x & Cx & Px)]. exists x. auto. }
  assert (WEA : forall t k g m p, 5 <= k < 8 -> trend_inv t k p ->
    outcome (trend_cause t g) (trend_inv t (S k)) (cp_lift handle_weather m p)).
  { intros t k g m p Hk (A & B & C & D). unfold cp_lift, handle_weather. cbv zeta.
    destruct (room_add _ _ _ (weather_new (Some m)) _ C) as (l & -> & C'); [lia|]. cbn [bind outcome].
    split; [exact A|]. split; [exact B|]. split.
    - apply (room_mono _ _ (S (k - 5))); [lia|exact C'].
    - apply (room_mono _ _ (k - 8)); [lia|exact D]. }
  assert (CLO : forall t k g m p, 8 <= k < 12 -> re_match r_CLOUD g = Some m -> trend_inv t k p ->
    outcome (trend_cause t g) (trend_inv t (S k)) (cp_lift handle_cloud m p)).
  { intros t k g m p Hk M (A & B & C & D). unfold cp_lift, handle_cloud.
    destruct (cloud_fine g m M) as (cl & ->). cbn [bind].
    destruct (room_add _ _ _ cl _ D) as (l & -> & D'); [lia|]. cbn [bind outcome].
    split; [exact A|]. split; [exact B|]. split.
    - apply (room_mono _ _ (k - 5)); [lia|exact C].
    - apply (room_mono _ _ (S (k - 8))); [lia|exact D']. }
  intros t k h g m p E M H. unfold trend_handlers in E.
  nth_cases k E.
  - unfold handle_trend_indicator. destruct H as (A & B & C & D). rewrite B.
    pose proof (trend_ind_outcome t (Some m) (proj1 (proj2 A)) (indicator_fine g m M)) as P.
    destruct (trend_ind_new (Some m) t) as [i|ex]; cbn [bind outcome].
    + split; [exact P|]. split; [exact B|]. split; [exact C|exact D].
    + destruct P as [-> L]. exact L.
  - exact (PER t 1 g m p M H).
  - exact (PER t 2 g m p M H).
  - unfold cp_lift, handle_wind. destruct (wind_fine r_WIND g m (proj1 wind_checks_ok) M) as (w & ->). exact H.
  - unfold cp_lift, handle_prevailing.
    pose proof (prevailing_outcome r_VISIBILITY g m (proj1 vis_checks_ok) M) as P.
    destruct (prevailing_new (Some m)) as [v|ex]; cbn [bind outcome] in *; [|exact (vis_trend _ _ _ P)].
    exact (trend_mono t 4 5 p ltac:(lia) H).
  - apply WEA; [lia|exact H].
  - apply WEA; [lia|exact H].
  - apply WEA; [lia|exact H].
  - apply CLO; [lia|exact M|exact H].
  - apply CLO; [lia|exact M|exact H].
  - apply CLO; [lia|exact M|exact H].
  - apply CLO; [lia|exact M|exact H].
  - destruct k; discriminate E.
Qed.

Lemma common_fresh : forall s, exists c, common_new s = Ok c /\ c_weathers c = gl_new 3 /\ c_clouds c = gl_new 4.
Proof. intro s. eexists. split; [reflexivity|split; reflexivity]. Qed.

(** The groups of a change period. *)
Definition trend_groups (code : str) : list str := split_on 32%N (sanitize_visibility (replace (py "_") (py " ") code)).

Lemma change_period_outcome : forall code t, real_time t ->
  outcome (fun e => (e = OverflowError /\ late t) \/ exists g, In g (trend_groups code) /\ trend_cause t g e)
          any (change_period_new code t).
Proof.
  intros code t R. unfold change_period_new. cbv zeta. destruct (common_fresh []) as (c & -> & E1 & E2). cbn [bind].
  pose proof (trend_ind_outcome t None R (ex_intro _ _ eq_refl)) as P.
  destruct (trend_ind_new None t) as [i|ex]; cbn [bind outcome]; [|left; exact P].
  set (p0 := mk_cp _ _ _ _ _ _).
  assert (H0 : trend_inv t 0 p0).
  { unfold trend_inv, p0. cbn [cp_ind cp_time cp_common]. rewrite E1, E2. split; [exact P|]. split; [reflexivity|].
    split; split; try reflexivity; cbn; lia. }
  pose proof (parse_section_outcome _ trend_handlers (trend_inv t) (trend_cause t)
    (sanitize_visibility (replace (py "_") (py " ") code)) p0 (trend_mono t)
    (fun k h g m st E _ => trend_steps t k h g m st E) H0) as K.
  destruct (parse_section _ _ _) as [[p un]|ex]; cbn [bind outcome] in *; [exact Logic.I|right; exact K].
Qed.
