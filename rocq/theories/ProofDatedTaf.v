(** * The year and month given only date a report (C67): proof for forecasts *)
From Coq Require Import String Ascii.
From Coq Require Import List NArith ZArith Znumtheory Bool Lia.
From Verif Require Import PyBase PyRegex AeroRegex PyFloat PyTime Utils Base MetarGroups Trend Metar Taf SpecNum SpecTime SpecMetar
  SpecFailures SpecDated StrFacts ProofLists ProofProb ProofTime ProofDated.
Import ListNotations.
Local Open Scope string_scope.
Local Open Scope nat_scope.
Local Open Scope list_scope.
Local Opaque dt_add_minutes dt_add_hours dt_add_days.

(** ** Times of a forecast *)

Lemma set_hour : forall t h u, dt_replace_hour t h = Ok u -> dt_hour u = h /\ dt_minute u = dt_minute t.
Proof. intros t h u E. unfold dt_replace_hour in E. destruct (_ && _) in E; [|discriminate E]. injection E as <-. split; reflexivity. Qed.
Lemma set_minute : forall t m u, dt_replace_minute t m = Ok u -> dt_hour u = dt_hour t /\ dt_minute u = m.
Proof. intros t m u E. unfold dt_replace_minute in E. destruct (_ && _) in E; [|discriminate E]. injection E as <-. split; reflexivity. Qed.
Lemma same_hour : forall t h u h' t' u', dt_replace_hour t h = Ok u -> dt_replace_hour t' h' = Ok u' -> h = h' -> dt_minute t = dt_minute t' ->
  hm (time_at u) = hm (time_at u').
Proof.
  intros t h u h' t' u' E E' H M. apply set_hour in E. apply set_hour in E'. destruct E as [A B], E' as [A' B']. apply hm_at; congruence.
Qed.

Lemma day_minute : forall t u k, (0 <= dt_minute t <= 59)%Z -> dt_add_days t k = Ok u -> dt_minute u = dt_minute t.
Proof.
  intros t u k M E. Local Transparent dt_add_days. unfold dt_add_days in E. Local Opaque dt_add_days.
  apply add_parts in E. destruct E as [_ E]. rewrite E, minutes_mod. clear E.
  rewrite <- (Z.add_assoc (dt_hour t * 60)). rewrite (Z.add_comm (dt_minute t)), Z.add_assoc.
  replace (dt_hour t * 60 + k * 1440 + dt_minute t)%Z with (dt_hour t * 60 + dt_minute t + k * 1440)%Z by lia.
  rewrite Z_mod_plus_full. rewrite <- Zmod_div_mod; [|lia|lia|exists 24%Z; reflexivity].
  rewrite Z.add_comm, Z_mod_plus_full. apply Z.mod_small. lia.
Qed.

(** Both ends of a validity are the hours written. *)
Lemma valid_rel : forall m t t' v v', valid_from_taf (Some m) t = Ok v -> valid_from_taf (Some m) t' = Ok v' ->
  undated_valid v = undated_valid v'.
Proof.
  intros m t t' v v' E E'. unfold valid_from_taf in E, E'.
  destruct (dt_replace_minute t 0) as [s|] eqn:S; cbn [bind] in E; [|discriminate E].
  destruct (dt_replace_minute t' 0) as [s'|] eqn:S'; cbn [bind] in E'; [|discriminate E'].
  apply set_minute in S. apply set_minute in S'. destruct S as [_ S], S' as [_ S'].
  destruct (int_of_opt (group m "fmday")) as [a|]; cbn [bind] in E, E'; [|discriminate E].
  destruct (int_of_opt (group m "fmhour")) as [b|]; cbn [bind] in E, E'; [|discriminate E].
  destruct (int_of_opt (group m "tlday")) as [c|]; cbn [bind] in E, E'; [|discriminate E].
  destruct (int_of_opt (group m "tlhour")) as [d|]; cbn [bind] in E, E'; [|discriminate E].
  assert (K : forall (s : datetime) (w : bool) u, dt_minute s = 0%Z -> (if w then Ok s else dt_add_days s 1) = Ok u -> dt_minute u = 0%Z).
  { intros s0 w u0 M F. destruct w; [congruence|]. rewrite (day_minute s0 u0 1); [exact M|lia|exact F]. }
  assert (K' : forall (s : datetime) (w : bool) u, dt_minute s = 0%Z -> (if w then dt_add_days s 1 else Ok s) = Ok u -> dt_minute u = 0%Z).
  { intros s0 w u0 M F. destruct w; [|congruence]. rewrite (day_minute s0 u0 1); [exact M|lia|exact F]. }
  destruct (if (a =? dt_day s)%Z then Ok s else dt_add_days s 1) as [f|] eqn:F in E; cbn [bind] in E; [|discriminate E].
  destruct (if (c =? dt_day s)%Z then Ok s else dt_add_days s 1) as [u|] eqn:U in E; cbn [bind] in E; [|discriminate E].
  destruct (if (d =? 24)%Z then dt_add_days u 1 else Ok u) as [w|] eqn:W in E; cbn [bind] in E; [|discriminate E].
  destruct (if (a =? dt_day s')%Z then Ok s' else dt_add_days s' 1) as [f'|] eqn:F' in E'; cbn [bind] in E'; [|discriminate E'].
  destruct (if (c =? dt_day s')%Z then Ok s' else dt_add_days s' 1) as [u'|] eqn:U' in E'; cbn [bind] in E'; [|discriminate E'].
  destruct (if (d =? 24)%Z then dt_add_days u' 1 else Ok u') as [w'|] eqn:W' in E'; cbn [bind] in E'; [|discriminate E'].
  cbv zeta in E, E'.
  destruct (dt_replace_hour f b) as [f1|] eqn:F1; cbn [bind] in E; [|discriminate E].
  destruct (dt_replace_hour w _) as [w1|] eqn:W1 in E; cbn [bind] in E; [|discriminate E].
  destruct (dt_replace_hour f' b) as [f1'|] eqn:F1'; cbn [bind] in E'; [|discriminate E'].
  destruct (dt_replace_hour w' _) as [w1'|] eqn:W1' in E'; cbn [bind] in E'; [|discriminate E'].
  injection E as <-. injection E' as <-. unfold undated_valid, valid_new. cbn [va_code va_from va_until].
  apply K in F; [|exact S]. apply K in U; [|exact S]. apply K' in W; [|exact U].
  apply K in F'; [|exact S']. apply K in U'; [|exact S']. apply K' in W'; [|exact U'].
  apply pair_eq; [apply pair_eq; [reflexivity|]|].
  - apply (same_hour _ _ _ _ _ _ F1 F1'); congruence.
  - apply (same_hour _ _ _ _ _ _ W1 W1'); congruence.
Qed.

(** A whole number of days leaves hour and minute. *)
Lemma day_clock : forall t u k, (0 <= dt_hour t <= 23)%Z -> (0 <= dt_minute t <= 59)%Z -> dt_add_days t k = Ok u ->
  dt_hour u = dt_hour t /\ dt_minute u = dt_minute t.
Proof.
  intros t u k H M E. split; [|exact (day_minute t u k M E)]. Local Transparent dt_add_days. unfold dt_add_days in E. Local Opaque dt_add_days.
  apply add_parts in E. destruct E as [E _]. rewrite E, minutes_mod, Z_mod_plus_full, Z.mod_small by lia.
  rewrite Z.add_comm, Z.div_add by lia. rewrite Z.div_small by lia. reflexivity.
Qed.

Lemma hour_in : forall t h u, dt_replace_hour t h = Ok u -> (0 <= h <= 23)%Z.
Proof. intros t h u E. unfold dt_replace_hour in E. destruct (_ && _) eqn:B in E; [|discriminate E]. apply andb_prop in B. destruct B as [B1 B2]. apply Z.leb_le in B1, B2. lia. Qed.

Lemma temp_rel : forall m t t' v v', taf_temp_new m t = Ok v -> taf_temp_new m t' = Ok v' -> undated_temp v = undated_temp v'.
Proof.
  intros m t t' v v' E E'. unfold taf_temp_new in E, E'.
  destruct (dt_replace_minute t 0) as [s|] eqn:S; cbn [bind] in E; [|discriminate E].
  destruct (dt_replace_minute t' 0) as [s'|] eqn:S'; cbn [bind] in E'; [|discriminate E'].
  apply set_minute in S. apply set_minute in S'. destruct S as [_ S], S' as [_ S'].
  match type of E with bind ?r _ = _ => destruct r as [z|]; cbn [bind] in E, E'; [|discriminate E] end.
  destruct (int_of_opt (group m "day")) as [a|]; cbn [bind] in E, E'; [|discriminate E].
  destruct (int_of_opt (group m "hour")) as [b|]; cbn [bind] in E, E'; [|discriminate E].
  destruct (dt_replace_hour s b) as [f|] eqn:F; cbn [bind] in E; [|discriminate E].
  destruct (dt_replace_hour s' b) as [f'|] eqn:F'; cbn [bind] in E'; [|discriminate E'].
  pose proof (hour_in _ _ _ F) as B0. apply set_hour in F. apply set_hour in F'. destruct F as [A B], F' as [A' B'].
  assert (K : forall (s : datetime) (w : bool) u, dt_minute s = 0%Z -> dt_hour s = b ->
    (if w then Ok s else dt_add_days s 1) = Ok u -> dt_hour u = b /\ dt_minute u = 0%Z).
  { intros s0 w u M H G. destruct w; [injection G as <-; auto|]. destruct (day_clock s0 u 1) as [X Y]; [lia|lia|exact G|]. split; congruence. }
  destruct (if (a =? dt_day f)%Z then Ok f else dt_add_days f 1) as [u|] eqn:U in E; cbn [bind] in E; [|discriminate E].
  destruct (if (a =? dt_day f')%Z then Ok f' else dt_add_days f' 1) as [u'|] eqn:U' in E'; cbn [bind] in E'; [|discriminate E'].
  apply K in U; [|congruence|exact A]. apply K in U'; [|congruence|exact A'].
  injection E as <-. injection E' as <-. unfold undated_temp. cbn [tt_code tt_value tt_time]. apply pair_eq; [reflexivity|]. apply hm_at; destruct U, U'; congruence.
Qed.

(** ** Change indicators *)

Definition undated_mark (i : taf_ind) := (tc_code i, is_some (tc_trans i), undated_valid (tc_valid i)).

Lemma valid_parts : forall v v', undated_valid v = undated_valid v' -> va_code v = va_code v' /\ hm (va_from v) = hm (va_from v') /\ hm (va_until v) = hm (va_until v').
Proof. intros v v' H. unfold undated_valid in H. rewrite !pair_equal_spec in H. tauto. Qed.

Lemma mark_rel : forall m v v' i i', undated_valid v = undated_valid v' -> taf_ind_new m v = Ok i -> taf_ind_new m v' = Ok i' ->
  undated_mark i = undated_mark i'.
Proof.
  intros [m|] v v' i i' H E E'; unfold taf_ind_new in E, E'.
  2:{ injection E as <-. injection E' as <-. unfold undated_mark. cbn [tc_code tc_trans tc_valid]. rewrite H. reflexivity. }
  destruct (starts_with (py "FM") (m_string m)).
  - destruct (int_of_opt (group m "day")) as [a|]; cbn [bind] in E, E'; [|discriminate E].
    destruct (int_of_opt (group m "hour")) as [b|]; cbn [bind] in E, E'; [|discriminate E].
    destruct (int_of_opt (group m "minute")) as [c|]; cbn [bind] in E, E'; [|discriminate E].
    destruct (roll_to_day 62 a (t_dt (va_from v))) as [t|]; cbn [bind] in E; [|discriminate E].
    destruct (roll_to_day 62 a (t_dt (va_from v'))) as [t'|]; cbn [bind] in E'; [|discriminate E'].
    destruct (dt_replace_hour t b) as [u|] eqn:U; cbn [bind] in E; [|discriminate E].
    destruct (dt_replace_hour t' b) as [u'|] eqn:U'; cbn [bind] in E'; [|discriminate E'].
    destruct (dt_replace_minute u c) as [w|] eqn:W; cbn [bind] in E; [|discriminate E].
    destruct (dt_replace_minute u' c) as [w'|] eqn:W'; cbn [bind] in E'; [|discriminate E'].
    cbv zeta in E, E'. injection E as <-. injection E' as <-. unfold undated_mark. cbn [tc_code tc_trans tc_valid is_some].
    apply set_hour in U. apply set_hour in U'. apply set_minute in W. apply set_minute in W'. destruct U, U', W, W'.
    destruct (valid_parts _ _ H) as (_ & _ & Hu). apply pair_eq; [reflexivity|]. unfold undated_valid, valid_new. cbn [va_code va_from va_until].
    rewrite Hu. apply pair_eq; [|reflexivity]. apply pair_eq; [reflexivity|]. apply hm_at; congruence.
  - destruct (change_indicator_new (Some m)) as [ct|]; cbn [bind] in E, E'; [|discriminate E]. injection E as <-. injection E' as <-.
    unfold undated_mark. cbn [tc_code tc_trans tc_valid]. rewrite H. reflexivity.
Qed.

Lemma set_rel : forall m t t' i i' j j', undated_mark i = undated_mark i' -> set_valid_period m t i = Ok j -> set_valid_period m t' i' = Ok j' ->
  undated_mark j = undated_mark j'.
Proof.
  intros m t t' i i' j j' H E E'. unfold set_valid_period in E, E'.
  destruct (valid_from_taf (Some m) (t_dt t)) as [v|] eqn:V; cbn [bind] in E; [|discriminate E].
  destruct (valid_from_taf (Some m) (t_dt t')) as [v'|] eqn:V'; cbn [bind] in E'; [|discriminate E'].
  pose proof (valid_rel _ _ _ _ _ V V') as K. clear V V'. unfold undated_mark in *. rewrite !pair_equal_spec in H. destruct H as ((H1 & H2) & H3).
  rewrite <- H1 in E'. destruct (tc_code i) as [c|]; [|discriminate E].
  destruct (starts_with (py "FM") c); injection E as <-; injection E' as <-; cbn [tc_code tc_trans tc_valid is_some].
  - rewrite K. reflexivity.
  - rewrite K. destruct (valid_parts _ _ K) as (-> & _). reflexivity.
Qed.

Lemma reset_rel : forall u u' i i' j j', hm u = hm u' -> undated_mark i = undated_mark i' ->
  reset_until_period u i = Ok j -> reset_until_period u' i' = Ok j' -> undated_mark j = undated_mark j'.
Proof.
  intros u u' i i' j j' Hu H E E'. unfold reset_until_period in E, E'. destruct (hm_parts _ _ Hu) as (_ & A & B).
  destruct (dt_add_hours (t_dt u) (-1)) as [t|] eqn:T; cbn [bind] in E; [|discriminate E].
  destruct (dt_add_hours (t_dt u') (-1)) as [t'|] eqn:T'; cbn [bind] in E'; [|discriminate E'].
  destruct (hours_clock _ _ _ _ _ A B T T') as [X Y]. pose proof H as H0. unfold undated_mark in H0. rewrite !pair_equal_spec in H0. destruct H0 as ((H1 & H2) & H3).
  rewrite <- H1 in E'. destruct (tc_code i) as [c|]; [|discriminate E]. destruct (starts_with (py "FM") c); [|injection E as <-; injection E' as <-; exact H].
  cbv zeta in E, E'. injection E as <-. injection E' as <-. unfold undated_mark. cbn [tc_code tc_trans tc_valid is_some]. apply pair_eq; [reflexivity|].
  destruct (valid_parts _ _ H3) as (_ & Hf & _). unfold undated_valid, valid_new. cbn [va_code va_from va_until]. rewrite Hf. apply pair_eq; [reflexivity|].
  exact (hm_at t t' X Y).
Qed.

(** ** Changes *)

Definition change_like (p p' : change_fc) : Prop := undated_change p = undated_change p'.

Lemma change_parts : forall p p', change_like p p' -> cf_code p = cf_code p' /\ undated_valid (cf_valid p) = undated_valid (cf_valid p')
  /\ groups_of (cf_common p) = groups_of (cf_common p') /\ cf_unparsed p = cf_unparsed p' /\ undated_mark (cf_ind p) = undated_mark (cf_ind p').
Proof. intros p p' H. unfold change_like, undated_change in H. fold (undated_mark (cf_ind p)) in H. fold (undated_mark (cf_ind p')) in H.
  rewrite !pair_equal_spec in H. tauto. Qed.
Lemma change_made : forall p p', cf_code p = cf_code p' -> undated_valid (cf_valid p) = undated_valid (cf_valid p') ->
  groups_of (cf_common p) = groups_of (cf_common p') -> cf_unparsed p = cf_unparsed p' -> undated_mark (cf_ind p) = undated_mark (cf_ind p') -> change_like p p'.
Proof. intros p p' H1 H2 H3 H4 H5. unfold change_like, undated_change. fold (undated_mark (cf_ind p)). fold (undated_mark (cf_ind p')).
  repeat first [assumption|apply pair_eq]. Qed.

Lemma change_step : forall h, In h change_handlers -> forall m s s' t t', change_like s s' ->
  h_handle h m s = Ok t -> h_handle h m s' = Ok t' -> change_like t t'.
Proof.
  intros h I m s s' t t' H E E'. destruct (change_parts _ _ H) as (H1 & H2 & H3 & H4 & H5).
  assert (L : forall f, In f [handle_wind; handle_prevailing; handle_weather; handle_cloud] -> cf_lift f m s = Ok t -> cf_lift f m s' = Ok t' -> change_like t t').
  { intros f If F F'. unfold cf_lift in F, F'. destruct (f m (cf_common s)) as [c|] eqn:C; cbn [bind] in F; [|discriminate F].
    destruct (f m (cf_common s')) as [c'|] eqn:C'; cbn [bind] in F'; [|discriminate F']. injection F as <-. injection F' as <-.
    apply change_made; cbn [cf_code cf_valid cf_common cf_unparsed cf_ind]; try assumption. exact (shared_rel f m _ _ _ _ If H3 C C'). }
  unfold change_handlers in I. cbn [In] in I.
  repeat (destruct I as [<-|I]; [cbn [h_handle] in E, E'|]); try contradiction;
    try (match type of E with cf_lift ?f _ _ = _ => apply (L f); [cbn [In]; tauto|exact E|exact E'] end).
  - unfold handle_change_indicator in E, E'. destruct (taf_ind_new (Some m) (cf_valid s)) as [i|] eqn:J; cbn [bind] in E; [|discriminate E].
    destruct (taf_ind_new (Some m) (cf_valid s')) as [i'|] eqn:J'; cbn [bind] in E'; [|discriminate E']. injection E as <-. injection E' as <-.
    apply change_made; cbn [cf_set_ind cf_code cf_valid cf_common cf_unparsed cf_ind]; try assumption. exact (mark_rel _ _ _ _ _ H2 J J').
  - unfold handle_change_valid in E, E'. destruct (set_valid_period m _ (cf_ind s)) as [i|] eqn:J; cbn [bind] in E; [|discriminate E].
    destruct (set_valid_period m _ (cf_ind s')) as [i'|] eqn:J'; cbn [bind] in E'; [|discriminate E']. injection E as <-. injection E' as <-.
    apply change_made; cbn [cf_set_ind cf_code cf_valid cf_common cf_unparsed cf_ind]; try assumption. exact (set_rel _ _ _ _ _ _ _ H5 J J').
Qed.

Lemma change_rel : forall w v v' p p', undated_valid v = undated_valid v' -> change_fc_new w v = Ok p -> change_fc_new w v' = Ok p' -> change_like p p'.
Proof.
  intros w v v' p p' H E E'. unfold change_fc_new in E, E'. cbv zeta in E, E'.
  destruct (common_new []) as [c|]; cbn [bind] in E, E'; [|discriminate E].
  destruct (taf_ind_new None v) as [i|] eqn:J; cbn [bind] in E; [|discriminate E].
  destruct (taf_ind_new None v') as [i'|] eqn:J'; cbn [bind] in E'; [|discriminate E'].
  destruct (parse_section _ _ _) as [[q un]|] eqn:P in E; cbn [bind] in E; [|discriminate E].
  destruct (parse_section _ _ _) as [[q' un']|] eqn:P' in E'; cbn [bind] in E'; [|discriminate E'].
  injection E as <-. injection E' as <-.
  assert (X : change_like (mk_cf (Some (replace (py "_") (py " ") w)) v c i []) (mk_cf (Some (replace (py "_") (py " ") w)) v' c i' [])).
  { apply change_made; cbn [cf_code cf_valid cf_common cf_unparsed cf_ind]; try reflexivity; [exact H|]. exact (mark_rel _ _ _ _ _ H J J'). }
  destruct (parse_groups_rel _ change_like _ _ (same_handlers _ _ _ change_step) _ _ _ _ _ _ _ X P P') as [A B]. cbn [fst snd] in A, B. clear X P P'.
  destruct (change_parts _ _ A) as (H1 & H2 & H3 & H4 & H5).
  apply change_made; cbn [cf_code cf_valid cf_common cf_unparsed cf_ind]; try assumption. congruence.
Qed.

Lemma pop_rel : forall u u' rl rl' temp temp' r r', hm u = hm u' -> map undated_change rl = map undated_change rl' ->
  map undated_change temp = map undated_change temp' -> pop_changes u rl temp = Ok r -> pop_changes u' rl' temp' = Ok r' ->
  map undated_change (fst r) = map undated_change (fst r') /\ map undated_change (snd r) = map undated_change (snd r').
Proof.
  intros u u' rl. induction rl as [|p rl IH]; intros [|p' rl'] temp temp' r r' Hu Hl Ht E E'; try discriminate Hl; cbn [pop_changes] in E, E'.
  { injection E as <-. injection E' as <-. cbn [fst snd]. auto. }
  cbn [map] in Hl. assert (Hp : undated_change p = undated_change p') by congruence. assert (Hr : map undated_change rl = map undated_change rl') by congruence. clear Hl.
  destruct (change_parts _ _ Hp) as (H1 & H2 & H3 & H4 & H5). pose proof H5 as M. unfold undated_mark in M. rewrite !pair_equal_spec in M. destruct M as ((M1 & _) & _).
  rewrite <- M1 in E'. destruct (tc_code (cf_ind p)) as [c|]; [|discriminate E].
  destruct (starts_with (py "PROB") c || starts_with (py "TEMPO") c).
  { refine (IH _ _ _ _ _ Hu Hr _ E E'). cbn [map]. rewrite Hp, Ht. reflexivity. }
  destruct (starts_with (py "FM") c).
  - destruct (reset_until_period u (cf_ind p)) as [i|] eqn:J; cbn [bind] in E; [|discriminate E].
    destruct (reset_until_period u' (cf_ind p')) as [i'|] eqn:J'; cbn [bind] in E'; [|discriminate E']. injection E as <-. injection E' as <-.
    cbn [fst snd map]. split; [exact Hr|]. f_equal; [|exact Ht].
    apply change_made; cbn [cf_set_ind cf_code cf_valid cf_common cf_unparsed cf_ind]; try assumption. exact (reset_rel _ _ _ _ _ _ Hu H5 J J').
  - injection E as <-. injection E' as <-. cbn [fst snd map]. split; [exact Hr|]. f_equal; [exact Hp|exact Ht].
Qed.

Lemma add_all_rel : forall A B (f : A -> B) l l' g g' h h', map f l = map f l' -> undated_list f g = undated_list f g' ->
  gl_add_all l g = Ok h -> gl_add_all l' g' = Ok h' -> undated_list f h = undated_list f h'.
Proof.
  intros A B f l. induction l as [|a l IH]; intros [|a' l'] g g' h h' Hl H E E'; try discriminate Hl; cbn [gl_add_all] in E, E'.
  { congruence. }
  cbn [map] in Hl. destruct (gl_add a g) as [k|] eqn:K; cbn [bind] in E; [|discriminate E]. destruct (gl_add a' g') as [k'|] eqn:K'; cbn [bind] in E'; [|discriminate E'].
  refine (IH _ _ _ _ _ _ _ E E'); [congruence|]. refine (list_add _ _ f _ _ _ _ _ _ _ H K K'). congruence.
Qed.

Lemma changes_rel : forall p p' g g' h h', change_like p p' -> undated_list undated_change g = undated_list undated_change g' ->
  changes_add p g = Ok h -> changes_add p' g' = Ok h' -> undated_list undated_change h = undated_list undated_change h'.
Proof.
  intros p p' g g' h h' H G E E'. unfold changes_add in E, E'. cbv zeta in E, E'. destruct (change_parts _ _ H) as (H1 & H2 & H3 & H4 & H5).
  pose proof G as G0. unfold undated_list in G0. rewrite !pair_equal_spec in G0. destruct G0 as ((G1 & G2) & G3).
  assert (N : length (gl_list g) = length (gl_list g')) by (rewrite <- (map_length undated_change), G3, map_length; reflexivity).
  rewrite <- H1, <- N in E'. destruct (Nat.ltb 0 (length (gl_list g)) && _).
  - pose proof H5 as M. unfold undated_mark in M. rewrite !pair_equal_spec in M. destruct M as (_ & M). destruct (valid_parts _ _ M) as (_ & Hf & _).
    destruct (pop_changes _ (rev (gl_list g)) []) as [[rl temp]|] eqn:P; cbn [bind] in E; [|discriminate E].
    destruct (pop_changes _ (rev (gl_list g')) []) as [[rl' temp']|] eqn:P'; cbn [bind] in E'; [|discriminate E'].
    assert (Hl : map undated_change (rev (gl_list g)) = map undated_change (rev (gl_list g'))) by (rewrite !map_rev, G3; reflexivity).
    destruct (pop_rel _ _ (rev (gl_list g)) (rev (gl_list g')) [] [] _ _ Hf Hl (eq_refl []) P P') as [L T]. cbn [fst snd] in L, T.
    destruct (gl_add_all temp _) as [k|] eqn:K in E; cbn [bind] in E; [|discriminate E].
    destruct (gl_add_all temp' _) as [k'|] eqn:K' in E'; cbn [bind] in E'; [|discriminate E'].
    refine (list_add _ _ undated_change _ _ _ _ _ _ H _ E E'). refine (add_all_rel _ _ _ _ _ _ _ _ _ T _ K K').
    unfold undated_list. cbn [gl_n gl_max gl_list]. rewrite G1, G2, !map_rev, L. reflexivity.
  - exact (list_add _ _ undated_change _ _ _ _ _ _ H G E E').
Qed.

(** ** The report *)

Definition taf_like (x x' : taf) : Prop := undated_taf x = undated_taf x'.

Lemma taf_parts : forall x x', taf_like x x' ->
  ta_raw x = ta_raw x' /\ ta_body x = ta_body x' /\ ta_codes x = ta_codes x' /\ ta_sections x = ta_sections x' /\ ta_unparsed x = ta_unparsed x'
  /\ ta_type x = ta_type x' /\ ta_station x = ta_station x' /\ dhm (ta_time x) = dhm (ta_time x') /\ ta_modifier x = ta_modifier x'
  /\ groups_of (ta_common x) = groups_of (ta_common x') /\ undated_valid (ta_valid x) = undated_valid (ta_valid x')
  /\ ta_missing x = ta_missing x' /\ ta_cancelled x = ta_cancelled x' /\ undated_list undated_temp (ta_max x) = undated_list undated_temp (ta_max x')
  /\ undated_list undated_temp (ta_min x) = undated_list undated_temp (ta_min x')
  /\ undated_list undated_change (ta_changes x) = undated_list undated_change (ta_changes x').
Proof. intros x x' H. unfold taf_like, undated_taf in H. rewrite !pair_equal_spec in H. tauto. Qed.

Ltac tparts H := destruct (taf_parts _ _ H) as (R1 & R2 & R3 & R4 & R5 & R6 & R7 & R8 & R9 & R10 & R11 & R12 & R13 & R14 & R15 & R16); clear H.
Ltac made := unfold taf_like, undated_taf, tout_string, tupd_common, tupd_unparsed, tupd_type, tupd_station, tupd_time, tupd_modifier, tupd_valid,
    tupd_missing, tupd_cancelled, tupd_max, tupd_min, tupd_changes, add_string;
  cbn [ta_raw ta_body ta_codes ta_sections ta_unparsed ta_type ta_station ta_time ta_modifier ta_common ta_valid ta_missing ta_cancelled ta_max ta_min
    ta_changes]; rewrite ?groups_set; same.

Lemma taf_step_like : forall e y mo y' mo', real_month e y mo -> real_month e y' mo' ->
  Forall2 (fun h h' => h_regexp h = h_regexp h' /\ forall g m s s' t t', re_match (h_regexp h) g = Some m -> taf_like s s' ->
    h_handle h m s = Ok t -> h_handle h' m s' = Ok t' -> taf_like t t') (taf_handlers e y mo) (taf_handlers e y' mo').
Proof.
  intros e y mo y' mo' Y Y'.
  assert (L : forall f, In f [handle_wind; handle_prevailing; handle_weather; handle_cloud] -> forall m s s' t t', taf_like s s' ->
    tlift f m s = Ok t -> tlift f m s' = Ok t' -> taf_like t t').
  { intros f If m s s' t t' H F F'. unfold tlift in F, F'. destruct (f m (ta_common s)) as [c|] eqn:C; cbn [bind] in F; [|discriminate F].
    destruct (f m (ta_common s')) as [c'|] eqn:C'; cbn [bind] in F'; [|discriminate F']. injection F as <-. injection F' as <-. tparts H.
    pose proof (shared_rel f m _ _ _ _ If R10 C C') as N. clear C C'. made. }
  assert (T : forall m s s' t t', taf_like s s' -> thandle_temperature m s = Ok t -> thandle_temperature m s' = Ok t' -> taf_like t t').
  { intros m s s' t t' H F F'. unfold thandle_temperature in F, F'. destruct (taf_temp_new m (t_dt (ta_time s))) as [v|] eqn:C; cbn [bind] in F; [|discriminate F].
    destruct (taf_temp_new m (t_dt (ta_time s'))) as [v'|] eqn:C'; cbn [bind] in F'; [|discriminate F']. pose proof (temp_rel _ _ _ _ _ C C') as K. clear C C'. tparts H.
    destruct (opt_str_eqb (group m "type") (py "X")).
    - destruct (gl_add v (ta_max s)) as [l|] eqn:A; cbn [bind] in F; [|discriminate F]. destruct (gl_add v' (ta_max s')) as [l'|] eqn:A'; cbn [bind] in F'; [|discriminate F'].
      pose proof (list_add _ _ undated_temp _ _ _ _ _ _ K R14 A A') as N. clear A A' K. injection F as <-. injection F' as <-. made.
    - destruct (gl_add v (ta_min s)) as [l|] eqn:A; cbn [bind] in F; [|discriminate F]. destruct (gl_add v' (ta_min s')) as [l'|] eqn:A'; cbn [bind] in F'; [|discriminate F'].
      pose proof (list_add _ _ undated_temp _ _ _ _ _ _ K R15 A A') as N. clear A A' K. injection F as <-. injection F' as <-. made. }
  unfold taf_handlers.
  repeat match goal with
  | |- Forall2 _ (mk_handler _ (tlift ?f) :: _) _ =>
      constructor; [split; [reflexivity|cbn [h_handle h_regexp]; intros g m s s' t t' _ H E E'; exact (L f ltac:(cbn [In]; tauto) m s s' t t' H E E')]|]
  | |- Forall2 _ (mk_handler _ thandle_temperature :: _) _ =>
      constructor; [split; [reflexivity|cbn [h_handle h_regexp]; intros g m s s' t t' _ H E E'; exact (T m s s' t t' H E E')]|]
  | |- Forall2 _ (mk_handler r_TIME _ :: _) _ =>
      constructor; [split; [reflexivity|cbn [h_handle h_regexp]; intros g m s s' t t' M H E E';
        unfold thandle_time in E, E'; destruct (time_from_metar e (Some m) y mo) as [v|] eqn:V; cbn [bind] in E; [|discriminate E];
        destruct (time_from_metar e (Some m) y' mo') as [v'|] eqn:V'; cbn [bind] in E'; [|discriminate E'];
        pose proof (time_dhm _ _ _ _ _ _ _ _ _ M Y Y' V V') as N; injection E as <-; injection E' as <-; tparts H; clear L T Y Y'; made]|]
  | |- Forall2 _ (mk_handler r_T_VALID _ :: _) _ =>
      constructor; [split; [reflexivity|cbn [h_handle h_regexp]; intros g m s s' t t' _ H E E';
        unfold thandle_valid in E, E'; destruct (valid_from_taf (Some m) (t_dt (ta_time s))) as [v|] eqn:V; cbn [bind] in E; [|discriminate E];
        destruct (valid_from_taf (Some m) (t_dt (ta_time s'))) as [v'|] eqn:V'; cbn [bind] in E'; [|discriminate E'];
        pose proof (valid_rel _ _ _ _ _ V V') as N; injection E as <-; injection E' as <-; tparts H; clear L T Y Y' V V'; made]|]
  | |- Forall2 _ (mk_handler _ _ :: _) _ =>
      constructor; [split; [reflexivity|cbn [h_handle h_regexp]; intros g m s s' t t' _ H E E'; tparts H;
        unfold thandle_type, thandle_modifier, thandle_station, thandle_missing, thandle_cancelled in E, E'; cbv zeta in E, E';
        injection E as <-; injection E' as <-; clear L T Y Y'; made]|]
  | |- Forall2 _ [] _ => constructor
  end.
Qed.

Lemma handle_changes_like : forall l x x' z z', taf_like x x' -> handle_changes l x = Ok z -> handle_changes l x' = Ok z' -> taf_like z z'.
Proof.
  intros l. induction l as [|w l IH]; intros x x' z z' H E E'; cbn [handle_changes] in E, E'; [injection E as <-; injection E' as <-; exact H|].
  destruct w as [|c w]; [exact (IH _ _ _ _ H E E')|]. unfold handle_change_forecasted in E, E'. pose proof H as H0. tparts H0.
  destruct (change_fc_new (c :: w) (ta_valid x)) as [p|] eqn:P; cbn [bind] in E; [|discriminate E].
  destruct (change_fc_new (c :: w) (ta_valid x')) as [p'|] eqn:P'; cbn [bind] in E'; [|discriminate E'].
  destruct (changes_add p (ta_changes x)) as [g|] eqn:G; cbn [bind] in E; [|discriminate E].
  destruct (changes_add p' (ta_changes x')) as [g'|] eqn:G'; cbn [bind] in E'; [|discriminate E'].
  pose proof (changes_rel _ _ _ _ _ _ (change_rel _ _ _ _ _ R11 P P') R16 G G') as N. clear P P' G G'.
  refine (IH _ _ _ _ _ E E'). clear E E' IH. made.
Qed.

Theorem taf_undated : forall e code y mo tr x y' mo' tr' x', real_month e y mo -> real_month e y' mo' ->
  taf_parse e code y mo tr = Ok x -> taf_parse e code y' mo' tr' = Ok x' -> undated_taf x = undated_taf x'.
Proof.
  intros e code y mo tr x y' mo' tr' x' Y Y' E E'. unfold taf_parse in E, E'.
  destruct (report_raw_code code) as [raw|]; cbn [bind] in E, E'; [|discriminate E].
  destruct (taf_init e raw) as [x0|] eqn:E0; cbn [bind] in E, E'; [|discriminate E].
  unfold taf_parse_body in E, E'.
  destruct (parse_section (taf_handlers e y mo) _ x0) as [[x1 un]|] eqn:P; cbn [bind] in E; [|discriminate E].
  destruct (parse_section (taf_handlers e y' mo') _ x0) as [[x1' un']|] eqn:P'; cbn [bind] in E'; [|discriminate E'].
  destruct (parse_groups_rel _ taf_like _ _ (taf_step_like e y mo y' mo' Y Y') _ _ _ _ _ _ _ (eq_refl (undated_taf x0)) P P') as [H1 Hu]. cbn [fst snd] in H1, Hu.
  clear P P' E0 x0.
  assert (H2 : taf_like (tupd_unparsed (ta_unparsed x1 ++ un) x1) (tupd_unparsed (ta_unparsed x1' ++ un') x1')).
  { tparts H1. clear E E' Y Y'. assert (N : ta_unparsed x1 ++ un = ta_unparsed x1' ++ un') by congruence. made. }
  revert H2 E E'. generalize (tupd_unparsed (ta_unparsed x1 ++ un) x1), (tupd_unparsed (ta_unparsed x1' ++ un') x1'). clear.
  intros x1 x1' H E E'. unfold parse_changes_forecasted in E, E'. pose proof H as H0. tparts H0. rewrite <- R3 in E'.
  clear R1 R2 R3 R4 R5 R6 R7 R8 R9 R10 R11 R12 R13 R14 R15 R16.
  destruct (handle_changes _ x1) as [x2|] eqn:T; cbn [bind] in E; [|discriminate E].
  destruct (handle_changes _ x1') as [x2'|] eqn:T'; cbn [bind] in E'; [|discriminate E'].
  pose proof (handle_changes_like _ _ _ _ _ H T T') as L. clear - E E' L. rewrite gl_collect_spec in E, E'.
  assert (K : taf_like
    (tupd_unparsed (ta_unparsed x2 ++ flat_map cf_unparsed (skipn (gl_n (ta_changes x2)) (gl_list (ta_changes x2))))
      (tupd_changes (mk_gl 0 (gl_max (ta_changes x2)) (gl_list (ta_changes x2))) x2))
    (tupd_unparsed (ta_unparsed x2' ++ flat_map cf_unparsed (skipn (gl_n (ta_changes x2')) (gl_list (ta_changes x2'))))
      (tupd_changes (mk_gl 0 (gl_max (ta_changes x2')) (gl_list (ta_changes x2'))) x2'))).
  { tparts L. unfold undated_list in R16. rewrite !pair_equal_spec in R16. destruct R16 as ((N1 & N2) & N3).
    assert (N4 : undated_list undated_change (mk_gl 0 (gl_max (ta_changes x2)) (gl_list (ta_changes x2)))
      = undated_list undated_change (mk_gl 0 (gl_max (ta_changes x2')) (gl_list (ta_changes x2')))) by (unfold undated_list; cbn [gl_n gl_max gl_list]; congruence).
    assert (N5 : ta_unparsed x2 ++ flat_map cf_unparsed (skipn (gl_n (ta_changes x2)) (gl_list (ta_changes x2)))
      = ta_unparsed x2' ++ flat_map cf_unparsed (skipn (gl_n (ta_changes x2')) (gl_list (ta_changes x2')))).
    { rewrite R5. f_equal. rewrite N1. revert N3. generalize (gl_list (ta_changes x2)), (gl_list (ta_changes x2')), (gl_n (ta_changes x2')). clear.
      intros l l' n N. assert (Z : map undated_change (skipn n l) = map undated_change (skipn n l')) by (rewrite <- !skipn_map, N; reflexivity).
      clear N. revert Z. generalize (skipn n l), (skipn n l'). clear. intros l. induction l as [|p l IH]; intros [|p' l'] Z; try discriminate Z; [reflexivity|].
      cbn [map] in Z. cbn [flat_map]. assert (Z1 : undated_change p = undated_change p') by congruence. assert (Z2 : map undated_change l = map undated_change l') by congruence.
      f_equal; [|exact (IH _ Z2)]. unfold undated_change in Z1. rewrite !pair_equal_spec in Z1. tauto. }
    clear N1 N2 N3 E E'. made. }
  revert K E E'. cbv zeta. match goal with |- taf_like ?a ?b -> _ => generalize a, b end. clear. intros a b K E E'.
  assert (Ea : a = x) by (destruct (ta_unparsed a); [congruence|destruct tr; congruence]).
  assert (Eb : b = x') by (destruct (ta_unparsed b); [congruence|destruct tr'; congruence]).
  rewrite <- Ea, <- Eb. exact K.
Qed.

Lemma accept_month : ~ (forall e code y mo y' mo' x, real_month e y mo -> real_month e y' mo' ->
  metar_parse e code y mo true = Ok x -> exists x', metar_parse e code y' mo' true = Ok x').
Proof.
  intros H.
  assert (A : exists x, metar_parse (mk_env 2026 11 [] []) (py "METAR SEQM 301200Z") (Some 2024%Z) (Some 6%Z) true = Ok x).
  { match goal with |- exists x, ?r = Ok x => assert (B : match r with Ok _ => true | Raise _ => false end = true) by (vm_compute; reflexivity) end.
    destruct (metar_parse _ _ _ _ _) as [x|]; [exists x; reflexivity|discriminate B]. }
  destruct A as [x A]. destruct (H (mk_env 2026 11 [] []) (py "METAR SEQM 301200Z") (Some 2024%Z) (Some 6%Z) (Some 2024%Z) (Some 2%Z) x) as [x' B].
  - unfold real_month. cbn [opt_default]. lia.
  - unfold real_month. cbn [opt_default]. lia.
  - exact A.
  - assert (C : metar_parse (mk_env 2026 11 [] []) (py "METAR SEQM 301200Z") (Some 2024%Z) (Some 2%Z) true = Raise ValueError) by (vm_compute; reflexivity).
    rewrite C in B. discriminate B.
Qed.
