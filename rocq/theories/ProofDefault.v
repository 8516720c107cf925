(** * What a forecast without time or validity shows (C31) *)
From Coq Require Import String Ascii.
From Coq Require Import List NArith ZArith Bool Lia.
From Verif Require Import PyBase PyRegex AeroRegex PyFloat PyTime Utils Base MetarGroups Trend Metar Taf
  SpecNum SpecTime SpecMetar TimeFacts ProofTime ProofText
  ProofProb ProofGroups ProofValues Keeps OutTime OutMetar OutReport ProofAbsent ProofClock.
Import ListNotations.
Local Open Scope string_scope.
Local Open Scope nat_scope.
Local Open Scope list_scope.
Local Opaque dt_add_minutes dt_add_hours dt_add_days.

Definition untouched (t : time) (v : valid) (x : taf) : Prop :=
  (t_code (ta_time x) = None -> ta_time x = t) /\ (va_code (ta_valid x) = None -> ta_valid x = v).

Lemma time_coded : forall e m y mo t, time_from_metar e (Some m) y mo = Ok t -> t_code t <> None.
Proof.
  intros e m y mo t E. unfold time_from_metar, time_new in E. destruct (strptime _) as [d|]; [|discriminate E]. cbn [bind] in E.
  replace t with (mk_time (group_code (Some (m_string m))) d) by congruence. discriminate.
Qed.
Lemma valid_coded : forall m d v, valid_from_taf (Some m) d = Ok v -> va_code v <> None.
Proof.
  intros m d v E. unfold valid_from_taf in E. 
  repeat (match type of E with bind ?r _ = _ => destruct r; [cbn [bind] in E|discriminate E] end).
  cbv zeta in E. repeat (match type of E with bind ?r _ = _ => destruct r; [cbn [bind] in E|discriminate E] end).
  match type of E with Ok ?a = Ok ?z => replace z with a by congruence end. discriminate.
Qed.

Lemma untouched_step : forall e y mo t v h m x x', In h (taf_handlers e y mo) -> h_handle h m x = Ok x' ->
  untouched t v x -> untouched t v x'.
Proof.
  intros e y mo t v h m x x' I Eh [Ht Hv]. cbn [taf_handlers In] in I.
  repeat (destruct I as [<-|I]; [cbn [h_handle] in *|]); try contradiction.
  all: unfold tlift, thandle_type, thandle_modifier, thandle_station, thandle_missing, thandle_cancelled, thandle_temperature in Eh; cbv zeta in Eh.
  4: { unfold thandle_time in Eh. destruct (time_from_metar e (Some m) y mo) as [t1|] eqn:Et; [|discriminate Eh]. cbn [bind] in Eh.
       apply time_coded in Et. match type of Eh with Ok ?a = Ok ?z => assert (K : z = a) by congruence end. rewrite K.
       split; [intros N; contradiction|exact Hv]. }
  5: { unfold thandle_valid in Eh. destruct (valid_from_taf (Some m) (t_dt (ta_time x))) as [v1|] eqn:Ev; [|discriminate Eh]. cbn [bind] in Eh.
       apply valid_coded in Ev. match type of Eh with Ok ?a = Ok ?z => assert (K : z = a) by congruence end. rewrite K.
       split; [exact Ht|intros N; contradiction]. }
  all: try (match type of Eh with bind ?r _ = _ => destruct r; [cbn [bind] in *|discriminate Eh] end).
  all: try (destruct (opt_str_eqb _ _)).
  all: try (match type of Eh with bind ?r _ = _ => destruct r; [cbn [bind] in *|discriminate Eh] end).
  all: match type of Eh with Ok ?a = Ok ?z => assert (K : z = a) by congruence end; rewrite K; split; [exact Ht|exact Hv].
Qed.

(** ** The first validity *)

Lemma early_real : forall y mo d h, (1 <= y <= 9999)%Z -> (1 <= mo <= 12)%Z -> (1 <= d <= 3)%Z -> (0 <= h <= 23)%Z -> real_time (mk_dt y mo d h 0).
Proof.
  intros y mo d h Hy Hm Hd Hh. split; [|cbn; lia]. cbn [dt_year dt_month dt_day]. split; [exact Hy|]. exists (days_in_month y mo).
  split; [apply month_length_spec; auto|].
  assert (M : (mo = 1 \/ mo = 2 \/ mo = 3 \/ mo = 4 \/ mo = 5 \/ mo = 6 \/ mo = 7 \/ mo = 8 \/ mo = 9 \/ mo = 10
      \/ mo = 11 \/ mo = 12)%Z) by lia.
  assert (K : (3 <= days_in_month y mo)%Z); [|lia].
  repeat (destruct M as [->|M]; [cbn; try destruct (is_leap y); discriminate|]). subst mo. discriminate.
Qed.

Lemma first_valid_dates : forall y mo, (1 <= y <= 9999)%Z -> (1 <= mo <= 12)%Z ->
  valid_from_taf None (mk_dt y mo 1 0 0) = Ok (valid_new None (time_at (mk_dt y mo 1 1 0)) (time_at (mk_dt y mo 2 1 0))).
Proof.
  intros y mo Hy Hm. unfold valid_from_taf, dt_replace_minute. cbn [Z.leb Z.compare andb bind dt_year dt_month dt_day dt_hour].
  pose proof (early_real y mo 1 1 Hy Hm ltac:(lia) ltac:(lia)) as R1. pose proof (early_real y mo 2 1 Hy Hm ltac:(lia) ltac:(lia)) as R2.
  assert (D1 : dt_minutes (mk_dt y mo 1 1 0) = (dt_minutes (mk_dt y mo 1 0 0) + 1 * 60)%Z).
  { unfold dt_minutes, ymd2ord. cbn [dt_year dt_month dt_day dt_hour dt_minute]. lia. }
  assert (D2 : dt_minutes (mk_dt y mo 2 1 0) = (dt_minutes (mk_dt y mo 1 1 0) + 24 * 60)%Z).
  { unfold dt_minutes, ymd2ord. cbn [dt_year dt_month dt_day dt_hour dt_minute]. lia. }
  Local Transparent dt_add_hours. unfold dt_add_hours. Local Opaque dt_add_hours.
  destruct (dt_add_cases (mk_dt y mo 1 0 0) (1 * 60)) as [(u & -> & Ru & Eu)|[_ N]].
  2: { exfalso. apply N. apply real_in in R1. rewrite <- D1. exact R1. }
  rewrite <- D1 in Eu. rewrite (dt_minutes_inj _ _ Ru R1 Eu). cbn [bind].
  destruct (dt_add_cases (mk_dt y mo 1 1 0) (24 * 60)) as [(w & -> & Rw & Ew)|[_ N]].
  2: { exfalso. apply N. apply real_in in R2. rewrite <- D2. exact R2. }
  rewrite <- D2 in Ew. rewrite (dt_minutes_inj _ _ Rw R2 Ew). reflexivity.
Qed.

Theorem taf_default : forall e code y mo tr x, clock_wf e -> taf_parse e code y mo tr = Ok x ->
  (t_code (ta_time x) = None -> t_dt (ta_time x) = mk_dt (now_year e) (now_month e) 1 0 0)
  /\ (va_code (ta_valid x) = None -> t_dt (va_from (ta_valid x)) = mk_dt (now_year e) (now_month e) 1 1 0
                                     /\ t_dt (va_until (ta_valid x)) = mk_dt (now_year e) (now_month e) 2 1 0).
Proof.
  intros e code y mo tr x [A B] E. unfold taf_parse in E.
  destruct (report_raw_code code) as [raw|ex]; [|discriminate E]. cbn [bind] in E. unfold taf_init in E.
  destruct (default_first e None None A B) as (t & Et & D). cbn [opt_default] in D. rewrite Et in E. cbn [bind] in E. rewrite D in E.
  assert (A' : (1 <= now_year e <= 9999)%Z) by lia.
  rewrite (first_valid_dates _ _ A' B) in E. destruct (taf_split raw) as [body codes].
  destruct (common_new []) as [c|ex]; [|discriminate E]. cbn [bind] in E.
  set (v := valid_new None (time_at (mk_dt (now_year e) (now_month e) 1 1 0)) (time_at (mk_dt (now_year e) (now_month e) 2 1 0))) in *.
  match type of E with (z <- taf_parse_body _ _ _ ?a ;; _) = _ => set (x1 := a) in * end.
  destruct (taf_parse_body e y mo x1) as [x2|] eqn:P; [|discriminate E]. cbn [bind] in E.
  destruct (forecasts_keep _ _ _ E) as [K1 K2]. unfold taf_parse_body in P.
  destruct (parse_section (taf_handlers e y mo) (sanitize_visibility (ta_body x1)) x1) as [[x3 un]|] eqn:Ps; [|discriminate P].
  cbn [bind] in P. assert (U : untouched t v x3).
  { refine (parse_section_inv _ (untouched t v) _ _ _ _ _ _ _ Ps).
    - intros h m s s' I Eh Hs. exact (untouched_step e y mo t v h m s s' I Eh Hs).
    - split; intros _; reflexivity. }
  assert (K3 : ta_time x = ta_time x3) by (rewrite K1; match type of P with Ok ?a = Ok ?z => replace z with a by congruence end; reflexivity).
  assert (K4 : ta_valid x = ta_valid x3) by (rewrite K2; match type of P with Ok ?a = Ok ?z => replace z with a by congruence end; reflexivity).
  rewrite K3, K4. destruct U as [U1 U2]. split.
  - intros N. rewrite (U1 N). exact D.
  - intros N. rewrite (U2 N). split; reflexivity.
Qed.

Theorem taf_clock_exact : forall y1 m1 y2 m2 st co code y mo tr x,
  clock_wf (mk_env y1 m1 st co) -> clock_wf (mk_env y2 m2 st co) -> (y1, m1) <> (y2, m2) ->
  taf_parse (mk_env y1 m1 st co) code (Some y) (Some mo) tr = Ok x ->
  (taf_parse (mk_env y2 m2 st co) code (Some y) (Some mo) tr = Ok x
   <-> t_code (ta_time x) <> None /\ va_code (ta_valid x) <> None).
Proof.
  intros y1 m1 y2 m2 st co code y mo tr x C1 C2 Ne E1. split.
  - intros E2. destruct (taf_default _ _ _ _ _ _ C1 E1) as [T1 V1]. destruct (taf_default _ _ _ _ _ _ C2 E2) as [T2 V2].
    cbn [now_year now_month] in *. split; intros N; apply Ne.
    + specialize (T1 N). specialize (T2 N). congruence.
    + specialize (V1 N). specialize (V2 N). destruct V1 as [V1 _], V2 as [V2 _]. congruence.
  - intros [S1 S2]. exact (taf_clock _ _ _ _ _ _ _ _ _ _ _ C1 C2 E1 S1 S2).
Qed.
