(** * The clock, the order of COR and the standard output (C31, C39, C53) *)
From Coq Require Import String Ascii.
From Coq Require Import List NArith ZArith Bool Lia.
From Verif Require Import PyBase PyRegex AeroRegex PyFloat PyTime Utils Base MetarGroups Trend Metar Taf
  SpecNum SpecGroups SpecTime SpecText SpecWords SpecMetar SpecFailures TimeFacts ProofTime ProofText ProofWords ProofSections
  ProofProb ProofMetar ProofMetarText ProofGroups ProofValues Keeps OutTime OutMetar OutReport ProofAbsent.
Import ListNotations.
Local Open Scope string_scope.
Local Open Scope nat_scope.
Local Open Scope list_scope.

(** ** C31: METAR *)

Lemma metar_clock : forall y1 m1 y2 m2 st co code y mo tr,
  clock_wf (mk_env y1 m1 st co) -> clock_wf (mk_env y2 m2 st co) ->
  metar_parse (mk_env y1 m1 st co) code (Some y) (Some mo) tr = metar_parse (mk_env y2 m2 st co) code (Some y) (Some mo) tr.
Proof.
  intros y1 m1 y2 m2 st co code y mo tr [A1 B1] [A2 B2].
  unfold metar_parse. destruct (report_raw_code code) as [raw|ex]; [|reflexivity]. cbn [bind].
  unfold metar_init.
  destruct (default_time (mk_env y1 m1 st co) None None A1 B1) as (t1 & ->).
  destruct (default_time (mk_env y2 m2 st co) None None A2 B2) as (t2 & ->). cbn [bind].
  reflexivity.
Qed.

(** ** C31: TAF *)

Definition moved (t : time) (v : valid) (x : taf) : taf := tupd_time t (tupd_valid v x).

Lemma taf_step_time : forall e y mo i h m s s', 4 <= i -> nth_error (taf_handlers e y mo) i = Some h -> h_handle h m s = Ok s' ->
  ta_time s' = ta_time s.
Proof.
  intros e y mo i h m s s' L E Eh. replace i with (4 + (i - 4)) in E by lia. remember (i - 4) as k eqn:Ek. clear Ek L i.
  unfold taf_handlers in E. cbn [plus nth_error] in E.
  nth_cases k E.
  all: try (destruct k; discriminate E).
  all: try (unfold thandle_temperature in Eh; destruct (taf_temp_new _ _); [|discriminate]; cbn [bind] in Eh;
      destruct (opt_str_eqb _ _); (destruct (gl_add _ _); [|discriminate]; cbn [bind] in Eh;
      match type of Eh with Ok ?a = Ok ?z => transitivity (ta_time a); [congruence|reflexivity] end)).
  all: unfold tlift, thandle_missing, thandle_valid, thandle_cancelled in Eh; cbv zeta in Eh; binds Eh;
    match type of Eh with Ok ?a = Ok ?z => transitivity (ta_time a); [congruence|reflexivity] end.
Qed.

Lemma taf_keep_time : forall e y mo gs index un x x' un', 4 <= index ->
  parse_groups (taf_handlers e y mo) gs index un x = Ok (x', un') -> ta_time x' = ta_time x.
Proof.
  intros e y mo gs. induction gs as [|g gs IH]; intros index un x x' un' L E; cbn [parse_groups] in E.
  - congruence.
  - destruct (first_match (skipn index (taf_handlers e y mo)) 0 g) as [[[k h] m]|] eqn:F; [|exact (IH _ _ _ _ _ L E)].
    apply first_match_nth in F. destruct F as (j & F & _ & Ek). rewrite nth_skipn in F.
    destruct (h_handle h m x) as [x1|] eqn:Eh; [|discriminate]. cbn [bind] in E.
    transitivity (ta_time x1); [refine (IH _ _ _ _ _ _ E); lia|].
    refine (taf_step_time e y mo (index + j) h m x x1 _ F Eh). lia.
Qed.

(** With the same time, only the validity group reads the validity. *)
Lemma run_valid : forall e y mo v gs index un x x' un',
  parse_groups (taf_handlers e y mo) gs index un x = Ok (x', un') ->
  va_code (ta_valid x) = None -> va_code (ta_valid x') <> None ->
  parse_groups (taf_handlers e y mo) gs index un (tupd_valid v x) = Ok (x', un').
Proof.
  intros e y mo v gs. induction gs as [|g gs IH]; intros index un x x' un' E N S; cbn [parse_groups] in E |- *.
  - exfalso. apply S. replace x' with x by congruence. exact N.
  - destruct (first_match (skipn index (taf_handlers e y mo)) 0 g) as [[[k h] m]|] eqn:F; [|exact (IH _ _ _ _ _ E N S)].
    apply first_match_in in F. destruct F as (I & _ & _). apply skipn_in in I.
    destruct (h_handle h m x) as [x1|] eqn:Eh; [|discriminate]. cbn [bind] in E.
    assert (D : h_handle h m (tupd_valid v x) = Ok x1 \/
                (h_handle h m (tupd_valid v x) = Ok (tupd_valid v x1) /\ va_code (ta_valid x1) = None)).
    { clear IH E S gs. cbn [taf_handlers In] in I.
      repeat (destruct I as [<-|I]; [cbn [h_handle] in *|]); try contradiction;
        try (left; unfold thandle_valid in *; exact Eh);
        right.
      all: unfold tlift, thandle_type, thandle_modifier, thandle_station, thandle_time, thandle_missing, thandle_cancelled,
             thandle_temperature in *; cbv zeta in *; cbn [tupd_valid ta_common ta_time ta_max ta_min].
      all: try (match type of Eh with bind ?r _ = _ => destruct r; [cbn [bind] in *|discriminate Eh] end).
      all: try (destruct (opt_str_eqb _ _)).
      all: try (match type of Eh with bind ?r _ = _ => destruct r; [cbn [bind] in *|discriminate Eh] end).
      all: try solve [match type of Eh with Ok ?a = Ok ?z => assert (K : z = a) by congruence end; rewrite K; split; [reflexivity|exact N]]. }
    destruct D as [->|[-> N1]]; cbn [bind]; [exact E|]. exact (IH _ _ _ _ _ E N1 S).
Qed.

(** Before the time group the time is not read. *)
Lemma run_moved : forall e y mo t v gs index un x x' un',
  parse_groups (taf_handlers e y mo) gs index un x = Ok (x', un') ->
  t_code (ta_time x) = None -> va_code (ta_valid x) = None -> t_code (ta_time x') <> None -> va_code (ta_valid x') <> None ->
  parse_groups (taf_handlers e y mo) gs index un (moved t v x) = Ok (x', un').
Proof.
  intros e y mo t v gs. induction gs as [|g gs IH]; intros index un x x' un' E N1 N2 S1 S2; cbn [parse_groups] in E |- *.
  - exfalso. apply S1. replace x' with x by congruence. exact N1.
  - destruct (first_match (skipn index (taf_handlers e y mo)) 0 g) as [[[k h] m]|] eqn:F; [|exact (IH _ _ _ _ _ E N1 N2 S1 S2)].
    apply first_match_nth in F. destruct F as (j & F & _ & Ek). rewrite nth_skipn in F.
    destruct (h_handle h m x) as [x1|] eqn:Eh; [|discriminate]. cbn [bind] in E.
    destruct (Nat.lt_ge_cases (index + j) 4) as [L|L].
    + remember (index + j) as i eqn:Ei. unfold taf_handlers in F.
      destruct i as [|[|[|[|i]]]]; [| | | |lia]; injection F as <-; cbn [h_handle] in *.
      * cbv [thandle_type] in Eh. cbv zeta in Eh.
        match type of Eh with Ok ?a = Ok ?z => assert (K : z = a) by congruence end. rewrite K in E. exact (IH _ _ _ _ _ E N1 N2 S1 S2).
      * cbv [thandle_modifier] in Eh. cbv zeta in Eh.
        match type of Eh with Ok ?a = Ok ?z => assert (K : z = a) by congruence end. rewrite K in E. exact (IH _ _ _ _ _ E N1 N2 S1 S2).
      * cbv [thandle_station] in Eh. cbv zeta in Eh.
        match type of Eh with Ok ?a = Ok ?z => assert (K : z = a) by congruence end. rewrite K in E. exact (IH _ _ _ _ _ E N1 N2 S1 S2).
      * unfold thandle_time in *. destruct (time_from_metar e (Some m) y mo) as [t1|]; [|discriminate]. cbn [bind] in *.
        match type of Eh with Ok ?a = Ok ?z => assert (K : z = a) by congruence end. rewrite K in E.
        exact (run_valid e y mo v gs _ _ _ _ _ E N2 S2).
    + exfalso. apply S1. rewrite (taf_keep_time e y mo gs (index + k) _ _ _ _ ltac:(lia) E).
      rewrite (taf_step_time e y mo (index + j) h m x x1 L F Eh). exact N1.
Qed.

Lemma first_valid : forall y mo, (1 <= y <= 9999)%Z -> (1 <= mo <= 12)%Z ->
  exists v, valid_from_taf None (mk_dt y mo 1 0 0) = Ok v /\ va_code v = None.
Proof.
  intros y mo Hy Hm. unfold valid_from_taf, dt_replace_minute. cbn [Z.leb Z.compare andb bind dt_year dt_month dt_day dt_hour].
  assert (R : real_time (mk_dt y mo 1 0 0)).
  { split; [apply OutReport.first_real; assumption|cbn; lia]. }
  assert (R3 : real_time (mk_dt y mo 3 0 0)).
  { split; [|cbn; lia]. cbn [dt_year dt_month dt_day]. split; [exact Hy|]. exists (days_in_month y mo). split; [apply month_length_spec; auto|].
    assert (M : (mo = 1 \/ mo = 2 \/ mo = 3 \/ mo = 4 \/ mo = 5 \/ mo = 6 \/ mo = 7 \/ mo = 8 \/ mo = 9 \/ mo = 10
      \/ mo = 11 \/ mo = 12)%Z) by lia. split; [lia|].
    repeat (destruct M as [->|M]; [cbn; try destruct (is_leap y); discriminate|]). subst mo. discriminate. }
  apply real_in in R. apply real_in in R3.
  assert (D : dt_minutes (mk_dt y mo 3 0 0) = (dt_minutes (mk_dt y mo 1 0 0) + 2880)%Z).
  { unfold dt_minutes, ymd2ord. cbn [dt_year dt_month dt_day dt_hour dt_minute]. lia. }
  unfold dt_add_hours. destruct (dt_add_cases (mk_dt y mo 1 0 0) (1 * 60)) as [(u & -> & Ru & Eu)|[_ N]].
  2: { exfalso. apply N. unfold in_calendar in *. lia. }
  cbn [bind]. destruct (dt_add_cases u (24 * 60)) as [(w & -> & _ & _)|[_ N]].
  2: { exfalso. apply N. unfold in_calendar in *. lia. }
  cbn [bind]. eexists. split; [reflexivity|reflexivity].
Qed.

Lemma changes_keep : forall l x x', handle_changes l x = Ok x' -> ta_time x' = ta_time x /\ ta_valid x' = ta_valid x.
Proof.
  induction l as [|t l IH]; intros x x' E; cbn [handle_changes] in E; [split; congruence|].
  destruct t as [|a t]; [exact (IH _ _ E)|]. unfold handle_change_forecasted in E.
  destruct (change_fc_new (a :: t) (ta_valid x)) as [p|]; [|discriminate]. cbn [bind] in E.
  destruct (changes_add p (ta_changes x)) as [c|]; [|discriminate]. cbn [bind] in E.
  destruct (IH _ _ E) as [-> ->]. split; reflexivity.
Qed.

Lemma forecasts_keep : forall tr x x', parse_changes_forecasted tr x = Ok x' -> ta_time x' = ta_time x /\ ta_valid x' = ta_valid x.
Proof.
  intros tr x x' E. unfold parse_changes_forecasted in E. destruct (handle_changes (ta_codes x) x) as [z|] eqn:Ez; [|discriminate].
  apply changes_keep in Ez. destruct Ez as [<- <-]. cbn [bind] in E. destruct (gl_collect (ta_changes z)) as [l g]. cbv zeta in E.
  match type of E with match ?u with _ => _ end = _ => destruct u end; [|destruct tr; [discriminate|]];
    match type of E with Ok ?a = _ => replace x' with a by congruence end; split; reflexivity.
Qed.

Lemma no_code_time : forall e mo y t, time_new e None None None None mo y = Ok t -> t_code t = None.
Proof.
  intros e mo y t E. unfold time_new in E. destruct (strptime _) as [d|]; [|discriminate]. cbn [bind] in E.
  replace t with (mk_time (group_code None) d) by congruence. reflexivity.
Qed.

Lemma taf_clock : forall y1 m1 y2 m2 st co code y mo tr x,
  clock_wf (mk_env y1 m1 st co) -> clock_wf (mk_env y2 m2 st co) ->
  taf_parse (mk_env y1 m1 st co) code (Some y) (Some mo) tr = Ok x ->
  t_code (ta_time x) <> None -> va_code (ta_valid x) <> None ->
  taf_parse (mk_env y2 m2 st co) code (Some y) (Some mo) tr = Ok x.
Proof.
  intros y1 m1 y2 m2 st co code y mo tr x [A1 B1] [A2 B2] E S1 S2. cbn [now_year now_month] in *.
  unfold taf_parse in *. destruct (report_raw_code code) as [raw|ex]; [|discriminate]. cbn [bind] in *.
  unfold taf_init in *.
  destruct (default_first (mk_env y1 m1 st co) None None A1 B1) as (t1 & Et1 & D1).
  destruct (default_first (mk_env y2 m2 st co) None None A2 B2) as (t2 & Et2 & D2).
  cbn [opt_default now_year now_month] in D1, D2.
  rewrite Et1 in E. rewrite Et2. cbn [bind] in *. rewrite D1 in E. rewrite D2.
  destruct (first_valid y1 m1 ltac:(lia) B1) as (v1 & Ev1 & C1). destruct (first_valid y2 m2 ltac:(lia) B2) as (v2 & Ev2 & C2).
  destruct (taf_split raw) as [body codes]. destruct (common_new []) as [c|ex]; [|discriminate]. cbn [bind] in *.
  rewrite Ev1 in E. rewrite Ev2. cbn [bind] in *.
  match type of E with (z <- taf_parse_body _ _ _ ?a ;; _) = _ => set (x1 := a) in * end.
  match goal with |- (z <- taf_parse_body _ _ _ ?a ;; _) = _ => change a with (moved t2 v2 x1) end.
  unfold taf_parse_body in *. change (ta_body (moved t2 v2 x1)) with (ta_body x1). unfold parse_section in *.
  change (taf_handlers (mk_env y2 m2 st co) (Some y) (Some mo)) with (taf_handlers (mk_env y1 m1 st co) (Some y) (Some mo)).
  destruct (parse_groups _ _ 0 [] x1) as [[x2 un]|] eqn:P; [|discriminate]. cbn [bind] in E.
  destruct (forecasts_keep _ _ _ E) as [K1 K2].
  change (ta_time x = ta_time x2) in K1. change (ta_valid x = ta_valid x2) in K2. rewrite K1 in S1. rewrite K2 in S2.
  rewrite (run_moved _ _ _ t2 v2 _ _ _ _ _ _ P (no_code_time _ _ _ _ Et1) C1 S1 S2). cbn [bind]. exact E.
Qed.
