(** * Outcomes of the times of a TAF, for every text the patterns accept *)
From Coq Require Import String Ascii.
From Coq Require Import List NArith ZArith Bool Lia.
From Verif Require Import PyBase PyRegex AeroRegex PyFloat PyTime Utils Base MetarGroups Trend Taf
  SpecNum SpecTime SpecTaf SpecFailures SymRegex SymFirst StrFacts RegexPaths Captures DigitFacts ReprFacts FloatFacts
  SpecGroups ProofGroups ProofValues TimeFacts ProofTime Outcomes OutTime.
Import ListNotations.
Local Open Scope string_scope.
Local Open Scope nat_scope.
Local Open Scope list_scope.

(** ** Times with room before the end of the calendar *)

Definition day_no (t : datetime) : Z := ymd2ord (dt_year t) (dt_month t) (dt_day t).

(** [sound L k t]: unless [L], [t] is at most [k] days after 30 November 9999. *)
Definition sound (L : Prop) (k : Z) (t : datetime) : Prop :=
  real_time t /\ (2 <= day_no t)%Z /\ (L \/ (day_no t <= max_ordinal - 31 + k)%Z).
Definition over (L : Prop) (e : exn) : Prop := match e with OverflowError => L | _ => False end.

Lemma sound_mono : forall L k k' t, (k <= k')%Z -> sound L k t -> sound L k' t.
Proof. intros L k k' t H (R & A & B). split; [exact R|]. split; [exact A|]. destruct B as [B|B]; [left; exact B|right; lia]. Qed.

Lemma sound_hour : forall L k t h, sound L k t -> (0 <= h <= 23)%Z -> exists u, dt_replace_hour t h = Ok u /\ sound L k u.
Proof.
  intros L k t h ((R & Hh & Hm) & A & B) H. unfold dt_replace_hour.
  replace ((0 <=? h) && (h <=? 23))%Z with true by (symmetry; apply andb_true_iff; rewrite !Z.leb_le; lia).
  eexists. split; [reflexivity|]. split; [split; [exact R|cbn; lia]|]. split; [exact A|exact B].
Qed.
Lemma sound_minute : forall L k t h, sound L k t -> (0 <= h <= 59)%Z -> exists u, dt_replace_minute t h = Ok u /\ sound L k u.
Proof.
  intros L k t h ((R & Hh & Hm) & A & B) H. unfold dt_replace_minute.
  replace ((0 <=? h) && (h <=? 59))%Z with true by (symmetry; apply andb_true_iff; rewrite !Z.leb_le; lia).
  eexists. split; [reflexivity|]. split; [split; [exact R|cbn; lia]|]. split; [exact A|exact B].
Qed.

Lemma minutes_day : forall t, real_time t -> (day_no t = dt_minutes t / 1440)%Z.
Proof. intros t (R & Hh & Hm). unfold dt_minutes. fold (day_no t). lia. Qed.

Lemma sound_add : forall L k t z, sound L k t -> (k <= 30)%Z -> (0 <= z <= 1440)%Z ->
  outcome (over L) (sound L (k + 1)) (dt_add_minutes t z).
Proof.
  intros L k t z (R & A & B) Hk Hz. pose proof (minutes_day t R) as D.
  destruct (dt_add_cases t z) as [(u & -> & Ru & Mu)|[-> N]]; cbn [outcome over].
  - pose proof (minutes_day u Ru) as Du. split; [exact Ru|]. rewrite Mu in Du. split; [lia|].
    destruct B as [B|B]; [left; exact B|right; lia].
  - destruct B as [B|B]; [exact B|exfalso]. apply N. unfold in_calendar. unfold max_ordinal in *. lia.
Qed.

Lemma sound_back : forall L k t, sound L k t -> exists u, dt_add_hours t (-1) = Ok u.
Proof.
  intros L k t (R & A & _). unfold dt_add_hours. destruct (dt_add_in t (-1 * 60)) as (u & E & _); [|exists u; exact E].
  pose proof (real_in t R). pose proof (minutes_day t R). unfold in_calendar in *. lia.
Qed.

(** ** Numbers of two digits, by their classes *)

Definition low_item (i : citem) : N := match i with CRange a _ => (a - 48)%N | _ => 0%N end.
Definition high_item (i : citem) : N := match i with CRange _ b => (b - 48)%N | _ => 9%N end.
Definition digit_from (lo hi : N) (k : cls) : bool :=
  digit_cls k && forallb (fun i => (lo <=? low_item i) && (high_item i <=? hi))%N k.

Lemma digit_val_small : forall c d, digit_val c = Some d -> (d <= 9)%N.
Proof.
  intros c d H. unfold digit_val in H. destruct (find _ nd_zeros) as [z|] eqn:F; [|discriminate].
  apply find_some in F. destruct F as [_ F]. apply andb_true_iff in F. destruct F as [F1 F2].
  apply N.leb_le in F1. apply N.ltb_lt in F2. injection H as <-. lia.
Qed.

Lemma digit_from_val : forall lo hi k c, digit_from lo hi k = true -> in_cls c k = true ->
  exists d, digit_val c = Some d /\ (lo <= d <= hi)%N.
Proof.
  intros lo hi k c H I. unfold digit_from in H. apply andb_true_iff in H. destruct H as [D H].
  unfold in_cls in I. apply existsb_exists in I. destruct I as (i & Ii & Hi).
  rewrite forallb_forall in H. specialize (H i Ii). apply andb_true_iff in H. destruct H as [H1 H2].
  apply N.leb_le in H1, H2. unfold digit_cls in D. rewrite forallb_forall in D. specialize (D i Ii).
  destruct i as [a b| |]; cbn [digit_item in_citem low_item high_item] in *.
  - apply andb_true_iff in D, Hi. destruct D as [D1 D2], Hi as [G1 G2]. apply N.leb_le in D1, D2, G1, G2.
    exists (c - 48)%N. rewrite digit_val_ascii by lia. split; [reflexivity|lia].
  - unfold is_digit in Hi. destruct (digit_val c) as [d|] eqn:E; [|discriminate]. exists d. split; [reflexivity|].
    pose proof (digit_val_small c d E). lia.
  - discriminate.
Qed.

(** The classes of a text of two digits: tens from [a] to [b], ones from [c] to [d]. *)
Definition pair_from (a b c d : N) (ks : list cls) : bool :=
  match ks with [k1; k2] => digit_from a b k1 && digit_from c d k2 | _ => false end.

Lemma pair_from_val : forall a b c d x ks, along x ks -> pair_from a b c d ks = true ->
  exists n, reads x n /\ (10 * a + c <= n <= 10 * b + d)%N.
Proof.
  intros a b c d x ks A H. destruct ks as [|k1 [|k2 [|k3 ks]]]; try discriminate. cbn [pair_from] in H.
  apply andb_true_iff in H. destruct H as [H1 H2].
  inversion A as [|c1 q1 s1 l1 I1 A1]; subst. inversion A1 as [|c2 q2 s2 l2 I2 A2]; subst. inversion A2; subst.
  destruct (digit_from_val _ _ _ _ H1 I1) as (d1 & E1 & B1). destruct (digit_from_val _ _ _ _ H2 I2) as (d2 & E2 & B2).
  exists ((0 * 10 + d1) * 10 + d2)%N. split; [|lia]. split; [discriminate|]. cbn [digits_val]. rewrite E1, E2. reflexivity.
Qed.

Definition day_pair (ks : list cls) : bool := pair_from 0 0 1 9 ks || pair_from 1 2 0 9 ks || pair_from 3 3 0 1 ks.
Definition hour_pair (ks : list cls) : bool := pair_from 0 1 0 9 ks || pair_from 2 2 0 3 ks.
Definition hour24_pair (ks : list cls) : bool := pair_from 0 1 0 9 ks || pair_from 2 2 0 4 ks.
Definition min_pair (ks : list cls) : bool := pair_from 0 5 0 9 ks.

Lemma int_reads : forall x n, reads x n -> int_of_opt (Some x) = Ok (Z.of_N n).
Proof. intros x n R. exact (reads_int x n R). Qed.

Lemma day_pair_val : forall x ks, along x ks -> day_pair ks = true -> exists z, int_of_opt (Some x) = Ok z /\ (1 <= z <= 31)%Z.
Proof.
  intros x ks A H. unfold day_pair in H. rewrite !orb_true_iff in H.
  destruct H as [[H|H]|H]; destruct (pair_from_val _ _ _ _ _ _ A H) as (n & R & B); exists (Z.of_N n);
    (split; [exact (int_reads x n R)|lia]).
Qed.
Lemma hour_pair_val : forall x ks, along x ks -> hour_pair ks = true -> exists z, int_of_opt (Some x) = Ok z /\ (0 <= z <= 23)%Z.
Proof.
  intros x ks A H. unfold hour_pair in H. rewrite !orb_true_iff in H.
  destruct H as [H|H]; destruct (pair_from_val _ _ _ _ _ _ A H) as (n & R & B); exists (Z.of_N n);
    (split; [exact (int_reads x n R)|lia]).
Qed.
Lemma hour24_pair_val : forall x ks, along x ks -> hour24_pair ks = true -> exists z, int_of_opt (Some x) = Ok z /\ (0 <= z <= 24)%Z.
Proof.
  intros x ks A H. unfold hour24_pair in H. rewrite !orb_true_iff in H.
  destruct H as [H|H]; destruct (pair_from_val _ _ _ _ _ _ A H) as (n & R & B); exists (Z.of_N n);
    (split; [exact (int_reads x n R)|lia]).
Qed.
Lemma min_pair_val : forall x ks, along x ks -> min_pair ks = true -> exists z, int_of_opt (Some x) = Ok z /\ (0 <= z <= 59)%Z.
Proof.
  intros x ks A H. unfold min_pair in H. destruct (pair_from_val _ _ _ _ _ _ A H) as (n & R & B). exists (Z.of_N n).
  split; [exact (int_reads x n R)|lia].
Qed.

(** ** The validity *)

Definition valid_path (q : cpath) : bool :=
  span_is q "fmday" 0 2 && span_is q "fmhour" 2 4 && span_is q "tlday" 5 7 && span_is q "tlhour" 7 9
  && day_pair (piece q 0 2) && hour_pair (piece q 2 4) && day_pair (piece q 5 7) && hour24_pair (piece q 7 9).
Lemma valid_paths : starfree r_T_VALID = true /\ forallb valid_path (cpaths r_T_VALID) = true.
Proof. split; vm_compute; reflexivity. Qed.

Lemma valid_match : forall g m, re_match r_T_VALID g = Some m -> exists fd fh td th,
  int_of_opt (group m "fmday") = Ok fd /\ int_of_opt (group m "fmhour") = Ok fh
  /\ int_of_opt (group m "tlday") = Ok td /\ int_of_opt (group m "tlhour") = Ok th
  /\ (0 <= fh <= 23)%Z /\ (0 <= th <= 24)%Z.
Proof.
  intros g m M. destruct valid_paths as [F T].
  destruct (path_check r_T_VALID g m valid_path F M T) as (q & x & t & P & Fo). unfold valid_path in P.
  rewrite !andb_true_iff in P. destruct P as (((((((S1 & S2) & S3) & S4) & P1) & P2) & P3) & P4).
  rewrite (span_is_group _ _ _ _ _ _ _ _ Fo S1), (span_is_group _ _ _ _ _ _ _ _ Fo S2),
    (span_is_group _ _ _ _ _ _ _ _ Fo S3), (span_is_group _ _ _ _ _ _ _ _ Fo S4).
  destruct (day_pair_val _ _ (piece_along _ _ _ _ _ 0 2 Fo) P1) as (fd & R1 & _).
  destruct (hour_pair_val _ _ (piece_along _ _ _ _ _ 2 4 Fo) P2) as (fh & R2 & B2).
  destruct (day_pair_val _ _ (piece_along _ _ _ _ _ 5 7 Fo) P3) as (td & R3 & _).
  destruct (hour24_pair_val _ _ (piece_along _ _ _ _ _ 7 9 Fo) P4) as (th & R4 & B4).
  exists fd, fh, td, th. auto 8.
Qed.

Definition sound_valid (L : Prop) (k : Z) (v : valid) : Prop :=
  sound L (k + 1) (t_dt (va_from v)) /\ sound L (k + 2) (t_dt (va_until v)).

Lemma sound_day : forall L k t, sound L k t -> (k <= 30)%Z -> outcome (over L) (sound L (k + 1)) (dt_add_days t 1).
Proof. intros L k t S H. unfold dt_add_days. apply sound_add; [exact S|exact H|lia]. Qed.

Lemma valid_none : forall L k t, sound L k t -> (k <= 29)%Z -> outcome (over L) (sound_valid L k) (valid_from_taf None t).
Proof.
  intros L k t S Hk. unfold valid_from_taf. destruct (sound_minute L k t 0 S ltac:(lia)) as (t0 & -> & S0). cbn [bind].
  refine (outcome_bind _ _ _ (sound L (k + 1)) _ _ _ _ _).
  { unfold dt_add_hours. apply sound_add; [exact S0|lia|lia]. }
  intros t1 S1. refine (outcome_bind _ _ _ (sound L (k + 1 + 1)) _ _ _ _ _).
  { unfold dt_add_hours. apply sound_add; [exact S1|lia|lia]. }
  intros u S2. cbn [outcome]. split; cbn; [exact S1|]. replace (k + 2)%Z with (k + 1 + 1)%Z by lia. exact S2.
Qed.

Lemma valid_some : forall L k t g m, sound L k t -> (k <= 29)%Z -> re_match r_T_VALID g = Some m ->
  outcome (over L) (sound_valid L k) (valid_from_taf (Some m) t).
Proof.
  intros L k t g m S Hk M. unfold valid_from_taf. destruct (sound_minute L k t 0 S ltac:(lia)) as (t0 & -> & S0). cbn [bind].
  destruct (valid_match g m M) as (fd & fh & td & th & -> & -> & -> & -> & Bf & Bt). cbn [bind].
  assert (D : forall d, outcome (over L) (sound L (k + 1)) (if (d =? dt_day t0)%Z then Ok t0 else dt_add_days t0 1)).
  { intro d. destruct (d =? dt_day t0)%Z; [|apply sound_day; [exact S0|lia]]. cbn [outcome]. apply (sound_mono L k); [lia|exact S0]. }
  refine (outcome_bind _ _ _ _ _ _ _ (D fd) _). intros f Sf.
  refine (outcome_bind _ _ _ _ _ _ _ (D td) _). intros u Su.
  refine (outcome_bind _ _ _ (sound L (k + 2)) _ _ _ _ _).
  { destruct (th =? 24)%Z; [|cbn [outcome]; apply (sound_mono L (k + 1)); [lia|exact Su]].
    replace (k + 2)%Z with (k + 1 + 1)%Z by lia. apply sound_day; [exact Su|lia]. }
  intros u2 Su2. cbv zeta.
  destruct (sound_hour _ _ f fh Sf Bf) as (f' & -> & Sf'). cbn [bind].
  destruct (sound_hour _ _ u2 (if (th =? 24)%Z then 0 else th)%Z Su2) as (u' & -> & Su').
  { destruct (Z.eqb_spec th 24); lia. }
  cbn [bind outcome]. split; cbn; [exact Sf'|exact Su'].
Qed.

(** ** Temperatures *)

Lemma ttemp_checks : starfree r_T_TEMPERATURE = true /\ captured "temp" r_T_TEMPERATURE = true
  /\ captured "day" r_T_TEMPERATURE = true /\ captured "hour" r_T_TEMPERATURE = true
  /\ group_ok "temp" temp_path r_T_TEMPERATURE = true /\ group_ok "day" day_pair r_T_TEMPERATURE = true
  /\ group_ok "hour" hour_pair r_T_TEMPERATURE = true.
Proof. conjs; vm_compute; reflexivity. Qed.

Lemma ttemp_outcome : forall L k t g m, sound L k t -> (k <= 30)%Z -> re_match r_T_TEMPERATURE g = Some m ->
  outcome (over L) (fun _ => True) (taf_temp_new m t).
Proof.
  intros L k t g m S Hk M. destruct ttemp_checks as (F & C1 & C2 & C3 & P1 & P2 & P3).
  unfold taf_temp_new. destruct (sound_minute L k t 0 S ltac:(lia)) as (t0 & -> & S0). cbn [bind].
  destruct (captured_some _ _ _ _ F C1 M) as (c & E). rewrite E.
  destruct (group_ok_along _ _ _ _ _ _ F P1 M E) as (ks & A & K).
  destruct (temp_path_cases c ks A K) as [Lc Nc]. destruct (temperature_fine c Lc Nc) as [T1 T2].
  assert (V : fine (if truthy (group m "sign") then temperature_new (Some (py "-" ++ c)) else temperature_new (Some c)))
    by (destruct (truthy (group m "sign")); assumption).
  destruct V as (v & ->). cbn [bind].
  destruct (captured_some _ _ _ _ F C2 M) as (cd & Ed). rewrite Ed.
  destruct (group_ok_along _ _ _ _ _ _ F P2 M Ed) as (kd & Ad & Kd). destruct (day_pair_val _ _ Ad Kd) as (nd & -> & _).
  destruct (captured_some _ _ _ _ F C3 M) as (ch & Eh). rewrite Eh.
  destruct (group_ok_along _ _ _ _ _ _ F P3 M Eh) as (kh & Ah & Kh). destruct (hour_pair_val _ _ Ah Kh) as (h & -> & B).
  cbn [bind].
  destruct (sound_hour _ _ t0 h S0 B) as (t1 & -> & S1). cbn [bind].
  refine (outcome_bind _ _ _ (fun _ => True) _ _ _ _ _); [|intros t2 _; exact I].
  destruct (nd =? dt_day t1)%Z; [exact I|].
  refine (outcome_weaken _ _ _ _ _ _ (sound_day L k t1 S1 Hk) _ _); auto.
Qed.

(** ** The start of an FM change *)

Lemma roll_any : forall fuel day t, real_time t ->
  outcome (fun e => e = OverflowError) (fun u => real_time u /\ (day_no t <= day_no u)%Z) (roll_to_day fuel day t).
Proof.
  induction fuel as [|f IH]; intros day t R; cbn [roll_to_day].
  - destruct (day =? dt_day t)%Z; cbn [outcome]; [split; [exact R|lia]|reflexivity].
  - destruct (day =? dt_day t)%Z; [cbn [outcome]; split; [exact R|lia]|].
    unfold dt_add_days. destruct (dt_add_cases t (1 * 1440)) as [(u & -> & Ru & Mu)|[-> _]]; cbn [bind outcome]; [|reflexivity].
    pose proof (minutes_day t R). pose proof (minutes_day u Ru).
    refine (outcome_weaken _ _ _ _ _ _ (IH day u Ru) _ _); [auto|]. cbv beta. intros a [Ra Ha]. split; [exact Ra|lia].
Qed.

Lemma last_days : forall t day, real_time t -> (1 <= day <= 31)%Z -> day_no t = (max_ordinal - 31 + day)%Z -> dt_day t = day.
Proof.
  intros t day (R & _) Hd E. destruct (real_date_range _ _ _ R) as (_ & Hm & Hdd).
  assert (I := ord2ymd_ymd2ord _ _ _ Hm Hdd). fold (day_no t) in I. rewrite E in I.
  assert (J : ymd2ord 9999 12 day = (max_ordinal - 31 + day)%Z).
  { unfold ymd2ord. change (days_before_year 9999 + days_before_month 9999 12)%Z with (max_ordinal - 31)%Z. lia. }
  assert (K := ord2ymd_ymd2ord 9999 12 day ltac:(lia)). rewrite J in K.
  specialize (K ltac:(change (days_in_month 9999 12) with 31%Z; lia)). congruence.
Qed.

Lemma roll_reaches : forall fuel day t, real_time t -> (1 <= day <= 31)%Z ->
  (day_no t <= max_ordinal - 31 + day)%Z -> (max_ordinal - 31 + day - day_no t <= Z.of_nat fuel)%Z ->
  exists u, roll_to_day fuel day t = Ok u.
Proof.
  induction fuel as [|f IH]; intros day t R Hd A B; cbn [roll_to_day].
  - destruct (Z.eqb_spec day (dt_day t)) as [E|E]; [eexists; reflexivity|]. exfalso. apply E. symmetry.
    apply (last_days t day R Hd). lia.
  - destruct (Z.eqb_spec day (dt_day t)) as [E|E]; [eexists; reflexivity|].
    assert (N : day_no t <> (max_ordinal - 31 + day)%Z) by (intro K; apply E; symmetry; exact (last_days t day R Hd K)).
    pose proof (minutes_day t R) as D.
    destruct (dt_add_in t (1 * 1440)) as (u & Eu & Ru & Mu).
    { pose proof (real_in t R). unfold in_calendar, max_ordinal in *. lia. }
    unfold dt_add_days. rewrite Eu. cbn [bind]. pose proof (minutes_day u Ru). apply IH; [exact Ru|exact Hd|lia|lia].
Qed.

Lemma sound_roll : forall L t day, sound L 1 t -> (1 <= day <= 31)%Z ->
  outcome (over L) (sound L 31) (roll_to_day 62 day t).
Proof.
  intros L t day (R & A & B) Hd. pose proof (roll_any 62 day t R) as K.
  destruct (roll_to_day 62 day t) as [u|e] eqn:E; cbn [outcome] in *.
  - destruct K as [Ru Hu]. split; [exact Ru|]. split; [lia|]. right.
    destruct Ru as (Ru & _). pose proof (ymd2ord_range _ _ _ Ru). unfold day_no. lia.
  - subst e. cbn [over]. destruct B as [B|B]; [exact B|exfalso].
    destruct (roll_to_day_enough day t R Hd) as (b & _ & Hr).
    pose proof (Hr 62%nat ltac:(lia)) as E62. rewrite E in E62.
    assert (F : exists f, (61 <= f)%nat /\ (max_ordinal <= Z.of_nat f)%Z).
    { exists (Z.to_nat (max_ordinal + 62)). unfold max_ordinal. lia. }
    destruct F as (f & F1 & F2).
    destruct (roll_reaches f day t R Hd) as (u & Eu); [lia|lia|].
    rewrite (Hr f F1) in Eu. rewrite <- E62 in Eu. discriminate.
Qed.
