(** * Facts about the calendar algorithms *)
From Coq Require Import String Ascii.
From Coq Require Import List NArith ZArith Bool Lia.
From Verif Require Import PyBase PyTime SpecTime.
Import ListNotations.
Local Open Scope Z_scope.

Ltac Zify.zify_post_hook ::= Z.to_euclidean_division_equations.

(** ** Leap years and months *)

Lemma is_leap_spec : forall y, is_leap y = true <-> leap_year y.
Proof.
  intro y. unfold is_leap, leap_year.
  rewrite andb_true_iff, orb_true_iff, negb_true_iff, !Z.eqb_eq, Z.eqb_neq.
  rewrite !Z.mod_divide by discriminate. tauto.
Qed.

Lemma month_length_spec : forall y m n, month_length y m n <-> (1 <= m <= 12 /\ n = days_in_month y m).
Proof.
  intros y m n. split.
  - intros [m' H|m' H|H|H].
    + repeat (destruct H as [<-|H]; [split; [lia|reflexivity]|]). destruct H.
    + repeat (destruct H as [<-|H]; [split; [lia|reflexivity]|]). destruct H.
    + apply is_leap_spec in H. split; [lia|]. cbn [days_in_month]. rewrite H. reflexivity.
    + rewrite <- is_leap_spec in H. split; [lia|]. cbn [days_in_month].
      destruct (is_leap y); [destruct H|]; reflexivity.
  - intros [H ->].
    assert (C : m = 1 \/ m = 2 \/ m = 3 \/ m = 4 \/ m = 5 \/ m = 6 \/ m = 7 \/ m = 8 \/ m = 9
                \/ m = 10 \/ m = 11 \/ m = 12) by lia.
    repeat (destruct C as [->|C]); try subst m; cbn [days_in_month];
      try (apply Len31; cbn; tauto); try (apply Len30; cbn; tauto).
    destruct (is_leap y) eqn:E; [apply Len29; apply is_leap_spec; exact E|].
    apply Len28. rewrite <- is_leap_spec. congruence.
Qed.

Lemma valid_date_spec : forall y m d, valid_date y m d = true <-> real_date y m d.
Proof.
  intros y m d. unfold valid_date, real_date. rewrite !andb_true_iff, !Z.leb_le. split.
  - intros [[[[[A B] C] D] E] F]. split; [lia|]. exists (days_in_month y m). split; [|lia].
    apply month_length_spec. split; [lia|reflexivity].
  - intros [A (n & L & B)]. apply month_length_spec in L. destruct L as [L ->]. lia.
Qed.

Lemma valid_dt_spec : forall t, valid_dt t = true <-> real_time t.
Proof.
  intro t. unfold valid_dt, real_time, valid_time.
  rewrite andb_true_iff, valid_date_spec, !andb_true_iff, !Z.leb_le. intuition lia.
Qed.

(** ** Day numbers *)

(** The four cycles of a year number. *)
Lemma year_parts : forall y, exists a b c e,
  y = 400 * a + 100 * b + 4 * c + e + 1 /\ 0 <= b <= 3 /\ 0 <= c <= 24 /\ 0 <= e <= 3.
Proof.
  intro y. exists ((y - 1) / 400), ((y - 1) mod 400 / 100), ((y - 1) mod 100 / 4), ((y - 1) mod 4).
  lia.
Qed.

Lemma leap_parts : forall a b c e, 0 <= b <= 3 -> 0 <= c <= 24 -> 0 <= e <= 3 ->
  is_leap (400 * a + 100 * b + 4 * c + e + 1) = (e =? 3) && (negb (c =? 24) || (b =? 3)).
Proof.
  intros a b c e Hb Hc He. unfold is_leap.
  remember (400 * a + 100 * b + 4 * c + e + 1) as y eqn:Ey.
  destruct (Z.eqb_spec e 3) as [E|E].
  - assert (M4 : y mod 4 = 0) by lia. rewrite M4. cbn [Z.eqb andb].
    destruct (Z.eqb_spec c 24) as [C|C]; cbn [negb orb].
    + assert (M : y mod 100 = 0) by lia. rewrite M. cbn [Z.eqb negb orb].
      destruct (Z.eqb_spec b 3) as [B|B]; [apply Z.eqb_eq|apply Z.eqb_neq]; lia.
    + assert (M : y mod 100 <> 0) by lia. apply Z.eqb_neq in M. rewrite M. reflexivity.
  - assert (M4 : y mod 4 <> 0) by lia. apply Z.eqb_neq in M4. rewrite M4. reflexivity.
Qed.

Lemma before_parts : forall a b c e, 0 <= b <= 3 -> 0 <= c <= 24 -> 0 <= e <= 3 ->
  days_before_year (400 * a + 100 * b + 4 * c + e + 1) = 146097 * a + 36524 * b + 1461 * c + 365 * e.
Proof. intros a b c e Hb Hc He. unfold days_before_year. lia. Qed.

(** The month step of [ord2ymd], on the day of the year. *)
Definition month_step (leap : bool) (n : Z) : Z * Z :=
  let month := (n + 50) / 32 in
  let preceding := days_before_month_tbl month + (if (2 <? month) && leap then 1 else 0) in
  if n <? preceding then
    let month' := month - 1 in
    let preceding' := preceding - (match month' with
                                   | 2 => if leap then 29 else 28
                                   | _ => days_in_month 1 month'
                                   end) in
    (month', n - preceding' + 1)
  else (month, n - preceding + 1).

Definition len (leap : bool) (m : Z) : Z :=
  match m with 2 => if leap then 29 else 28 | _ => days_in_month 1 m end.
Definition before (leap : bool) (m : Z) : Z :=
  days_before_month_tbl m + (if (2 <? m) && leap then 1 else 0).

Ltac ev := cbv [before len days_before_month_tbl days_in_month andb Z.ltb Z.compare Pos.compare
                 Pos.compare_cont] in *.

Lemma len_days : forall y m, days_in_month y m = len (is_leap y) m.
Proof.
  intros y m. unfold len. destruct m as [|p|p]; try reflexivity.
  destruct p as [p|p|]; try reflexivity; destruct p as [p|p|]; try reflexivity.
Qed.

Definition zrange (k : nat) : list Z := map Z.of_nat (seq 0 k).
Lemma in_zrange : forall k z, 0 <= z < Z.of_nat k -> In z (zrange k).
Proof.
  intros k z H. unfold zrange. apply in_map_iff. exists (Z.to_nat z). split; [lia|]. apply in_seq. lia.
Qed.

Lemma month_step_ok : forall leap m d, 1 <= m <= 12 -> 1 <= d <= len leap m ->
  month_step leap (before leap m + d - 1) = (m, d).
Proof.
  assert (F : forallb (fun leap => forallb (fun m => forallb (fun d =>
      if (1 <=? m) && (1 <=? d) && (d <=? len leap m)
      then let '(m', d') := month_step leap (before leap m + d - 1) in (m =? m') && (d =? d')
      else true) (zrange 32)) (zrange 13)) [true; false] = true) by (vm_compute; reflexivity).
  intros leap m d Hm Hd. rewrite forallb_forall in F.
  assert (L : len leap m <= 31).
  { assert (C : m = 1 \/ m = 2 \/ m = 3 \/ m = 4 \/ m = 5 \/ m = 6 \/ m = 7 \/ m = 8 \/ m = 9
                \/ m = 10 \/ m = 11 \/ m = 12) by lia.
    repeat (destruct C as [->|C]); try subst m; destruct leap; ev; lia. }
  specialize (F leap). rewrite forallb_forall in F.
  assert (I : In leap [true; false]) by (destruct leap; cbn; tauto). specialize (F I m).
  rewrite forallb_forall in F. specialize (F ltac:(apply in_zrange; lia) d ltac:(apply in_zrange; lia)).
  replace ((1 <=? m) && (1 <=? d) && (d <=? len leap m)) with true in F
    by (symmetry; rewrite !andb_true_iff, !Z.leb_le; lia).
  destruct (month_step leap (before leap m + d - 1)) as [m' d']. apply andb_true_iff in F.
  destruct F as [F1 F2]. apply Z.eqb_eq in F1, F2. congruence.
Qed.

Lemma before_range : forall leap m d, 1 <= m <= 12 -> 1 <= d <= len leap m ->
  0 <= before leap m + d - 1 <= (if leap then 365 else 364).
Proof.
  intros leap m d Hm Hd.
  assert (C : m = 1 \/ m = 2 \/ m = 3 \/ m = 4 \/ m = 5 \/ m = 6 \/ m = 7 \/ m = 8 \/ m = 9
              \/ m = 10 \/ m = 11 \/ m = 12) by lia.
  repeat (destruct C as [->|C]); try subst m; destruct leap; ev; lia.
Qed.

Lemma last_of_year : forall leap m d, 1 <= m <= 12 -> 1 <= d <= len leap m ->
  before leap m + d - 1 = 365 -> m = 12 /\ d = 31.
Proof.
  intros leap m d Hm Hd H.
  assert (C : m = 1 \/ m = 2 \/ m = 3 \/ m = 4 \/ m = 5 \/ m = 6 \/ m = 7 \/ m = 8 \/ m = 9
              \/ m = 10 \/ m = 11 \/ m = 12) by lia.
  repeat (destruct C as [->|C]); try subst m; destruct leap; ev; lia.
Qed.

Lemma ord2ymd_parts : forall a b c e n, 0 <= b <= 3 -> 0 <= c <= 24 -> 0 <= e <= 3 ->
  let leap := (e =? 3) && (negb (c =? 24) || (b =? 3)) in
  0 <= n <= (if leap then 365 else 364) ->
  ord2ymd (146097 * a + 36524 * b + 1461 * c + 365 * e + n + 1)
  = if n =? 365 then (400 * a + 100 * b + 4 * c + e + 1, 12, 31)
    else let '(m, d) := month_step leap n in (400 * a + 100 * b + 4 * c + e + 1, m, d).
Proof.
  intros a b c e n Hb Hc He leap Hn. unfold ord2ymd.
  remember (146097 * a + 36524 * b + 1461 * c + 365 * e + n + 1 - 1) as N eqn:EN.
  remember (36524 * b + 1461 * c + 365 * e + n) as r eqn:Er.
  assert (Hr : 0 <= r < 146097).
  { subst leap. destruct (Z.eqb_spec e 3), (Z.eqb_spec c 24), (Z.eqb_spec b 3); cbn [andb orb negb] in Hn; lia. }
  assert (E1 : N / 146097 = a) by (symmetry; apply (Z.div_unique N 146097 a r); lia).
  assert (E2 : N mod 146097 = r) by (symmetry; apply (Z.mod_unique N 146097 a r); lia).
  rewrite E1, E2.
  destruct (Z.eqb_spec n 365) as [E|E].
  - assert (L : leap = true) by (destruct leap; [reflexivity|lia]). subst leap.
    apply andb_true_iff in L. destruct L as [L1 L2]. apply Z.eqb_eq in L1.
    apply orb_true_iff in L2. destruct (Z.eq_dec c 24) as [Ec|Ec].
    + (* last day of a 400 year cycle *)
      destruct L2 as [L2|L2]; [apply negb_true_iff, Z.eqb_neq in L2; contradiction|]. apply Z.eqb_eq in L2.
      assert (R : r = 146096) by lia. rewrite R.
      change (146096 / 36524) with 4. change (146096 mod 36524) with 0.
      change (0 / 1461) with 0. change (0 mod 1461) with 0. change (0 / 365) with 0.
      cbn [Z.eqb Pos.eqb orb]. f_equal; [f_equal; lia].
    + assert (E3 : r / 36524 = b) by (symmetry; apply (Z.div_unique r 36524 b (1461 * c + 365 * e + n)); lia).
      assert (E4 : r mod 36524 = 1461 * c + 365 * e + n) by (symmetry; apply (Z.mod_unique r 36524 b); lia).
      rewrite E3, E4.
      assert (E5 : (1461 * c + 365 * e + n) / 1461 = c) by (symmetry; apply (Z.div_unique _ 1461 c (365 * e + n)); lia).
      assert (E6 : (1461 * c + 365 * e + n) mod 1461 = 365 * e + n) by (symmetry; apply (Z.mod_unique _ 1461 c); lia).
      rewrite E5, E6. replace (365 * e + n) with 1460 by lia.
      change (1460 / 365) with 4. cbn [Z.eqb Pos.eqb orb]. f_equal; [f_equal; lia].
  - assert (Hn' : 0 <= n <= 364) by (destruct leap; lia).
    assert (E3 : r / 36524 = b) by (symmetry; apply (Z.div_unique r 36524 b (1461 * c + 365 * e + n)); lia).
    assert (E4 : r mod 36524 = 1461 * c + 365 * e + n) by (symmetry; apply (Z.mod_unique r 36524 b); lia).
    rewrite E3, E4.
    assert (E5 : (1461 * c + 365 * e + n) / 1461 = c) by (symmetry; apply (Z.div_unique _ 1461 c (365 * e + n)); lia).
    assert (E6 : (1461 * c + 365 * e + n) mod 1461 = 365 * e + n) by (symmetry; apply (Z.mod_unique _ 1461 c); lia).
    rewrite E5, E6.
    assert (E7 : (365 * e + n) / 365 = e) by (symmetry; apply (Z.div_unique _ 365 e n); lia).
    assert (E8 : (365 * e + n) mod 365 = n) by (symmetry; apply (Z.mod_unique _ 365 e); lia).
    rewrite E7, E8.
    replace ((e =? 4) || (b =? 4)) with false by (symmetry; apply orb_false_iff; split; apply Z.eqb_neq; lia).
    fold leap. replace (a * 400 + 1 + b * 100 + c * 4 + e) with (400 * a + 100 * b + 4 * c + e + 1) by lia.
    unfold month_step. cbv zeta.
    destruct (n <? days_before_month_tbl ((n + 50) / 32) + (if (2 <? (n + 50) / 32) && leap then 1 else 0)); reflexivity.
Qed.

Lemma ord2ymd_ymd2ord : forall y m d, 1 <= m <= 12 -> 1 <= d <= days_in_month y m ->
  ord2ymd (ymd2ord y m d) = (y, m, d).
Proof.
  intros y m d Hm Hd. destruct (year_parts y) as (a & b & c & e & Ey & Hb & Hc & He).
  rewrite len_days in Hd.
  assert (L := leap_parts a b c e Hb Hc He). rewrite <- Ey in L.
  unfold ymd2ord. rewrite Ey at 1. rewrite before_parts by assumption.
  unfold days_before_month. fold (before (is_leap y) m).
  assert (R := before_range (is_leap y) m d Hm Hd).
  replace (146097 * a + 36524 * b + 1461 * c + 365 * e + before (is_leap y) m + d)
    with (146097 * a + 36524 * b + 1461 * c + 365 * e + (before (is_leap y) m + d - 1) + 1) by lia.
  rewrite ord2ymd_parts; [|assumption|assumption|assumption|rewrite <- L; exact R].
  destruct (Z.eqb_spec (before (is_leap y) m + d - 1) 365) as [E|E].
  - destruct (last_of_year _ _ _ Hm Hd E) as [-> ->]. rewrite Ey. reflexivity.
  - rewrite <- L, (month_step_ok _ _ _ Hm Hd), Ey. reflexivity.
Qed.

(** ** The day after *)

Lemma days_in_month_range : forall y m, 1 <= m <= 12 -> 28 <= days_in_month y m <= 31.
Proof.
  intros y m Hm. rewrite len_days.
  assert (C : m = 1 \/ m = 2 \/ m = 3 \/ m = 4 \/ m = 5 \/ m = 6 \/ m = 7 \/ m = 8 \/ m = 9
              \/ m = 10 \/ m = 11 \/ m = 12) by lia.
  repeat (destruct C as [->|C]); try subst m; destruct (is_leap y); ev; lia.
Qed.

Lemma before_next : forall y m, 1 <= m < 12 ->
  days_before_month y (m + 1) = days_before_month y m + days_in_month y m.
Proof.
  intros y m Hm. unfold days_before_month. rewrite len_days.
  assert (C : m = 1 \/ m = 2 \/ m = 3 \/ m = 4 \/ m = 5 \/ m = 6 \/ m = 7 \/ m = 8 \/ m = 9
              \/ m = 10 \/ m = 11) by lia.
  repeat (destruct C as [->|C]); try subst m; destruct (is_leap y); reflexivity.
Qed.

Lemma before_next_year : forall y, days_before_year (y + 1) = days_before_year y + 365 + (if is_leap y then 1 else 0).
Proof.
  intro y. destruct (year_parts y) as (a & b & c & e & Ey & Hb & Hc & He).
  rewrite Ey, leap_parts by assumption. rewrite before_parts by assumption.
  unfold days_before_year.
  destruct (Z.eqb_spec e 3), (Z.eqb_spec c 24), (Z.eqb_spec b 3); cbn [andb orb negb]; lia.
Qed.

Lemma day_after_ord : forall y m d y' m' d', day_after (y, m, d) (y', m', d') ->
  1 <= d <= days_in_month y m ->
  ymd2ord y' m' d' = ymd2ord y m d + 1 /\ 1 <= m <= 12 /\ 1 <= m' <= 12 /\ 1 <= d' <= days_in_month y' m'.
Proof.
  intros y m d y' m' d' H Hd. unfold ymd2ord.
  inversion H as [y0 m0 d0 n L Hn|y0 m0 d0 L Hm|y0]; subst.
  - apply month_length_spec in L. destruct L as [L ->]. repeat split; lia.
  - apply month_length_spec in L. destruct L as [L E]. rewrite before_next by lia.
    assert (R := days_in_month_range y' (m + 1) ltac:(lia)). lia.
  - rewrite before_next_year. unfold days_before_month. cbn [days_before_month_tbl Z.ltb Z.compare Pos.compare Pos.compare_cont andb].
    cbn [days_in_month] in *. destruct (is_leap y); lia.
Qed.

(** A day after exists. *)
Definition tomorrow (x : Z * Z * Z) : Z * Z * Z :=
  let '(y, m, d) := x in
  if d <? days_in_month y m then (y, m, d + 1)
  else if m <? 12 then (y, m + 1, 1) else (y + 1, 1, 1).

Lemma tomorrow_ok : forall y m d, 1 <= m <= 12 -> 1 <= d <= days_in_month y m ->
  day_after (y, m, d) (tomorrow (y, m, d)).
Proof.
  intros y m d Hm Hd. unfold tomorrow. destruct (Z.ltb_spec d (days_in_month y m)) as [L|L].
  - apply (InMonth y m d (days_in_month y m)); [|exact L]. apply month_length_spec. auto.
  - destruct (Z.ltb_spec m 12) as [L'|L'].
    + apply NextMonth; [|exact L']. apply month_length_spec. split; lia.
    + assert (m = 12) by lia. subst m. cbn [days_in_month] in *. assert (d = 31) by lia. subst d. apply NextYear.
Qed.

Lemma day_after_fun : forall a b, day_after a b -> b = tomorrow a.
Proof.
  intros a b H. destruct H as [y m d n L Hn|y m d L Hm|y]; unfold tomorrow.
  - apply month_length_spec in L. destruct L as [L ->]. apply Z.ltb_lt in Hn. rewrite Hn. reflexivity.
  - apply month_length_spec in L. destruct L as [L E]. rewrite <- E, Z.ltb_irrefl.
    apply Z.ltb_lt in Hm. rewrite Hm. reflexivity.
  - reflexivity.
Qed.

(** ** Adding minutes *)

Lemma real_date_range : forall y m d, real_date y m d ->
  1 <= y <= 9999 /\ 1 <= m <= 12 /\ 1 <= d <= days_in_month y m.
Proof.
  intros y m d [Hy (n & L & Hd)]. apply month_length_spec in L. destruct L as [L ->]. auto.
Qed.

Lemma real_date_intro : forall y m d, 1 <= y <= 9999 -> 1 <= m <= 12 -> 1 <= d <= days_in_month y m ->
  real_date y m d.
Proof.
  intros y m d Hy Hm Hd. split; [exact Hy|]. exists (days_in_month y m). split; [|exact Hd].
  apply month_length_spec. auto.
Qed.

Lemma days_before_month_range : forall y m d, 1 <= m <= 12 -> 1 <= d <= days_in_month y m ->
  1 <= days_before_month y m + d <= (if is_leap y then 366 else 365).
Proof.
  intros y m d Hm Hd. rewrite len_days in Hd. assert (R := before_range (is_leap y) m d Hm Hd).
  unfold days_before_month. unfold before in R. destruct (is_leap y); lia.
Qed.

Lemma ymd2ord_range : forall y m d, real_date y m d -> 1 <= ymd2ord y m d <= max_ordinal.
Proof.
  intros y m d H. apply real_date_range in H. destruct H as (Hy & Hm & Hd).
  assert (R := days_before_month_range y m d Hm Hd). unfold ymd2ord, max_ordinal.
  destruct (Z.eq_dec y 9999) as [->|N].
  - change (days_before_year 9999) with 3651694. change (is_leap 9999) with false in R. cbv iota in R. lia.
  - unfold days_before_year. destruct (is_leap y); lia.
Qed.

Lemma ord_range_year : forall y m d, 1 <= m <= 12 -> 1 <= d <= days_in_month y m ->
  1 <= ymd2ord y m d <= max_ordinal -> 1 <= y <= 9999.
Proof.
  intros y m d Hm Hd. assert (R := days_before_month_range y m d Hm Hd). unfold ymd2ord, max_ordinal.
  intro H. assert (1 <= y) by (unfold days_before_year in H; destruct (is_leap y); lia).
  destruct (Z_le_gt_dec y 9999) as [L|G]; [lia|]. exfalso.
  assert (M : days_before_year 10000 <= days_before_year y) by (unfold days_before_year; lia).
  change (days_before_year 10000) with 3652059 in M. lia.
Qed.

(** [dt_add_minutes] gives the moment with the right count of minutes. *)
Lemma dt_add_minutes_ok : forall t z u, real_time u -> dt_minutes u = dt_minutes t + z ->
  dt_add_minutes t z = Ok u.
Proof.
  intros t z u (Hd & Hh & Hm) E. unfold dt_add_minutes. rewrite <- E. unfold dt_minutes.
  set (o := ymd2ord (dt_year u) (dt_month u) (dt_day u)) in *.
  assert (R := ymd2ord_range _ _ _ Hd). fold o in R.
  assert (E1 : (o * 1440 + dt_hour u * 60 + dt_minute u) / 1440 = o)
    by (symmetry; apply (Z.div_unique _ 1440 o (dt_hour u * 60 + dt_minute u)); lia).
  assert (E2 : (o * 1440 + dt_hour u * 60 + dt_minute u) mod 1440 = dt_hour u * 60 + dt_minute u)
    by (symmetry; apply (Z.mod_unique _ 1440 o); lia).
  rewrite E1, E2. replace ((1 <=? o) && (o <=? max_ordinal)) with true
    by (symmetry; apply andb_true_iff; rewrite !Z.leb_le; exact R).
  apply real_date_range in Hd. destruct Hd as (Hy & Hmo & Hd). unfold o.
  rewrite ord2ymd_ymd2ord by assumption. f_equal. destruct u as [y m d h mi]. cbn [dt_year dt_month dt_day dt_hour dt_minute] in *.
  f_equal; lia.
Qed.

Lemma dt_add_minutes_over : forall t z,
  ~ 1440 <= dt_minutes t + z < (max_ordinal + 1) * 1440 -> dt_add_minutes t z = Raise OverflowError.
Proof.
  intros t z H. unfold dt_add_minutes. cbv zeta.
  replace ((1 <=? (dt_minutes t + z) / 1440) && ((dt_minutes t + z) / 1440 <=? max_ordinal)) with false; [reflexivity|].
  symmetry. apply andb_false_iff. rewrite !Z.leb_gt. unfold max_ordinal in *. lia.
Qed.

Lemma minute_after_count : forall t u, minute_after t u -> real_date (dt_year t) (dt_month t) (dt_day t) ->
  dt_minutes u = dt_minutes t + 1.
Proof.
  intros t u H R. unfold dt_minutes. destruct H as [y m d h mi L|y m d h L|y m d y' m' d' D];
    cbn [dt_year dt_month dt_day dt_hour dt_minute] in *; try lia.
  apply real_date_range in R. destruct R as (Hy & Hm & Hd).
  destruct (day_after_ord _ _ _ _ _ _ D Hd) as [-> _]. lia.
Qed.

Lemma day_after_real : forall y m d y' m' d', day_after (y, m, d) (y', m', d') -> real_date y m d ->
  y' <= 9999 -> real_date y' m' d'.
Proof.
  intros y m d y' m' d' H R Hy'. apply real_date_range in R. destruct R as (Hy & Hm & Hd).
  destruct (day_after_ord _ _ _ _ _ _ H Hd) as (_ & _ & Hm' & Hd').
  apply real_date_intro; [|assumption|assumption].
  inversion H; subst; lia.
Qed.

Lemma day_after_mono : forall y m d y' m' d', day_after (y, m, d) (y', m', d') -> y <= y' <= y + 1.
Proof. intros y m d y' m' d' H. inversion H; subst; lia. Qed.

Lemma minute_after_real : forall t u, minute_after t u -> real_time t -> dt_year u <= 9999 -> real_time u.
Proof.
  intros t u H (Rd & Rh & Rm) Hy. destruct H as [y m d h mi L|y m d h L|y m d y' m' d' D];
    unfold real_time; cbn [dt_year dt_month dt_day dt_hour dt_minute] in *; repeat split; try lia; try apply Rd.
  - apply (day_after_real _ _ _ _ _ _ D Rd Hy).
  - apply (day_after_real _ _ _ _ _ _ D Rd Hy).
Qed.

Lemma minute_after_mono : forall t u, minute_after t u -> dt_year t <= dt_year u.
Proof.
  intros t u H. destruct H as [y m d h mi L|y m d h L|y m d y' m' d' D]; cbn; try lia.
  apply day_after_mono in D. lia.
Qed.

Lemma minutes_later_mono : forall k t u, minutes_later k t u -> dt_year t <= dt_year u.
Proof.
  induction k as [|k IH]; intros t u H; inversion H as [|k' a b c R S]; subst; [lia|].
  apply minute_after_mono in R. apply IH in S. lia.
Qed.

Lemma minutes_later_count : forall k t u, minutes_later k t u -> real_time t -> dt_year u <= 9999 ->
  dt_minutes u = dt_minutes t + Z.of_nat k /\ real_time u.
Proof.
  induction k as [|k IH]; intros t u H R Hy; inversion H as [|k' a b c Q S]; subst.
  - split; [lia|exact R].
  - assert (M := minutes_later_mono _ _ _ S).
    assert (Rb := minute_after_real _ _ Q R ltac:(lia)).
    destruct (IH _ _ S Rb Hy) as [-> Ru]. rewrite (minute_after_count _ _ Q (proj1 R)). split; [lia|exact Ru].
Qed.

Lemma dt_add_minutes_later : forall k t u, minutes_later k t u -> real_time t -> dt_year u <= 9999 ->
  dt_add_minutes t (Z.of_nat k) = Ok u.
Proof.
  intros k t u H R Hy. destruct (minutes_later_count _ _ _ H R Hy) as [E Ru]. apply dt_add_minutes_ok; assumption.
Qed.

(** Counts determine the moment. *)
Lemma dt_minutes_inj : forall t u, real_time t -> real_time u -> dt_minutes t = dt_minutes u -> t = u.
Proof.
  intros t u Ht Hu E.
  assert (A := dt_add_minutes_ok t 0 t Ht ltac:(lia)).
  assert (B := dt_add_minutes_ok t 0 u Hu ltac:(lia)). congruence.
Qed.

(** ** Days *)

Definition at_date (x : Z * Z * Z) (h mi : Z) : datetime := let '(y, m, d) := x in mk_dt y m d h mi.

Lemma dt_add_day : forall y m d h mi, real_date y m d -> 0 <= h < 24 -> 0 <= mi < 60 ->
  dt_add_days (mk_dt y m d h mi) 1
  = if (dt_year (at_date (tomorrow (y, m, d)) h mi) <=? 9999) then Ok (at_date (tomorrow (y, m, d)) h mi)
    else Raise OverflowError.
Proof.
  intros y m d h mi R Hh Hm. assert (R' := real_date_range _ _ _ R). destruct R' as (Hy & Hmo & Hd).
  assert (T := tomorrow_ok y m d Hmo Hd). destruct (tomorrow (y, m, d)) as [[y' m'] d'] eqn:E.
  cbn [at_date dt_year]. destruct (day_after_ord _ _ _ _ _ _ T Hd) as (O & _ & Hm' & Hd').
  unfold dt_add_days. destruct (Z.leb_spec y' 9999) as [L|G].
  - apply dt_add_minutes_ok.
    + split; [cbn; apply (day_after_real _ _ _ _ _ _ T R L)|cbn; lia].
    + unfold dt_minutes. cbn [dt_year dt_month dt_day dt_hour dt_minute]. lia.
  - apply dt_add_minutes_over. unfold dt_minutes. cbn [dt_year dt_month dt_day dt_hour dt_minute].
    assert (Ey : y' = 10000) by (apply day_after_mono in T; lia).
    inversion T; subst; try lia.
    assert (y = 9999) by lia. subst y. change (ymd2ord 9999 12 31) with 3652059. unfold max_ordinal. lia.
Qed.

(** A date [k] days later, when day numbers stay inside months. *)
Fixpoint days_on (k : nat) (x : Z * Z * Z) : Z * Z * Z :=
  match k with O => x | S k' => days_on k' (tomorrow x) end.

Definition date_ok (x : Z * Z * Z) : Prop :=
  let '(y, m, d) := x in 1 <= m <= 12 /\ 1 <= d <= days_in_month y m.

Lemma tomorrow_date_ok : forall x, date_ok x -> date_ok (tomorrow x).
Proof.
  intros [[y m] d] [Hm Hd]. assert (T := tomorrow_ok y m d Hm Hd).
  destruct (tomorrow (y, m, d)) as [[y' m'] d']. destruct (day_after_ord _ _ _ _ _ _ T Hd) as (_ & _ & A & B).
  split; assumption.
Qed.

Lemma days_later_on : forall k x y, date_ok x -> (days_later k x y <-> y = days_on k x).
Proof.
  induction k as [|k IH]; intros x y Hx; split.
  - intro H. inversion H; subst. reflexivity.
  - intros ->. constructor.
  - intro H. inversion H as [|k' a b c R S]; subst. apply day_after_fun in R. subst b.
    apply IH in S; [exact S|apply tomorrow_date_ok; exact Hx].
  - intros ->. cbn [days_on]. apply (Succ _ k x (tomorrow x)).
    + destruct x as [[y' m'] d']. apply tomorrow_ok; apply Hx.
    + apply IH; [apply tomorrow_date_ok; exact Hx|reflexivity].
Qed.

Lemma days_on_in_month : forall k y m d, d + Z.of_nat k <= days_in_month y m ->
  days_on k (y, m, d) = (y, m, d + Z.of_nat k).
Proof.
  induction k as [|k IH]; intros y m d H; cbn [days_on].
  - f_equal. lia.
  - unfold tomorrow. replace (d <? days_in_month y m) with true by (symmetry; apply Z.ltb_lt; lia).
    rewrite IH by lia. f_equal. lia.
Qed.

Lemma days_on_add : forall j k x, days_on (j + k) x = days_on k (days_on j x).
Proof. induction j as [|j IH]; intros k x; [reflexivity|]. cbn [Nat.add days_on]. apply IH. Qed.

Definition next_month (y m : Z) : Z * Z := if m <? 12 then (y, m + 1) else (y + 1, 1).

Lemma days_on_next_month : forall y m d, 1 <= m <= 12 -> 1 <= d <= days_in_month y m ->
  days_on (Z.to_nat (days_in_month y m - d + 1)) (y, m, d) = (fst (next_month y m), snd (next_month y m), 1).
Proof.
  intros y m d Hm Hd.
  replace (Z.to_nat (days_in_month y m - d + 1)) with (Z.to_nat (days_in_month y m - d) + 1)%nat by lia.
  rewrite days_on_add, days_on_in_month by lia. cbn [days_on]. unfold tomorrow, next_month.
  replace (d + Z.of_nat (Z.to_nat (days_in_month y m - d))) with (days_in_month y m) by lia.
  rewrite Z.ltb_irrefl. destruct (m <? 12); reflexivity.
Qed.

(** Every day number from 1 to 31 comes again within 61 days. *)
Lemma day_comes : forall x day, date_ok x -> 1 <= day <= 31 ->
  exists k, (k <= 61)%nat /\ snd (days_on k x) = day.
Proof.
  intros [[y m] d] day [Hm Hd] Hday.
  destruct (Z_le_gt_dec d day) as [L|G].
  - destruct (Z_le_gt_dec day (days_in_month y m)) as [L2|G2].
    + exists (Z.to_nat (day - d)). split; [lia|]. rewrite days_on_in_month by lia. cbn [snd]. lia.
    + (* a short month: the next one has 31 days *)
      assert (N : 31 <= days_in_month (fst (next_month y m)) (snd (next_month y m))).
      { assert (C : m = 1 \/ m = 2 \/ m = 3 \/ m = 4 \/ m = 5 \/ m = 6 \/ m = 7 \/ m = 8 \/ m = 9
                    \/ m = 10 \/ m = 11 \/ m = 12) by lia.
        repeat (destruct C as [->|C]); try subst m; unfold next_month;
          cbn [Z.ltb Z.compare Pos.compare Pos.compare_cont fst snd Z.add Pos.add Pos.succ days_in_month] in *;
          lia. }
      exists (Z.to_nat (days_in_month y m - d + 1) + Z.to_nat (day - 1))%nat.
      split; [lia|]. rewrite days_on_add, days_on_next_month by assumption.
      rewrite days_on_in_month by lia. cbn [snd]. lia.
  - destruct (Z_le_gt_dec day (days_in_month (fst (next_month y m)) (snd (next_month y m)))) as [L2|G2].
    + assert (R := days_in_month_range y m Hm).
      exists (Z.to_nat (days_in_month y m - d + 1) + Z.to_nat (day - 1))%nat.
      split; [lia|]. rewrite days_on_add, days_on_next_month by assumption.
      rewrite days_on_in_month by lia. cbn [snd]. lia.
    + (* the end of January, looking for a day February lacks *)
      assert (R := days_in_month_range y m Hm).
      assert (N : next_month y m = (y, 2)).
      { assert (C : m = 1 \/ m = 2 \/ m = 3 \/ m = 4 \/ m = 5 \/ m = 6 \/ m = 7 \/ m = 8 \/ m = 9
                    \/ m = 10 \/ m = 11 \/ m = 12) by lia.
        repeat (destruct C as [->|C]); try subst m; try reflexivity;
          exfalso; unfold next_month in G2; cbn [Z.ltb Z.compare Pos.compare Pos.compare_cont fst snd Z.add Pos.add Pos.succ days_in_month] in *;
          try destruct (is_leap y); lia. }
      rewrite N in G2. cbn [fst snd] in G2.
      assert (R2 := days_in_month_range y 2 ltac:(lia)).
      exists (Z.to_nat (days_in_month y m - d + 1) + (Z.to_nat (days_in_month y 2 - 1 + 1) + Z.to_nat (day - 1)))%nat.
      split; [cbn [days_in_month] in *; destruct (is_leap y); lia|]. rewrite days_on_add, days_on_next_month by assumption.
      rewrite N. cbn [fst snd]. rewrite days_on_add, days_on_next_month by lia.
      change (next_month y 2) with (y, 3). cbn [fst snd].
      rewrite days_on_in_month by (cbn [days_in_month]; lia). cbn [snd]. lia.
Qed.

(** ** Steps *)

Lemma steps_split : forall A (R : A -> A -> Prop) j k a c, steps R (j + k) a c ->
  exists b, steps R j a b /\ steps R k b c.
Proof.
  intros A R j. induction j as [|j IH]; intros k a c H.
  - exists a. split; [constructor|exact H].
  - inversion H as [|n a' b c' Q S]; subst. destruct (IH _ _ _ S) as (x & S1 & S2).
    exists x. split; [|exact S2]. exact (Succ R j a b x Q S1).
Qed.

Lemma steps_fun : forall A (R : A -> A -> Prop), (forall a b c, R a b -> R a c -> b = c) ->
  forall k a b c, steps R k a b -> steps R k a c -> b = c.
Proof.
  intros A R F k. induction k as [|k IH]; intros a b c H1 H2; inversion H1; inversion H2; subst; [congruence|].
  match goal with Q1 : R a ?x, Q2 : R a ?y |- _ => assert (x = y) by exact (F _ _ _ Q1 Q2); subst x end.
  eapply IH; eassumption.
Qed.

Lemma minute_after_fun : forall a b c, minute_after a b -> minute_after a c -> b = c.
Proof.
  intros a b c H1 H2. destruct H1 as [y m d h mi L|y m d h L|y m d y' m' d' D]; inversion H2; subst; try lia; try reflexivity.
  match goal with D2 : day_after _ _ |- _ => apply day_after_fun in D, D2; rewrite <- D in D2; injection D2 as -> -> -> end.
  reflexivity.
Qed.

(** A moment inside a stretch that stays in the calendar. *)
Lemma between : forall n k t e u, real_time t -> minutes_later n t e -> dt_year e <= 9999 ->
  (k <= n)%nat -> minutes_later k t u -> real_time u /\ dt_minutes u = dt_minutes t + Z.of_nat k.
Proof.
  intros n k t e u R He Hy Hk Hu. replace n with (k + (n - k))%nat in He by lia.
  destruct (steps_split _ _ _ _ _ _ He) as (b & S1 & S2).
  assert (b = u) by exact (steps_fun _ _ minute_after_fun _ _ _ _ S1 Hu). subst b.
  assert (M := minutes_later_mono _ _ _ S2).
  destruct (minutes_later_count _ _ _ Hu R ltac:(lia)) as [A B]. auto.
Qed.

Lemma minute_of_day : forall t, real_time t -> dt_minutes t mod 1440 = dt_hour t * 60 + dt_minute t.
Proof.
  intros t (_ & Hh & Hm). unfold dt_minutes. symmetry.
  apply (Z.mod_unique _ 1440 (ymd2ord (dt_year t) (dt_month t) (dt_day t))); lia.
Qed.

(** ** Rolling to a day of the month *)

Lemma least : forall (P : nat -> bool) k, P k = true ->
  exists j, (j <= k)%nat /\ P j = true /\ forall i, (i < j)%nat -> P i = false.
Proof.
  intros P k. induction k as [k IH] using lt_wf_ind. intro H.
  destruct (existsb P (seq 0 k)) eqn:E.
  - apply existsb_exists in E. destruct E as (i & Hi & Pi). apply in_seq in Hi.
    destruct (IH i ltac:(lia) Pi) as (j & Hj & Pj & Hm). exists j. repeat split; auto. lia.
  - exists k. repeat split; auto. intros i Hi. destruct (P i) eqn:Pi; [|reflexivity].
    assert (X : existsb P (seq 0 k) = true) by (apply existsb_exists; exists i; split; [apply in_seq; lia|exact Pi]).
    congruence.
Qed.

Lemma first_with_day_exists : forall x day, date_ok x -> 1 <= day <= 31 ->
  exists k, (k <= 61)%nat /\ snd (days_on k x) = day /\ forall j, (j < k)%nat -> snd (days_on j x) <> day.
Proof.
  intros x day Hx Hd. destruct (day_comes x day Hx Hd) as (k & Hk & E).
  destruct (least (fun j => snd (days_on j x) =? day) k) as (j & Hj & Pj & Hm); [apply Z.eqb_eq; exact E|].
  exists j. split; [lia|]. apply Z.eqb_eq in Pj. split; [exact Pj|].
  intros i Hi. apply Z.eqb_neq. apply Hm. exact Hi.
Qed.

Lemma first_with_day_on : forall x day k, date_ok x -> snd (days_on k x) = day ->
  (forall j, (j < k)%nat -> snd (days_on j x) <> day) -> first_with_day x day (days_on k x).
Proof.
  intros x day k Hx E Hm. exists k. split; [apply days_later_on; auto|]. split; [exact E|].
  intros j c Hj Hc. apply days_later_on in Hc; [|exact Hx]. subst c. apply Hm. exact Hj.
Qed.

Lemma first_with_day_fun : forall x day a b, date_ok x -> first_with_day x day a -> first_with_day x day b -> a = b.
Proof.
  intros x day a b Hx (j & Ha & Ea & Ma) (k & Hb & Eb & Mb).
  assert (C : (j < k \/ k < j \/ j = k)%nat) by lia. destruct C as [C|[C|C]].
  - exfalso. exact (Mb j a C Ha Ea).
  - exfalso. exact (Ma k b C Hb Eb).
  - subst k. apply days_later_on in Ha, Hb; auto. congruence.
Qed.

Definition year_of (x : Z * Z * Z) : Z := fst (fst x).

Lemma year_mono : forall k x, date_ok x -> year_of x <= year_of (days_on k x).
Proof.
  induction k as [|k IH]; intros x Hx; [cbn; lia|]. cbn [days_on].
  assert (I := IH _ (tomorrow_date_ok _ Hx)).
  destruct x as [[y m] d]. assert (T := tomorrow_ok y m d (proj1 Hx) (proj2 Hx)).
  destruct (tomorrow (y, m, d)) as [[y' m'] d']. apply day_after_mono in T. unfold year_of in *. cbn [fst] in *. lia.
Qed.

(** The minute after, computed. *)
Definition next_minute (t : datetime) : datetime :=
  if dt_minute t <? 59 then mk_dt (dt_year t) (dt_month t) (dt_day t) (dt_hour t) (dt_minute t + 1)
  else if dt_hour t <? 23 then mk_dt (dt_year t) (dt_month t) (dt_day t) (dt_hour t + 1) 0
  else at_date (tomorrow (date_of t)) 0 0.

Fixpoint minutes_on (k : nat) (t : datetime) : datetime :=
  match k with O => t | S k' => minutes_on k' (next_minute t) end.

Definition clock_ok (t : datetime) : Prop :=
  date_ok (date_of t) /\ 0 <= dt_hour t < 24 /\ 0 <= dt_minute t < 60.

Lemma next_minute_ok : forall t, clock_ok t -> minute_after t (next_minute t) /\ clock_ok (next_minute t).
Proof.
  intros [y m d h mi] (Hd & Hh & Hm). unfold next_minute, clock_ok, date_of in *.
  cbn [dt_year dt_month dt_day dt_hour dt_minute] in *.
  destruct (Z.ltb_spec mi 59) as [L|L].
  - split; [apply SameHour; exact L|]. cbn [dt_year dt_month dt_day dt_hour dt_minute]. repeat split; try apply Hd; lia.
  - assert (mi = 59) by lia. subst mi. destruct (Z.ltb_spec h 23) as [L2|L2].
    + split; [apply NextHour; exact L2|]. cbn [dt_year dt_month dt_day dt_hour dt_minute]. repeat split; try apply Hd; lia.
    + assert (h = 23) by lia. subst h. assert (T := tomorrow_ok y m d (proj1 Hd) (proj2 Hd)).
      assert (O := tomorrow_date_ok _ Hd). destruct (tomorrow (y, m, d)) as [[y' m'] d'].
      split; [apply NextDay; exact T|]. cbn. repeat split; try apply O; lia.
Qed.

Lemma minutes_later_on : forall k t, clock_ok t -> minutes_later k t (minutes_on k t).
Proof.
  induction k as [|k IH]; intros t H; [constructor|]. destruct (next_minute_ok t H) as [A B].
  cbn [minutes_on]. exact (Succ _ k t _ _ A (IH _ B)).
Qed.

Lemma real_clock_ok : forall t, real_time t -> clock_ok t.
Proof.
  intros t (R & Hh & Hm). apply real_date_range in R. unfold clock_ok, date_of, date_ok. tauto.
Qed.

Lemma later_valid : forall k t u, valid_dt t = true -> minutes_on k t = u -> minutes_later k t u.
Proof.
  intros k t u V <-. apply minutes_later_on. apply real_clock_ok. apply valid_dt_spec. exact V.
Qed.

Lemma first_valid : forall k y m d day b, valid_date y m d = true -> days_on k (y, m, d) = b -> snd b = day ->
  forallb (fun j => negb (snd (days_on j (y, m, d)) =? day)) (seq 0 k) = true ->
  first_with_day (y, m, d) day b.
Proof.
  intros k y m d day b V E Hb F. apply valid_date_spec, real_date_range in V. destruct V as (_ & V).
  rewrite <- E. apply first_with_day_on; [exact V|congruence|].
  intros j Hj. rewrite forallb_forall in F. assert (I : In j (seq 0 k)) by (apply in_seq; lia).
  apply F in I. apply negb_true_iff, Z.eqb_neq in I. exact I.
Qed.

Lemma days_valid : forall k y m d b, valid_date y m d = true -> days_on k (y, m, d) = b ->
  days_later k (y, m, d) b.
Proof.
  intros k y m d b V E. apply valid_date_spec, real_date_range in V. destruct V as (_ & V).
  apply days_later_on; [exact V|congruence].
Qed.
