(** * The changes of a well-formed TAF *)
From Coq Require Import String Ascii.
From Coq Require Import List NArith ZArith Bool Lia.
From Verif Require Import PyBase PyRegex AeroRegex PyFloat PyTime Utils Base MetarGroups Trend Metar Taf SpecNum SpecGroups SpecTime
  SpecText SpecTaf SpecWords SpecMetar SpecTafReport TimeFacts StrFacts ProofTime ProofTaf ProofWx ProofValues ProofTafBody ProofTafChange ProofWords.
Import ListNotations.
Local Open Scope string_scope.
Local Open Scope nat_scope.
Local Open Scope list_scope.

(** ** One hour before *)

Lemma steps_app : forall A (R : A -> A -> Prop) j k a b c, steps R j a b -> steps R k b c -> steps R (j + k) a c.
Proof.
  intros A R j. induction j as [|j IH]; intros k a b c H1 H2; inversion H1 as [|j1 a1 b1 c1 D S]; subst; [exact H2|].
  cbn [Nat.add]. apply (Succ _ _ _ b1); [exact D|]. exact (IH _ _ _ _ S H2).
Qed.

Lemma minutes_within : forall k y m d h mi, (mi + Z.of_nat k <= 59)%Z ->
  minutes_later k (mk_dt y m d h mi) (mk_dt y m d h (mi + Z.of_nat k)).
Proof.
  induction k as [|k IH]; intros y m d h mi H.
  - replace (mi + Z.of_nat 0)%Z with mi by lia. constructor.
  - apply (Succ _ _ _ (mk_dt y m d h (mi + 1))).
    + constructor. lia.
    + replace (mi + Z.of_nat (S k))%Z with (mi + 1 + Z.of_nat k)%Z by lia. apply IH. lia.
Qed.

Lemma hour_passes : forall y m d h mi y' m' d' h', (0 <= mi < 60)%Z ->
  minute_after (mk_dt y m d h 59) (mk_dt y' m' d' h' 0) -> minutes_later 60 (mk_dt y m d h mi) (mk_dt y' m' d' h' mi).
Proof.
  intros y m d h mi y' m' d' h' Hm D.
  replace 60 with (Z.to_nat (59 - mi) + (1 + Z.to_nat mi)) by lia.
  apply (steps_app _ _ _ _ _ (mk_dt y m d h 59)).
  - pose proof (minutes_within (Z.to_nat (59 - mi)) y m d h mi) as K.
    replace (mi + Z.of_nat (Z.to_nat (59 - mi)))%Z with 59%Z in K by lia. apply K. lia.
  - apply (Succ _ _ _ (mk_dt y' m' d' h' 0)); [exact D|].
    pose proof (minutes_within (Z.to_nat mi) y' m' d' h' 0) as K.
    replace (0 + Z.of_nat (Z.to_nat mi))%Z with mi in K by lia. apply K. lia.
Qed.

Lemma day_before : forall y m d, real_date y m d -> (2 <= y)%Z -> exists a, real a /\ day_after a (y, m, d).
Proof.
  intros y m d R Hy. apply real_date_range in R. destruct R as (R1 & R2 & R3).
  destruct (Z.eq_dec d 1) as [->|Nd]; [destruct (Z.eq_dec m 1) as [->|Nm]|].
  - exists (y - 1, 12, 31)%Z. split; [apply real_date_intro; [lia|lia|vm_compute; split; discriminate]|].
    replace y with (y - 1 + 1)%Z at 2 by lia. constructor.
  - exists (y, m - 1, days_in_month y (m - 1))%Z. pose proof (days_in_month_range y (m - 1)) as K. split.
    + apply real_date_intro; lia.
    + replace m with (m - 1 + 1)%Z at 3 by lia. apply NextMonth; [|lia]. apply month_length_spec. split; [lia|reflexivity].
  - exists (y, m, d - 1)%Z. split; [apply real_date_intro; lia|].
    replace d with (d - 1 + 1)%Z at 2 by lia. apply (InMonth y m (d - 1) (days_in_month y m)); [|lia].
    apply month_length_spec. split; [lia|reflexivity].
Qed.

Lemma hour_before : forall t, real_time t -> (2 <= dt_year t)%Z -> exists u, real_time u /\ minutes_later 60 u t.
Proof.
  intros [y m d h mi] (R & Hh & Hm) Hy. cbn [dt_year dt_month dt_day dt_hour dt_minute] in *.
  destruct (Z.eq_dec h 0) as [->|Nh].
  - destruct (day_before y m d R Hy) as ([[y0 m0] d0] & R0 & D0). exists (mk_dt y0 m0 d0 23 mi). split.
    + split; [exact R0|]. cbn [dt_hour dt_minute]. lia.
    + apply hour_passes; [exact Hm|]. constructor. exact D0.
  - exists (mk_dt y m d (h - 1) mi). split.
    + split; [exact R|]. cbn [dt_hour dt_minute]. lia.
    + apply hour_passes; [exact Hm|]. replace h with (h - 1 + 1)%Z at 2 by lia. constructor. lia.
Qed.

(** ** The indicator tells the kind of change *)

Lemma begins_no : forall w c, starts_with (py w) c = false -> ~ begins w (Some c).
Proof. intros w c H K. apply begins_iff in K. congruence. Qed.

Lemma ind_kinds : forall s g c, change_is s g c ->
  ind_code c <> None
  /\ (passing c <-> lasting g = false) /\ (is_from c <-> is_fm g)
  /\ (begins "FM" (cf_code c) \/ begins "BECMG" (cf_code c) <-> lasting g = true).
Proof.
  intros s g c (H1 & _ & H2 & _). unfold passing, is_from, ind_code, is_fm, lasting. rewrite H1.
  unfold change_text, change_toks. destruct (h_ind g) as [d h mi|k p]; cbn [ind_is ind_toks] in *; destruct H2 as [H2 _]; rewrite H2.
  - assert (E : exists r, sentence (flat_map ct_words ([Plain (fm_code d h mi)] ++ map Plain (flat_map m_words (wx_toks (h_wx g)))))
                = py "FM" ++ r).
    { cbn [app flat_map ct_words]. unfold fm_code. rewrite sentence_tails, <- app_assoc. eexists. reflexivity. }
    destruct E as (r & ->).
    assert (N1 : starts_with (py "PROB") (fm_code d h mi) = false) by reflexivity.
    assert (N2 : starts_with (py "TEMPO") (fm_code d h mi) = false) by reflexivity.
    apply begins_no in N1, N2. conjs.
    + discriminate.
    + split; [tauto|discriminate].
    + split; [auto|]. intros _. eexists. reflexivity.
    + split; [auto|]. intros _. left. eexists. reflexivity.
  - assert (E : exists r, sentence (flat_map ct_words ([kind_tok k; Plain (span_code p)] ++ map Plain (flat_map m_words (wx_toks (h_wx g)))))
                = sentence (ct_words (kind_tok k)) ++ r).
    { destruct k as [| |n|n]; cbn [kind_tok app flat_map ct_words]; rewrite sentence_tails; try (eexists; reflexivity).
      change (tails (py "TEMPO" :: ?l)) with (32%N :: py "TEMPO" ++ tails l). 
      exists (tails (span_code p :: flat_map ct_words (map Plain (flat_map m_words (wx_toks (h_wx g)))))).
      destruct n; reflexivity. }
    destruct E as (r & ->).
    assert (E2 : sentence (ct_words (kind_tok k) ++ [span_code p]) = sentence (ct_words (kind_tok k)) ++ 32%N :: span_code p)
      by (destruct k as [| |[|]|[|]]; reflexivity).
    rewrite E2. set (q := 32%N :: span_code p). clearbody q. clear.
    conjs; [discriminate| | |]; destruct k as [| |[|]|[|]]; split; intro K;
      first [discriminate K|reflexivity|destruct K; fail
            |left; eexists; reflexivity|right; eexists; reflexivity
            |exfalso; revert K; try (intros [K|K]; revert K); apply begins_no; reflexivity].
Qed.

(** ** Chaining *)

Lemma next_start_app : forall gs cs g c, length gs = length cs ->
  next_start (gs ++ [g]) (cs ++ [c])
  = match next_start gs cs with Some n => Some n | None => if lasting g then Some (starts_at c) else None end.
Proof.
  induction gs as [|g0 gs IH]; intros [|c0 cs] g c L; try discriminate L; [reflexivity|].
  cbn [app next_start]. destruct (lasting g0); [reflexivity|]. apply IH. injection L as L. exact L.
Qed.

Lemma changes_length : forall s u gs cs, changes_are s u gs cs -> length gs = length cs.
Proof.
  intros s u. induction gs as [|g gs IH]; intros [|c cs] H; cbn [changes_are length] in *; try (destruct H; fail); [reflexivity|].
  f_equal. apply IH. apply H.
Qed.

Lemma changes_ind : forall s u gs cs, changes_are s u gs cs -> Forall (fun c => ind_code c <> None) cs.
Proof.
  intros s u. induction gs as [|g gs IH]; intros [|c cs] H; cbn [changes_are] in *; try (destruct H; fail); [constructor|].
  destruct H as (H1 & _ & H3). constructor; [|apply IH; exact H3]. apply (ind_kinds s g c H1).
Qed.

Lemma add_fleeting : forall s u g c gs cs, changes_are s u gs cs -> change_is s g c -> lasting g = false ->
  changes_are s u (gs ++ [g]) (cs ++ [c]).
Proof.
  intros s u g c gs. induction gs as [|g0 gs IH]; intros [|c0 cs] H Hc Hl; cbn [changes_are app] in *; try (destruct H; fail).
  - split; [exact Hc|]. split; [|exact I]. unfold is_fm, lasting in *. destruct (h_ind g); [discriminate Hl|intros []].
  - destruct H as (H1 & H2 & H3). split; [exact H1|]. split; [|apply IH; assumption].
    intro K. specialize (H2 K). rewrite next_start_app by exact (changes_length _ _ _ _ H3).
    rewrite Hl. destruct (next_start gs cs); exact H2.
Qed.

Lemma passing_next : forall s u gs cs, changes_are s u gs cs -> Forall passing cs -> next_start gs cs = None.
Proof.
  intros s u. induction gs as [|g gs IH]; intros [|c cs] H P; cbn [changes_are next_start] in *; try (destruct H; fail); [reflexivity|].
  apply Forall_cons_iff in P. destruct P as [P1 P2]. destruct H as (H1 & _ & H3).
  apply (proj1 (proj2 (ind_kinds s g c H1))) in P1. rewrite P1. apply IH; assumption.
Qed.

Lemma add_all_passing : forall s u g c gs cs, changes_are s u gs cs -> change_is s g c -> Forall passing cs ->
  (is_fm g -> ends_at c = u) -> changes_are s u (gs ++ [g]) (cs ++ [c]).
Proof.
  intros s u g c gs. induction gs as [|g0 gs IH]; intros [|c0 cs] H Hc Hp Hu; cbn [changes_are app] in *; try (destruct H; fail).
  - split; [exact Hc|]. split; [exact Hu|exact I].
  - destruct H as (H1 & H2 & H3). apply Forall_cons_iff in Hp. destruct Hp as [P1 P2].
    split; [exact H1|]. split; [|apply IH; assumption].
    apply (proj1 (proj2 (ind_kinds s g0 c0 H1))) in P1. unfold is_fm, lasting in *. destruct (h_ind g0); [discriminate P1|intros []].
Qed.

Lemma next_replace : forall s u g new c c' l2, starts_at c' = starts_at c -> ~ passing c ->
  forall l1 gs, changes_are s u gs (l1 ++ c :: l2) ->
  exists n, next_start gs (l1 ++ c :: l2) = Some n /\ next_start (gs ++ [g]) ((l1 ++ c' :: l2) ++ [new]) = Some n.
Proof.
  intros s u g new c c' l2 Es Np. induction l1 as [|c0 l1 IH]; intros [|g0 gs] H; cbn [changes_are app] in *; try (destruct H; fail).
  - destruct H as (H1 & _). cbn [next_start]. destruct (lasting g0) eqn:E.
    + exists (starts_at c). rewrite Es. auto.
    + exfalso. apply Np. apply (proj1 (proj2 (ind_kinds s g0 c H1))). exact E.
  - destruct H as (H1 & _ & H3). cbn [next_start]. destruct (lasting g0); [exists (starts_at c0); auto|]. apply IH. exact H3.
Qed.

Lemma add_last : forall s u g new c c' l2, change_is s g new -> lasting g = true -> (is_fm g -> ends_at new = u) ->
  ~ passing c -> Forall passing l2 -> starts_at c' = starts_at c ->
  (forall gc, change_is s gc c -> change_is s gc c' /\ (is_fm gc -> minutes_later 60 (ends_at c') (starts_at new))) ->
  forall l1 gs, changes_are s u gs (l1 ++ c :: l2) -> changes_are s u (gs ++ [g]) ((l1 ++ c' :: l2) ++ [new]).
Proof.
  intros s u g new c c' l2 Hn Hl Hu Np Pl Es Hc. induction l1 as [|c0 l1 IH]; intros [|g0 gs] H; cbn [changes_are app] in *; try (destruct H; fail).
  - destruct H as (H1 & _ & H3). destruct (Hc g0 H1) as [K1 K2]. split; [exact K1|]. split.
    + intro F. specialize (K2 F). rewrite next_start_app by exact (changes_length _ _ _ _ H3).
      rewrite (passing_next s u gs l2 H3 Pl), Hl. exact K2.
    + apply add_all_passing; assumption.
  - destruct H as (H1 & H2 & H3). split; [exact H1|]. split; [|apply IH; exact H3].
    intro F. specialize (H2 F). destruct (next_replace s u g new c c' l2 Es Np l1 gs H3) as (n & N1 & N2).
    rewrite N2. rewrite N1 in H2. exact H2.
Qed.

Lemma chained_changes : forall s u g new gs cs cs', changes_are s u gs cs -> change_is s g new -> (is_fm g -> ends_at new = u) ->
  chained new cs cs' -> changes_are s u (gs ++ [g]) (cs' ++ [new]).
Proof.
  intros s u g new gs cs cs' H Hn Hu C. destruct (ind_kinds s g new Hn) as (_ & _ & _ & K).
  destruct (lasting g) eqn:Hl.
  - assert (B : begins "FM" (cf_code new) \/ begins "BECMG" (cf_code new)) by (apply K; reflexivity).
    destruct C as [l N1 N2|l P|l1 c l2 P1 P2 P3|l1 f f' l2 _ P1 P2 E].
    + destruct B; contradiction.
    + apply add_all_passing; assumption.
    + apply (add_last s u g new c c l2); auto. intros gc Hgc. split; [exact Hgc|]. intro F. exfalso. apply P3.
      apply (proj1 (proj2 (proj2 (ind_kinds s gc c Hgc)))). exact F.
    + destruct E as (E1 & E2 & E3 & E4 & E5 & E6 & E7).
      apply (add_last s u g new f f' l2); auto.
      * destruct P2 as (r & P2). unfold passing. rewrite P2. intros [[r' Q]|[r' Q]]; injection Q; discriminate.
      * unfold starts_at. rewrite E6. reflexivity.
      * intros gc (G1 & G2 & G3 & G4). split; [|intros _; exact E7]. unfold change_is. rewrite E1, E3, E4.
        split; [exact G1|]. split; [exact G2|]. split; [|exact G4].
        assert (F : is_fm gc) by (apply (ind_kinds s gc f); [split; auto|exact P2]).
        unfold is_fm in F. destruct (h_ind gc) as [d h mi|k p]; [|destruct F]. cbn [ind_is] in *. unfold ind_code in E5. rewrite E5, E6. exact G3.
  - assert (cs' = cs).
    { destruct C as [l N1 N2|l P|l1 c l2 P1 P2 P3|l1 f f' l2 B P1 P2 E]; try reflexivity. apply K in B. discriminate B. }
    subst cs'. apply add_fleeting; assumption.
Qed.

(** ** All changes *)

Lemma handle_changes_ok : forall v gs done x, real_time (t_dt (va_from v)) -> (2 <= dt_year (t_dt (va_from v)))%Z ->
  ta_valid x = v -> length done + length gs <= 8 -> gl_max (ta_changes x) = 8 ->
  changes_are (t_dt (va_from v)) (t_dt (va_until v)) done (gl_list (ta_changes x)) ->
  Forall (change_wf (t_dt (va_from v))) gs ->
  exists x', handle_changes (map (fun g => sentence (map ct_joined (change_toks g))) gs) x = Ok x'
    /\ changes_are (t_dt (va_from v)) (t_dt (va_until v)) (done ++ gs) (gl_list (ta_changes x'))
    /\ exists l, tupd_changes l (tbare x) = tbare x'.
Proof.
  intros v gs. induction gs as [|g gs IH]; intros done x R Y Ev L M H Hw; cbn [map handle_changes].
  - exists x. rewrite app_nil_r. split; [reflexivity|]. split; [exact H|]. exists (ta_changes x). destruct x; reflexivity.
  - apply Forall_cons_iff in Hw. destruct Hw as [Hg Hw].
    destruct (change_parse g v R Hg) as (c & E & C1 & C2 & C3 & C4).
    destruct (hour_before (starts_at c) C3) as (w & W1 & W2); [lia|].
    destruct (changes_add_ok c (ta_changes x) w) as (g' & l' & A1 & A2 & A3 & A4 & A5).
    { rewrite <- (changes_length _ _ _ _ H), M. cbn [length] in L. lia. }
    { exact (changes_ind _ _ _ _ H). } { exact W1. } { exact C3. } { exact W2. }
    pose proof (chained_changes _ _ g c done _ l' H C1 C2 A4) as H'. rewrite <- A5 in H'.
    assert (Ne : exists k t, sentence (map ct_joined (change_toks g)) = k :: t).
    { assert (E2 : sentence (map ct_joined (change_toks g)) <> []).
      { rewrite change_toks_eq. cbn [map]. intro K.
        pose proof (sentence_tails (ct_joined (ind_tok (h_ind g))) (map ct_joined (map Plain (flat_map m_words (after_ind g))))) as T.
        rewrite K in T. destruct (h_ind g) as [d h mi|[| |[|]|[|]] p]; discriminate T. }
      destruct (sentence (map ct_joined (change_toks g))) as [|k t]; [congruence|]. eauto. }
    destruct Ne as (k & t & Ne). rewrite Ne. unfold handle_change_forecasted at 1. rewrite <- Ne, Ev, E. cbn [bind]. rewrite A1. cbn [bind].
    match goal with |- context [handle_changes _ ?d] => destruct (IH (done ++ [g]) d R Y) as (x' & X1 & X2 & l & X3) end.
    { exact Ev. }
    { rewrite app_length. cbn [length] in *. lia. }
    { cbn [ta_changes tout_string tupd_common tupd_changes]. congruence. }
    { exact H'. } { exact Hw. }
    exists x'. split; [exact X1|]. rewrite <- app_assoc in X2. split; [exact X2|]. exists l. rewrite <- X3. reflexivity.
Qed.
