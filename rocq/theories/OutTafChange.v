(** * Outcomes of the changes of a TAF *)
From Coq Require Import String Ascii.
From Coq Require Import List NArith ZArith Bool Lia.
From Verif Require Import PyBase PyRegex AeroRegex PyFloat PyTime Utils Base MetarGroups Trend Taf
  SpecNum SpecTime SpecText SpecTaf SpecFailures SpecTafFailures StrFacts RegexPaths Captures ProofValues ProofText Outcomes OutTime ProofFailures
  OutMetar OutTafTime.
Import ListNotations.
Local Open Scope string_scope.
Local Open Scope nat_scope.
Local Open Scope list_scope.

(** ** The change indicator *)

Lemma one_char : forall d c, ((d <=? c)%N && (c <=? d)%N || false) = (c =? d)%N.
Proof. intros d c. exact (in_one c d). Qed.

Ltac step x M :=
  match type of M with context [95%N :: _] => idtac end;
  match goal with g : list N |- _ =>
    destruct g as [|c g]; [cbn in M; discriminate M|];
    let E := fresh "E" in
    destruct (N.eqb_spec c x) as [E|E];
    [subst c | exfalso; apply N.eqb_neq in E; cbn in M; rewrite one_char, E in M; cbn in M; discriminate M] end.

Lemma prob_exact : forall g m, re_match r_T_CHANGE_INDICATOR (80%N :: 82%N :: 79%N :: 66%N :: g) = Some m -> ~ In 10%N g ->
  In (80%N :: 82%N :: 79%N :: 66%N :: g) [py "PROB30"; py "PROB40"; py "PROB30_TEMPO"; py "PROB40_TEMPO"].
Proof.
  intros g m M N. unfold re_match, r_T_CHANGE_INDICATOR in M.
  destruct g as [|a g]; [cbn in M; discriminate|]. 
  assert (A : a = 51%N \/ a = 52%N).
  { cbn in M. destruct ((51 <=? a)%N && (a <=? 51)%N || ((52 <=? a)%N && (a <=? 52)%N || false)) eqn:E; [|discriminate M].
    rewrite !orb_true_iff, !andb_true_iff, !N.leb_le in E. intuition (try discriminate; lia). }
  destruct g as [|b g]; [destruct A as [-> | ->]; cbn in M; discriminate|].
  assert (B : b = 48%N).
  { destruct (N.eqb_spec b 48) as [E|E]; [exact E|exfalso]. apply N.eqb_neq in E.
    destruct A as [-> | ->]; cbn in M; rewrite one_char, E in M; discriminate M. }
  subst b.
  destruct g as [|c g]; [destruct A as [-> | ->]; cbn; auto|].
  assert (C : c = 95%N).
  { destruct (N.eqb_spec c 95) as [E|E]; [exact E|exfalso]. apply N.eqb_neq in E.
    assert (T : c <> 10%N) by (intros ->; apply N; cbn; auto). apply N.eqb_neq in T.
    destruct A as [-> | ->]; cbn in M; rewrite one_char, E in M; cbn in M; rewrite ?T in M; destruct g; discriminate M. }
  subst c.
  destruct A as [-> | ->].
  all: step 84%N M; step 69%N M; step 77%N M; step 80%N M; step 79%N M.
  all: (destruct g as [|c g]; [cbn; auto|exfalso]).
  all: assert (T : c <> 10%N) by (intros ->; apply N; cbn; auto 12); apply N.eqb_neq in T.
  all: cbn in M; rewrite ?T in M; destruct g; discriminate M.
Qed.

Definition fm_path (q : cpath) : bool :=
  match fst q with k :: _ => negb (in_cls 70 k) | [] => false end
  || (span_is q "day" 2 4 && span_is q "hour" 4 6 && span_is q "minute" 6 8
      && day_pair (piece q 2 4) && hour_pair (piece q 4 6) && min_pair (piece q 6 8)).
Lemma fm_paths : starfree r_T_CHANGE_INDICATOR = true /\ forallb fm_path (cpaths r_T_CHANGE_INDICATOR) = true.
Proof. split; vm_compute; reflexivity. Qed.

Lemma fm_match : forall g m, re_match r_T_CHANGE_INDICATOR g = Some m -> starts_with (py "FM") g = true ->
  exists d h mi, int_of_opt (group m "day") = Ok d /\ int_of_opt (group m "hour") = Ok h /\ int_of_opt (group m "minute") = Ok mi
  /\ (1 <= d <= 31)%Z /\ (0 <= h <= 23)%Z /\ (0 <= mi <= 59)%Z.
Proof.
  intros g m M S. destruct fm_paths as [F T].
  destruct (path_check r_T_CHANGE_INDICATOR g m fm_path F M T) as (q & x & t & P & Fo). unfold fm_path in P.
  apply orb_true_iff in P. destruct P as [P|P].
  - exfalso. destruct Fo as (E & _ & A & _). destruct (fst q) as [|k ks]; [discriminate P|].
    apply along_cons in A. destruct A as (c & y & -> & Ic & _). rewrite E in S.
    change (N.eqb 70 c && starts_with (py "M") (y ++ t) = true) in S. apply andb_true_iff in S. destruct S as [S _].
    apply N.eqb_eq in S. subst c. rewrite Ic in P. discriminate P.
  - rewrite !andb_true_iff in P. destruct P as (((((S1 & S2) & S3) & P1) & P2) & P3).
    rewrite (span_is_group _ _ _ _ _ _ _ _ Fo S1), (span_is_group _ _ _ _ _ _ _ _ Fo S2), (span_is_group _ _ _ _ _ _ _ _ Fo S3).
    destruct (day_pair_val _ _ (piece_along _ _ _ _ _ 2 4 Fo) P1) as (d & R1 & B1).
    destruct (hour_pair_val _ _ (piece_along _ _ _ _ _ 4 6 Fo) P2) as (h & R2 & B2).
    destruct (min_pair_val _ _ (piece_along _ _ _ _ _ 6 8 Fo) P3) as (mi & R3 & B3).
    exists d, h, mi. auto 8.
Qed.

Definition ind_good (L : Prop) (i : taf_ind) : Prop := tc_code i <> None /\ sound L 31 (t_dt (va_from (tc_valid i))).

Lemma ind_outcome : forall L g m v, re_match r_T_CHANGE_INDICATOR g = Some m -> ~ In 10%N g ->
  sound L 1 (t_dt (va_from v)) -> outcome (over L) (ind_good L) (taf_ind_new (Some m) v).
Proof.
  intros L g m v M N S. unfold taf_ind_new. rewrite (re_match_string _ _ _ M).
  destruct (starts_with (py "FM") g) eqn:F.
  - destruct (fm_match g m M F) as (d & h & mi & -> & -> & -> & Bd & Bh & Bm). cbn [bind].
    refine (outcome_bind _ _ _ _ _ _ _ (sound_roll L _ d S Bd) _). intros t St.
    destruct (sound_hour _ _ t h St Bh) as (t1 & -> & S1). cbn [bind].
    destruct (sound_minute _ _ t1 mi S1 Bm) as (t2 & -> & S2). cbn [bind outcome]. cbv zeta.
    split; cbn [tc_code tc_valid valid_new va_from time_at t_dt]; [discriminate|exact S2].
  - assert (C : exists a b, change_indicator_new (Some m) = Ok (Some a, b)).
    { unfold change_indicator_new. rewrite (re_match_string _ _ _ M). cbv zeta.
      destruct (assoc g CHANGE_TRANSLATIONS) as [t|] eqn:A; [eexists _, _; reflexivity|].
      destruct (starts_with (py "PROB") g) eqn:P; [|eexists _, _; reflexivity].
      apply starts_with_app in P. destruct P as (w & ->).
      assert (I : In (py "PROB" ++ w) [py "PROB30"; py "PROB40"; py "PROB30_TEMPO"; py "PROB40_TEMPO"]).
      { apply (prob_exact w m M). intro J. apply N. apply in_or_app. right. exact J. }
      cbn [In] in I. destruct I as [I|[I|[I|[I|[]]]]]; rewrite <- I in *; try (vm_compute in A; discriminate A); eexists _, _; vm_compute; reflexivity. }
    destruct C as (a & b & ->). cbn [bind outcome fst snd]. split; cbn [tc_code tc_valid]; [discriminate|].
    apply (sound_mono L 1); [lia|exact S].
Qed.

(** ** A change *)

Definition ch_cause (L bad : Prop) (g : str) (e : exn) : Prop :=
  match e with
  | ZeroDivisionError => exists x, contains g x /\ over_zero x
  | TypeError => exists x, contains g x /\ fraction_km x
  | ValueError => exists x, contains g x /\ no_direction x
  | OverflowError => L
  | AttributeError => bad
  | _ => False
  end.

Lemma vis_change : forall L bad g e, vis_cause g e -> ch_cause L bad g e.
Proof. intros L bad g e H. destruct e; cbn in *; auto; contradiction. Qed.
Lemma over_change : forall L bad g e, over L e -> ch_cause L bad g e.
Proof. intros L bad g e H. destruct e; cbn in *; auto; contradiction. Qed.

Definition coded (L bad : Prop) (p : change_fc) : Prop :=
  (tc_code (cf_ind p) <> None \/ bad) /\ sound L 31 (t_dt (va_from (tc_valid (cf_ind p)))).

Definition ch_inv (L bad : Prop) (v : valid) (k : nat) (p : change_fc) : Prop :=
  coded L bad p /\ cf_valid p = v /\ room 3 (k - 4) (c_weathers (cf_common p)) /\ room 4 (k - 7) (c_clouds (cf_common p)).

Lemma ch_mono : forall L bad v i j p, i <= j -> ch_inv L bad v i p -> ch_inv L bad v j p.
Proof.
  intros L bad v i j p H (A & B & C & D). split; [exact A|]. split; [exact B|]. split.
  - apply (room_mono _ _ (i - 4)); [lia|exact C].
  - apply (room_mono _ _ (i - 7)); [lia|exact D].
Qed.

Lemma change_steps : forall L bad v, sound L 1 (t_dt (va_from v)) -> forall k h g m p,
  nth_error change_handlers k = Some h -> ~ In 10%N g -> re_match (h_regexp h) g = Some m ->
  ch_inv L bad v k p -> outcome (ch_cause L bad g) (ch_inv L bad v (S k)) (h_handle h m p).
Proof.
  intros L bad v Sv.
  assert (WEA : forall k g m p, 4 <= k < 7 -> ch_inv L bad v k p ->
    outcome (ch_cause L bad g) (ch_inv L bad v (S k)) (cf_lift handle_weather m p)).
  { intros k g m p Hk (A & B & C & D). unfold cf_lift, handle_weather. cbv zeta.
    destruct (room_add _ _ _ (weather_new (Some m)) _ C) as (l & -> & C'); [lia|]. cbn [bind outcome].
    split; [exact A|]. split; [exact B|]. split.
    - apply (room_mono _ _ (S (k - 4))); [lia|exact C'].
    - apply (room_mono _ _ (k - 7)); [lia|exact D]. }
  assert (CLO : forall k g m p, 7 <= k < 11 -> re_match r_CLOUD g = Some m -> ch_inv L bad v k p ->
    outcome (ch_cause L bad g) (ch_inv L bad v (S k)) (cf_lift handle_cloud m p)).
  { intros k g m p Hk M (A & B & C & D). unfold cf_lift, handle_cloud.
    destruct (cloud_fine g m M) as (cl & ->). cbn [bind].
    destruct (room_add _ _ _ cl _ D) as (l & -> & D'); [lia|]. cbn [bind outcome].
    split; [exact A|]. split; [exact B|]. split.
    - apply (room_mono _ _ (k - 4)); [lia|exact C].
    - apply (room_mono _ _ (S (k - 7))); [lia|exact D']. }
  intros k h g m p E N M H. unfold change_handlers in E.
  nth_cases k E.
  - unfold handle_change_indicator. destruct H as (A & B & C & D). rewrite B.
    pose proof (ind_outcome L g m v M N Sv) as P. destruct (taf_ind_new (Some m) v) as [i|ex]; cbn [bind outcome] in *.
    + destruct P as [P1 P2]. split; [split; [left; exact P1|exact P2]|]. split; [exact B|]. split; [exact C|exact D].
    + exact (over_change _ _ _ _ P).
  - assert (H' := ch_mono L bad v 1 2 p ltac:(lia) H). destruct H' as (A & B & C & D).
    unfold handle_change_valid, set_valid_period. rewrite B.
    pose proof (valid_some L 1 _ g m Sv ltac:(lia) M) as P.
    destruct (valid_from_taf (Some m) (t_dt (va_from v))) as [w|ex]; cbn [bind outcome] in *; [|exact (over_change _ _ _ _ P)].
    destruct P as [Pf _]. assert (Sf : sound L 31 (t_dt (va_from w))) by (apply (sound_mono L (1 + 1)); [lia|exact Pf]).
    destruct (tc_code (cf_ind p)) as [c|] eqn:Ec; cbn [bind outcome].
    + destruct (starts_with (py "FM") c); cbn [bind outcome];
        (split; [split; [left; discriminate|exact Sf]|split; [exact B|split; [exact C|exact D]]]).
    + cbn [ch_cause]. destruct A as [[A|A] _]; [congruence|exact A].
  - unfold cf_lift, handle_wind. destruct (wind_fine r_T_WIND g m (proj2 wind_checks_ok) M) as (w & ->). exact H.
  - unfold cf_lift, handle_prevailing.
    pose proof (prevailing_outcome r_VISIBILITY g m (proj1 vis_checks_ok) M) as P.
    destruct (prevailing_new (Some m)) as [w|ex]; cbn [bind outcome] in *; [|exact (vis_change _ _ _ _ P)].
    exact (ch_mono L bad v 3 4 p ltac:(lia) H).
  - apply WEA; [lia|exact H].
  - apply WEA; [lia|exact H].
  - apply WEA; [lia|exact H].
  - apply CLO; [lia|exact M|exact H].
  - apply CLO; [lia|exact M|exact H].
  - apply CLO; [lia|exact M|exact H].
  - apply CLO; [lia|exact M|exact H].
  - destruct k; discriminate E.
Qed.

(** The groups of a change, and the first of them. *)
Definition change_groups (code : str) : list str :=
  split_on 32%N (sanitize_visibility (sanitize_change_indicator (replace (py "_") (py " ") code))).
Definition headed (code : str) : Prop :=
  exists g gs m, change_groups code = g :: gs /\ re_match r_T_CHANGE_INDICATOR g = Some m.

Lemma change_outcome : forall L bad code v, sound L 1 (t_dt (va_from v)) ->
  (forall g, In g (change_groups code) -> ~ In 10%N g) -> bad \/ headed code ->
  outcome (fun e => exists g, In g (change_groups code) /\ ch_cause L bad g e) (coded L bad) (change_fc_new code v).
Proof.
  intros L bad code v Sv N Hd. unfold change_fc_new. cbv zeta.
  destruct (common_fresh []) as (c & -> & E1 & E2). cbn [bind taf_ind_new].
  set (p0 := mk_cf _ _ _ _ _).
  assert (R0 : room 3 0 (c_weathers (cf_common p0)) /\ room 4 0 (c_clouds (cf_common p0))).
  { unfold p0. cbn [cf_common]. rewrite E1, E2. split; split; try reflexivity; cbn; lia. }
  assert (K : outcome (fun e => exists g, In g (change_groups code) /\ ch_cause L bad g e)
                (fun r => exists k, ch_inv L bad v k (fst r))
                (parse_section change_handlers (sanitize_visibility (sanitize_change_indicator (replace (py "_") (py " ") code))) p0)).
  { unfold parse_section. fold (change_groups code).
    assert (Step : forall k h g m st, nth_error change_handlers k = Some h -> In g (change_groups code) ->
      re_match (h_regexp h) g = Some m -> ch_inv L bad v k st -> outcome (ch_cause L bad g) (ch_inv L bad v (S k)) (h_handle h m st)).
    { intros k h g m st En Ig Mg J. exact (change_steps L bad v Sv k h g m st En (N g Ig) Mg J). }
    destruct Hd as [B|(g & gs & m & G & M)].
    - apply parse_groups_outcome; [exact (ch_mono L bad v)|exact Step|intros x Hx; exact Hx|].
      unfold ch_inv, p0. cbn [cf_ind cf_valid]. split; [split; [right; exact B|]|split; [reflexivity|exact R0]].
      cbn [cf_ind tc_valid]. apply (sound_mono L 1); [lia|exact Sv].
    - rewrite G. cbn [parse_groups]. cbn [skipn change_handlers first_match h_regexp]. rewrite M. cbn [h_handle].
      unfold handle_change_indicator at 1. change (cf_valid p0) with v.
      assert (Ig : In g (change_groups code)) by (rewrite G; left; reflexivity).
      pose proof (ind_outcome L g m v M (N g Ig) Sv) as P.
      destruct (taf_ind_new (Some m) v) as [i|ex]; cbn [bind outcome] in *.
      + rewrite <- G. apply parse_groups_outcome; [exact (ch_mono L bad v)|exact Step|rewrite G; intros x Hx; right; exact Hx|].
        destruct P as [P1 P2]. split; [split; [left; exact P1|exact P2]|]. split; [reflexivity|exact R0].
      + exists g. split; [left; reflexivity|exact (over_change _ _ _ _ P)]. }
  destruct (parse_section _ _ _) as [[p un]|ex]; cbn [bind outcome fst] in *; [|exact K].
  destruct K as (k & K & _). exact K.
Qed.

(** ** The list of changes *)

Lemma pop_outcome : forall L bad until rl temp, sound L 31 (t_dt until) -> Forall (coded L bad) rl -> Forall (coded L bad) temp ->
  outcome (fun e => e = AttributeError /\ bad)
    (fun r => Forall (coded L bad) (fst r) /\ Forall (coded L bad) (snd r) /\ length (fst r) + length (snd r) = length rl + length temp)
    (pop_changes until rl temp).
Proof.
  intros L bad until rl. induction rl as [|p rl IH]; intros temp Su Fr Ft; cbn [pop_changes].
  - cbn [outcome fst snd]. auto.
  - inversion Fr as [|p' rl' Hp Hr]; subst p' rl'.
    destruct (tc_code (cf_ind p)) as [c|] eqn:Ec; [|cbn [outcome]; destruct Hp as [[Hp|Hp] _]; [congruence|auto]].
    destruct (starts_with (py "PROB") c || starts_with (py "TEMPO") c).
    + refine (outcome_weaken _ _ _ _ _ _ (IH (p :: temp) Su Hr (Forall_cons _ Hp Ft)) _ _); [auto|].
      intros r (A & B & C). split; [exact A|]. split; [exact B|]. cbn [length] in *. lia.
    + destruct (starts_with (py "FM") c).
      * unfold reset_until_period. destruct (sound_back L 31 _ Su) as (u & ->). cbn [bind]. rewrite Ec.
        destruct (starts_with (py "FM") c); cbn [bind outcome fst snd]; (split; [exact Hr|]);
          (split; [apply Forall_cons; [|exact Ft]|cbn [length]; lia]).
        -- destruct Hp as [_ Hp]. split; [left; discriminate|exact Hp].
        -- exact Hp.
      * cbn [outcome fst snd]. split; [exact Hr|]. split; [apply Forall_cons; [exact Hp|exact Ft]|cbn [length]; lia].
Qed.

Definition listed (L bad : Prop) (n : nat) (g : grouplist change_fc) : Prop :=
  gl_max g = 8 /\ Forall (coded L bad) (gl_list g) /\ length (gl_list g) <= n.

Lemma listed_add : forall L bad n p g, listed L bad n g -> coded L bad p ->
  outcome (fun e => e = RangeError /\ 8 <= n) (listed L bad (S n)) (gl_add p g).
Proof.
  intros L bad n p g (M & F & H) C. unfold gl_add. rewrite M. destruct (Nat.leb_spec 8 (length (gl_list g))) as [K|K]; cbn [outcome].
  - split; [reflexivity|lia].
  - split; [reflexivity|]. cbn [gl_list]. split; [apply Forall_app; split; [exact F|apply Forall_cons; [exact C|apply Forall_nil]]|].
    rewrite app_length. cbn [length]. lia.
Qed.

Lemma listed_add_all : forall L bad l n g, listed L bad n g -> Forall (coded L bad) l ->
  outcome (fun e => e = RangeError /\ 8 < n + length l) (listed L bad (n + length l)) (gl_add_all l g).
Proof.
  intros L bad l. induction l as [|p l IH]; intros n g G F; cbn [gl_add_all].
  - cbn [outcome length]. rewrite Nat.add_0_r. exact G.
  - inversion F as [|p' l' Hp Hl]; subst p' l'.
    pose proof (listed_add L bad n p g G Hp) as A. destruct (gl_add p g) as [g'|ex]; cbn [bind outcome] in *.
    + refine (outcome_weaken _ _ _ _ _ _ (IH (S n) g' A Hl) _ _); cbn [length]; intros a Ha;
        replace (n + S (length l)) with (S n + length l) by lia; exact Ha.
    + cbn [length]. destruct A as [-> A]. split; [reflexivity|lia].
Qed.

Lemma changes_add_outcome : forall L bad n p g, listed L bad n g -> coded L bad p ->
  outcome (fun e => (e = AttributeError /\ bad) \/ (e = RangeError /\ 8 <= n)) (listed L bad (S n)) (changes_add p g).
Proof.
  intros L bad n p g G C. unfold changes_add. cbv zeta.
  assert (D : outcome (fun e => (e = AttributeError /\ bad) \/ (e = RangeError /\ 8 <= n)) (listed L bad (S n)) (gl_add p g)).
  { refine (outcome_weaken _ _ _ _ _ _ (listed_add L bad n p g G C) _ _); auto. }
  match goal with |- context [if ?b then _ else _] => destruct b end; [|exact D]. clear D.
  destruct G as (M & F & H).
  pose proof (pop_outcome L bad (va_from (tc_valid (cf_ind p))) (rev (gl_list g)) [] (proj2 C) ltac:(apply Forall_rev; exact F) ltac:(apply Forall_nil)) as P.
  destruct (pop_changes _ _ _) as [[rl temp]|ex]; cbn [bind outcome fst snd] in *; [|left; exact P].
  destruct P as (P1 & P2 & P3). rewrite rev_length in P3. cbn [length] in P3.
  assert (G1 : listed L bad (length rl) (mk_gl (gl_n g) (gl_max g) (rev rl))).
  { split; [exact M|]. cbn [gl_list]. split; [apply Forall_rev; exact P1|rewrite rev_length; lia]. }
  pose proof (listed_add_all L bad temp (length rl) _ G1 P2) as Q.
  destruct (gl_add_all temp _) as [g'|ex]; cbn [bind outcome] in *.
  - refine (outcome_weaken _ _ _ _ _ _ (listed_add L bad _ p g' Q C) _ _).
    + intros e [-> K]. right. split; [reflexivity|lia].
    + intros a (A1 & A2 & A3). split; [exact A1|]. split; [exact A2|lia].
  - destruct Q as [-> Q]. right. split; [reflexivity|lia].
Qed.

(** ** All the changes *)

Definition all_cause (L bad : Prop) (n : nat) (codes : list str) (e : exn) : Prop :=
  (e = RangeError /\ 9 <= n) \/ (e = AttributeError /\ bad)
  \/ exists c g, In c codes /\ In g (change_groups c) /\ ch_cause L bad g e.

Lemma handle_changes_outcome : forall L bad n l x, sound L 1 (t_dt (va_from (ta_valid x))) ->
  (forall c g, In c l -> In g (change_groups c) -> ~ In 10%N g) ->
  (forall c, In c l -> c <> [] -> bad \/ headed c) -> 
  listed L bad n (ta_changes x) ->
  outcome (all_cause L bad (n + length (filter filled l)) l) any (handle_changes l x).
Proof.
  intros L bad n l. revert n. induction l as [|c l IH]; intros n x S N Hd G; cbn [handle_changes]; [exact I|].
  assert (N' : forall c' g, In c' l -> In g (change_groups c') -> ~ In 10%N g) by (intros c' g I1 I2; apply (N c' g); [right; exact I1|exact I2]).
  assert (Hd' : forall c', In c' l -> c' <> [] -> bad \/ headed c') by (intros c' I1 I2; apply (Hd c'); [right; exact I1|exact I2]).
  destruct c as [|a c].
  { refine (outcome_weaken _ _ _ _ _ _ (IH n x S N' Hd' G) _ _); [|auto]. intros e H. cbn [filter filled].
    destruct H as [H|[H|(c & g & I1 & I2)]]; [left; exact H|right; left; exact H|right; right; exists c, g; split; [right; exact I1|exact I2]]. }
  cbn [filter filled length].
  unfold handle_change_forecasted.
  pose proof (change_outcome L bad (a :: c) (ta_valid x) S (fun g Ig => N (a :: c) g (or_introl eq_refl) Ig)
    (Hd (a :: c) (or_introl eq_refl) ltac:(discriminate))) as P.
  destruct (change_fc_new (a :: c) (ta_valid x)) as [p|ex]; cbn [bind outcome] in *.
  2:{ right. right. destruct P as (g & I1 & I2). exists (a :: c), g. split; [left; reflexivity|]. split; [exact I1|exact I2]. }
  pose proof (changes_add_outcome L bad n p (ta_changes x) G P) as Q.
  destruct (changes_add p (ta_changes x)) as [g'|ex]; cbn [bind outcome] in *.
  2:{ destruct Q as [Q|[-> Q]]; [right; left; exact Q|left; split; [reflexivity|lia]]. }
  refine (outcome_weaken _ _ _ _ _ _ (IH (Datatypes.S n) (tout_string (change_fc_str p) (tupd_changes g' x)) _ N' Hd' _) _ _).
  - exact S.
  - exact Q.
  - intros e H. destruct H as [[-> H]|[H|(c0 & g & I1 & I2)]].
    + left. split; [reflexivity|lia].
    + right; left; exact H.
    + right; right; exists c0, g; split; [right; exact I1|exact I2].
  - auto.
Qed.
