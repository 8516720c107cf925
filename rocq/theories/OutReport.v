(** * Which exceptions a METAR can raise *)
From Coq Require Import String Ascii.
From Coq Require Import List NArith ZArith Bool Lia.
From Verif Require Import PyBase PyRegex AeroRegex PyTime Utils Base MetarGroups Trend Metar SpecNum SpecTime SpecMetar SpecFailures
  StrFacts RegexPaths Captures Outcomes TextFacts ProofText TimeFacts ProofTime SymRegex ProofGroups ProofValues OutTime OutMetar Keeps ProofMetarText.
Import ListNotations.
Local Open Scope string_scope.
Local Open Scope nat_scope.
Local Open Scope list_scope.

(** ** The texts of the specification survive *)

Lemma digit_sep : forall c d, digit_val c = Some d -> sepc c = false.
Proof.
  intros c d H. unfold sepc. cbn [existsb].
  destruct (N.eqb_spec c 32) as [->|_]; [discriminate|]. destruct (N.eqb_spec c 95) as [->|_]; [discriminate|].
  destruct (N.eqb_spec c 124) as [->|_]; [discriminate|]. destruct (N.eqb_spec c 82) as [->|_]; [discriminate|]. reflexivity.
Qed.

Definition clean (x : str) : Prop := Forall (fun c => sepc c = false) x.

Lemma digits_clean : forall x acc n, digits_val acc x = Some n -> clean x.
Proof.
  induction x as [|c x IH]; intros acc n H; [apply Forall_nil|]. cbn [digits_val] in H.
  destruct (digit_val c) as [d|] eqn:E; [|discriminate]. apply Forall_cons; [exact (digit_sep c d E)|exact (IH _ _ H)].
Qed.
Lemma reads_clean : forall x n, reads x n -> clean x.
Proof. intros x n [_ H]. exact (digits_clean x 0%N n H). Qed.
Lemma clean_app : forall a b, clean a -> clean b -> clean (a ++ b).
Proof. intros a b A B. apply Forall_app. split; assumption. Qed.
Lemma reads_solid : forall a n b, reads a n -> clean b -> solid (a ++ b).
Proof.
  intros a n b H B. split; [|apply clean_app; [exact (reads_clean a n H)|exact B]].
  destruct H as [H _]. destruct a; [contradiction|discriminate].
Qed.
Ltac plainly := repeat (apply Forall_cons; [reflexivity|]); apply Forall_nil.

Lemma over_zero_solid : forall x, over_zero x -> solid x.
Proof.
  intros x (a & z & n & -> & A & Z). apply (reads_solid a n); [exact A|].
  apply clean_app; [plainly|]. apply clean_app; [exact (reads_clean _ _ Z)|plainly].
Qed.
Lemma fraction_km_solid : forall x, fraction_km x -> solid x.
Proof.
  intros x (a & b & n & m & -> & A & B). apply (reads_solid a n); [exact A|].
  apply clean_app; [plainly|]. apply clean_app; [exact (reads_clean _ _ B)|plainly].
Qed.
Lemma no_direction_solid : forall x, no_direction x -> solid x.
Proof.
  intros x (v & d & -> & D & V). assert (Cd : clean d).
  { destruct D as [<-|[<-|[<-|[<-|[]]]]]; plainly. }
  destruct V as [->|(_ & n & R)]; [|exact (reads_solid v n d R Cd)].
  split; [discriminate|]. apply clean_app; [plainly|exact Cd].
Qed.
Lemma stamp_solid : forall x d h mi, stamp x d h mi -> solid x.
Proof.
  intros x d h mi (a & b & c & -> & A & B & C & _). apply (reads_solid a d); [exact A|].
  apply clean_app; [exact (reads_clean _ _ B)|]. apply clean_app; [exact (reads_clean _ _ C)|plainly].
Qed.
Lemma period_solid : forall x, period x -> solid x.
Proof.
  intros x (p & a & b & h & mi & -> & P & A & B & _). split.
  - destruct P as [<-|[<-|[<-|[]]]]; discriminate.
  - apply clean_app; [destruct P as [<-|[<-|[<-|[]]]]; plainly|].
    apply clean_app; [exact (reads_clean _ _ A)|exact (reads_clean _ _ B)].
Qed.

(** ** The groups *)

Definition holds_all (s : str) (G : list str) : Prop := Forall (fun g => weaker g s) G.

Lemma body_groups_weaker : forall code, holds_all (unsigned code) (split_on 32%N (sanitize_body (section 0 (metar_sections (normalise code))))).
Proof.
  intro code. apply Forall_forall. intros g I. apply split_on_part, weaker_part in I.
  refine (weaker_trans _ _ _ I _). refine (weaker_trans _ _ _ (body_weaker _) _).
  refine (weaker_trans _ _ _ (proj1 (sections_weaker _)) _). exact (raw_weaker code).
Qed.

Lemma trend_groups_weaker : forall code w, In w (trend_codes (section 1 (metar_sections (normalise code)))) ->
  holds_all (unsigned code) (trend_groups w).
Proof.
  intros code w Iw. apply Forall_forall. intros g I. apply split_on_part, weaker_part in I.
  refine (weaker_trans _ _ _ I _). refine (weaker_trans _ _ _ (vis_weaker _) _).
  refine (weaker_trans _ _ _ (underscore_weaker _) _). refine (weaker_trans _ _ _ (code_weaker _ _ Iw) _).
  refine (weaker_trans _ _ _ (proj2 (sections_weaker _)) _). exact (raw_weaker code).
Qed.

Lemma body_fails : forall y mo tr code g ex, weaker g (unsigned code) -> body_cause y mo g ex -> metar_fails y mo tr code ex.
Proof.
  intros y mo tr code g ex Wk H. destruct ex; cbn [body_cause metar_fails] in *; try contradiction.
  - destruct H as [(x & C & F)|(x & d & h & mi & C & F & Im)].
    + left. exists x. split; [apply Wk; [exact (no_direction_solid x F)|exact C]|exact F].
    + right. exists x, d, h, mi. split; [apply Wk; [exact (stamp_solid x d h mi F)|exact C]|]. split; assumption.
  - destruct H as (x & C & F). exists x. split; [apply Wk; [exact (fraction_km_solid x F)|exact C]|left; exact F].
  - destruct H as (x & C & F). exists x. split; [apply Wk; [exact (over_zero_solid x F)|exact C]|exact F].
Qed.

Lemma late_fails : forall y mo code G t, holds_all (unsigned code) G -> time_of y mo G t -> late t ->
  y = 9999%Z /\ mo = 12%Z /\ exists x h mi, contains (unsigned code) x /\ stamp x 31 h mi /\ (22 <= h)%N.
Proof.
  intros y mo code G t HG (_ & Ey & Em & T) (L1 & L2 & L3 & L4). split; [congruence|]. split; [congruence|].
  destruct T as [->|(g & x & d & h & mi & Ig & C & S & ->)]; [cbn in L4; lia|]. cbn [dt_day dt_hour] in L3, L4.
  assert (d = 31%N) by lia. subst d. exists x, h, mi. split; [|split; [exact S|lia]].
  unfold holds_all in HG. rewrite Forall_forall in HG. apply (HG g Ig); [exact (stamp_solid x 31 h mi S)|exact C].
Qed.

Lemma trend_fails : forall y mo tr code G t g ex, holds_all (unsigned code) G -> time_of y mo G t -> weaker g (unsigned code) ->
  trend_cause t g ex -> metar_fails y mo tr code ex.
Proof.
  intros y mo tr code G t g ex HG T Wk H. destruct ex; cbn [trend_cause metar_fails] in *; try contradiction.
  - left. destruct H as (x & C & F). exists x. split; [apply Wk; [exact (no_direction_solid x F)|exact C]|exact F].
  - destruct H as (x & C & F). exists x. split; [|exact F]. apply Wk; [|exact C].
    destruct F as [F|F]; [exact (fraction_km_solid x F)|exact (period_solid x F)].
  - destruct H as (x & C & F). exists x. split; [apply Wk; [exact (over_zero_solid x F)|exact C]|exact F].
  - exact (late_fails y mo code G t HG T H).
Qed.

(** ** The trends *)

Definition some_words (l : list str) : nat := length (filter (fun w => match w with [] => false | _ => true end) l).

Lemma trends_outcome : forall (P : exn -> Prop) l k x, real_time (t_dt (me_time x)) ->
  (forall w e, In w l -> (e = OverflowError /\ late (t_dt (me_time x)))
     \/ (exists g, In g (trend_groups w) /\ trend_cause (t_dt (me_time x)) g e) -> P e) ->
  (k + some_words l <= 2 \/ P RangeError) -> room 2 k (me_trends x) ->
  outcome P (fun x' => room 2 (k + some_words l) (me_trends x')) (handle_trends l x).
Proof.
  intros P l. induction l as [|w l IH]; intros k x R HP HR Hr; cbn [handle_trends].
  - cbn. rewrite Nat.add_0_r. exact Hr.
  - destruct w as [|c w].
    + apply IH; [exact R| |exact HR|exact Hr]. intros w e I. apply HP. right. exact I.
    + unfold handle_weather_trend.
      pose proof (change_period_outcome (c :: w) _ R) as Q.
      destruct (change_period_new (c :: w) (t_dt (me_time x))) as [p|e]; cbn [bind outcome] in *;
        [|exact (HP _ e (or_introl eq_refl) Q)].
      unfold some_words in *. cbn [filter length] in *.
      destruct (gl_add p (me_trends x)) as [l'|e] eqn:Ea; cbn [bind outcome].
      * replace (k + S (length (filter (fun w => match w with [] => false | _ => true end) l)))
          with (S k + length (filter (fun w => match w with [] => false | _ => true end) l)) in * by lia.
        apply IH; [exact R| |exact HR|].
        -- intros w0 e I. apply HP. right. exact I.
        -- unfold out_string. cbn [upd_common upd_out upd_trends me_trends].
           unfold gl_add in Ea. destruct Hr as [Hn Hl]. rewrite Hn in Ea.
           destruct (Nat.leb 2 (length (gl_list (me_trends x)))); [discriminate|]. injection Ea as <-.
           split; [reflexivity|]. cbn [gl_list]. rewrite app_length. cbn. lia.
      * destruct HR as [HR|HR].
        -- destruct (room_add _ _ _ p _ Hr) as (g & E & _); [lia|]. congruence.
        -- unfold gl_add in Ea. destruct (Nat.leb _ _); [|discriminate]. injection Ea as <-. exact HR.
Qed.

Lemma sub_once : forall kw s, let r := literal (32%N :: kw) in let w := (124%N :: kw) in
  re_sub r w s (Some 1) = s \/ exists a t, s = a ++ (32%N :: kw) ++ t /\ re_sub r w s (Some 1) = a ++ w ++ t.
Proof.
  intros kw s. cbv zeta. set (r := literal (32%N :: kw)). set (w := 124%N :: kw).
  assert (Hb : nobos r = true) by apply nobos_literal.
  assert (Hn : mlen r [] = None) by (unfold r; rewrite mlen_literal by discriminate; reflexivity).
  induction s as [|c s IH]; [left; apply re_sub_nil; exact Hn|].
  destruct (mlen r (c :: s)) as [n|] eqn:E.
  - destruct (mlen_den _ _ _ E) as (x & t & Ex & -> & D). apply den_literal in D.
    right. exists [], t. rewrite Ex in *. subst x. split; [reflexivity|].
    rewrite re_sub_hit; try assumption; try discriminate. cbn [cnt_pred Nat.sub]. rewrite re_sub_zero. reflexivity.
  - rewrite re_sub_copy by assumption. destruct IH as [->|(a & t & -> & ->)]; [left; reflexivity|].
    right. exists (c :: a), t. split; reflexivity.
Qed.

Definition bars (s : str) : nat := length (filter (N.eqb 124) s).
Lemma bars_app : forall a b, bars (a ++ b) = bars a + bars b.
Proof. intros a b. unfold bars. rewrite filter_app, app_length. reflexivity. Qed.

Lemma split_bars : forall s, length (split_on 124 s) = S (bars s).
Proof.
  induction s as [|c s IH]; [reflexivity|]. cbn [split_on]. unfold bars in *. cbn [filter]. rewrite (N.eqb_sym 124 c).
  destruct (N.eqb c 124); [cbn [length]; rewrite IH; reflexivity|].
  destruct (split_on 124 s) as [|u us]; [discriminate|]. cbn [length] in *. exact IH.
Qed.

Lemma some_words_le : forall l, some_words l <= length l.
Proof. intro l. unfold some_words. induction l as [|w l IH]; [apply le_n|]. destruct w; cbn [filter length]; lia. Qed.

(** One keyword cut once. *)
Definition cut1 (kw s : str) : str := re_sub (literal (32%N :: kw)) (124%N :: kw) s (Some 1).
Lemma cut1_bars : forall kw s, bars kw = 0 -> bars (cut1 kw s) = bars s \/ (bars (cut1 kw s) = S (bars s) /\ contains s kw).
Proof.
  intros kw s K. unfold cut1. destruct (sub_once kw s) as [->|(a & t & -> & ->)]; [left; reflexivity|right].
  change (124%N :: kw) with ([124%N] ++ kw). change (32%N :: kw) with ([32%N] ++ kw). rewrite !bars_app, K.
  split; [cbn; lia|]. exists (a ++ [32%N]), t. rewrite <- !app_assoc. reflexivity.
Qed.
Lemma cut1_weaker : forall kw s, kw <> [] -> weaker (cut1 kw s) s.
Proof. intros kw s N. apply (weaker_keeps false). exact (keyword_keeps kw s (Some 1) N). Qed.

Lemma trend_codes_cut : forall s, trend_codes s = split_on 124 (cut1 (py "BECMG ") (cut1 (py "TEMPO ") s)).
Proof. reflexivity. Qed.

Lemma contains_prefix : forall s a b, contains s (a ++ b) -> contains s a.
Proof. intros s a b (p & q & ->). exists p, (b ++ q). rewrite <- !app_assoc. reflexivity. Qed.

Lemma word_solid : forall w, In w [py "TEMPO"; py "BECMG"] -> solid w.
Proof. intros w [<-|[<-|[]]]; (split; [discriminate|plainly]). Qed.

(** No bar in the trends. *)
Lemma bars_none : forall s, bars s = 0 <-> ~ In 124%N s.
Proof.
  intro s. unfold bars. split.
  - intros H I. assert (K : In 124%N (filter (N.eqb 124) s)) by (apply filter_In; split; [exact I|reflexivity]).
    destruct (filter (N.eqb 124) s); [exact K|discriminate].
  - intro H. destruct (filter (N.eqb 124) s) as [|c l] eqn:E; [reflexivity|]. exfalso.
    assert (K : In c (filter (N.eqb 124) s)) by (rewrite E; left; reflexivity). apply filter_In in K. destruct K as [K E'].
    apply N.eqb_eq in E'. subst c. exact (H K).
Qed.
Lemma bars_part : forall s x, contains s x -> bars s = 0 -> bars x = 0.
Proof. intros s x (a & b & ->) H. rewrite !bars_app in H. lia. Qed.

Lemma split_on_bars : forall s w, In w (split_on 124 s) -> bars w = 0.
Proof.
  induction s as [|c s IH]; intros w I; cbn [split_on] in I; [destruct I as [<-|[]]; reflexivity|].
  destruct (N.eqb_spec c 124) as [->|N]; [destruct I as [<-|I]; [reflexivity|exact (IH w I)]|].
  destruct (split_on 124 s) as [|u us] eqn:E; cbn [In] in I.
  - destruct I as [<-|[]]. unfold bars. cbn [filter]. destruct (N.eqb_spec 124 c); [congruence|reflexivity].
  - destruct I as [<-|I]; [|apply IH; right; exact I]. unfold bars in *. cbn [filter].
    destruct (N.eqb_spec 124 c); [congruence|]. apply (IH u). left. reflexivity.
Qed.

Lemma sort_bars : forall l body trend remark, Forall (fun w => bars w = 0) l -> bars trend = 0 ->
  bars (snd (fst (sort_sections l body trend remark))) = 0.
Proof.
  induction l as [|w l IH]; intros body trend remark F H; cbn [sort_sections fst snd]; [exact H|].
  inversion F as [|w0 l0 Hw Hl]; subst. destruct (is_trend_section w).
  - apply IH; [exact Hl|]. rewrite !bars_app, H, Hw. reflexivity.
  - destruct (starts_with (py "RMK") w); apply IH; assumption.
Qed.

Lemma section_bars : forall raw, bars (section 1 (metar_sections raw)) = 0.
Proof.
  intro raw. unfold metar_sections.
  pose proof (sort_bars (split_sentence raw [py "NOSIG"; py "TEMPO"; py "BECMG"; py "RMK"] None SpLeft) [] [] []) as K.
  destruct (sort_sections _ _ _ _) as [[body trend] remark]. cbn [fst snd] in K. cbn [section nth].
  apply (bars_part trend); [apply strip_part|]. apply K; [|reflexivity].
  apply Forall_forall. intros w I. exact (split_on_bars _ w I).
Qed.

(** ** Counting the trend words *)

Lemma starts_split : forall w s, starts_with w s = true <-> exists t, s = w ++ t.
Proof.
  induction w as [|c w IH]; intros s; cbn [starts_with].
  - split; [intros _; exists s; reflexivity|intros _; reflexivity].
  - destruct s as [|d s]; [split; [discriminate|intros (t & E); discriminate]|].
    rewrite andb_true_iff, N.eqb_eq, IH. split.
    + intros [-> (t & ->)]. exists t. reflexivity.
    + intros (t & E). injection E as -> ->. split; [reflexivity|exists t; reflexivity].
Qed.

Section Places.
Variable ws : list str.
Hypothesis S : Forall solid ws.
Definition begins_any (s : str) : bool := existsb (fun w => starts_with w s) ws.

Lemma begins_mono : forall s s', (forall w, solid w -> (exists t, s' = w ++ t) -> exists t, s = w ++ t) ->
  begins_any s' = true -> begins_any s = true.
Proof.
  intros s s' H B. unfold begins_any in *. apply existsb_exists in B. destruct B as (w & I & B). apply existsb_exists.
  exists w. split; [exact I|]. apply starts_split. apply H; [rewrite Forall_forall in S; exact (S w I)|]. apply starts_split. exact B.
Qed.

Lemma places_cons : forall c s, places ws (c :: s) = (if begins_any (c :: s) then 1 else 0) + places ws s.
Proof. reflexivity. Qed.

Lemma places_keeps : forall b s' s, keeps b s' s -> places ws s' <= places ws s.
Proof.
  intros b s' s H. induction H as [b s|b c s' s H IH|b c s' s Hc H IH|c s' s H IH].
  - cbn. lia.
  - rewrite !places_cons. destruct (begins_any (c :: s')) eqn:E; [|lia].
    rewrite (begins_mono (c :: s) (c :: s')); [lia| |exact E].
    intros w Hw (t & Et). exact (keeps_prefix false _ _ (k_copy false c s' s H) w t Hw Et).
  - rewrite places_cons. destruct (begins_any (c :: s')) eqn:E; [|lia]. exfalso.
    unfold begins_any in E. apply existsb_exists in E. destruct E as (w & I & E). apply starts_split in E. destruct E as (t & E).
    rewrite Forall_forall in S. destruct (S w I) as [N F]. destruct w as [|d w]; [contradiction|]. injection E as -> _.
    inversion F; subst. congruence.
  - rewrite places_cons. lia.
Qed.

Lemma sep_head : forall c s, sepc c = true -> begins_any (c :: s) = false.
Proof.
  intros c s Hc. destruct (begins_any (c :: s)) eqn:E; [|reflexivity]. exfalso.
  unfold begins_any in E. apply existsb_exists in E. destruct E as (w & I & E). apply starts_split in E. destruct E as (t & E).
  rewrite Forall_forall in S. destruct (S w I) as [N F]. destruct w as [|d w]; [contradiction|]. injection E as -> _.
  inversion F; subst. congruence.
Qed.

Lemma prefix_sep : forall (w u : str) c v t, ~ In c w -> u ++ c :: v = w ++ t -> exists t', u = w ++ t'.
Proof.
  induction w as [|d w IH]; intros u c v t N E; [exists u; reflexivity|]. destruct u as [|e u]; cbn [app] in E.
  - injection E as -> _. exfalso. apply N. left. reflexivity.
  - injection E as -> E. destruct (IH u c v t) as (t' & ->); [intro I; apply N; right; exact I|exact E|]. exists t'. reflexivity.
Qed.

Lemma places_sep : forall u c v, sepc c = true -> places ws (u ++ c :: v) = places ws u + places ws v.
Proof.
  induction u as [|d u IH]; intros c v Hc; cbn [app].
  - rewrite places_cons, (sep_head c v Hc). reflexivity.
  - rewrite !places_cons, IH by exact Hc.
    assert (E : begins_any (d :: u ++ c :: v) = begins_any (d :: u)); [|rewrite E; lia].
    apply eq_true_iff_eq. split; apply begins_mono; intros w Hw (t & E).
    + exact (prefix_sep w (d :: u) c v t (solid_not w c Hw Hc) E).
    + exists (t ++ c :: v). change (d :: u ++ c :: v) with ((d :: u) ++ c :: v). rewrite E, <- app_assoc. reflexivity.
Qed.

Lemma places_prefix : forall u v, places ws u <= places ws (u ++ v).
Proof.
  induction u as [|d u IH]; intro v; cbn [app]; [cbn; lia|]. rewrite !places_cons. specialize (IH v).
  destruct (begins_any (d :: u)) eqn:E; [|lia]. rewrite (begins_mono (d :: u ++ v) (d :: u)); [lia| |exact E].
  intros w _ (t & Et). exists (t ++ v). change (d :: u ++ v) with ((d :: u) ++ v). rewrite Et, <- app_assoc. reflexivity.
Qed.
Lemma places_suffix : forall u v, places ws v <= places ws (u ++ v).
Proof. induction u as [|d u IH]; intro v; cbn [app]; [lia|]. rewrite places_cons. specialize (IH v). lia. Qed.
Lemma places_part : forall s x, contains s x -> places ws x <= places ws s.
Proof.
  intros s x (a & b & ->). pose proof (places_suffix a (x ++ b)). pose proof (places_prefix x b). lia.
Qed.

Fixpoint total (l : list str) : nat := match l with [] => 0 | w :: l => places ws w + total l end.

Lemma bar_cases : forall s, ~ In 124%N s \/ exists a b, s = a ++ 124%N :: b /\ ~ In 124%N a.
Proof.
  induction s as [|c s IH]; [left; intros []|]. destruct (N.eq_dec c 124) as [->|N].
  - right. exists [], s. split; [reflexivity|intros []].
  - destruct IH as [IH|(a & b & -> & IH)].
    + left. intros [E|E]; [congruence|exact (IH E)].
    + right. exists (c :: a), b. split; [reflexivity|]. intros [E|E]; [congruence|exact (IH E)].
Qed.

Lemma split_places : forall n s, length s <= n -> total (split_on 124 s) = places ws s.
Proof.
  induction n as [|n IH]; intros s L.
  - destruct s; [reflexivity|cbn in L; lia].
  - destruct (bar_cases s) as [N|(a & b & -> & N)].
    + rewrite split_on_nosep by exact N. cbn [total]. lia.
    + rewrite split_on_app by exact N. cbn [total]. rewrite IH; [|rewrite app_length in L; cbn in L; lia].
      rewrite places_sep by reflexivity. reflexivity.
Qed.

Lemma sort_places : forall l body trend remark, (trend = [] \/ exists t, trend = t ++ [32%N]) ->
  places ws (snd (fst (sort_sections l body trend remark))) <= places ws trend + total l.
Proof.
  induction l as [|w l IH]; intros body trend remark Hj; cbn [sort_sections fst snd total]; [lia|].
  destruct (is_trend_section w).
  - etransitivity; [apply IH; right; exists (trend ++ w); rewrite <- app_assoc; reflexivity|].
    assert (E : places ws (trend ++ w ++ py " ") = places ws trend + places ws w); [|rewrite E; lia].
    change (py " ") with [32%N]. destruct Hj as [->|(t & ->)].
    + cbn [app]. rewrite (places_sep w 32%N []) by reflexivity. cbn [places]. lia.
    + rewrite <- app_assoc. cbn [app]. rewrite !places_sep by reflexivity. cbn [places]. lia.
  - destruct (starts_with (py "RMK") w); (etransitivity; [apply IH; exact Hj|lia]).
Qed.

Lemma sentence_places : forall kws sp cnt s, Forall (plain_kw sp) kws -> total (split_sentence s kws cnt sp) <= places ws s.
Proof.
  intros kws sp cnt s H. unfold split_sentence. rewrite (split_places _ _ (le_n _)).
  revert s. induction H as [|kw kws Hk H IH]; intro s; [apply le_n|].
  cbn [fold_left]. etransitivity; [apply IH|]. destruct Hk as (k & -> & N & ->).
  apply (places_keeps false). apply keyword_keeps. exact N.
Qed.

Lemma sections_places : forall raw, places ws (section 1 (metar_sections raw)) <= places ws raw.
Proof.
  intro raw. unfold metar_sections.
  pose proof (sort_places (split_sentence raw [py "NOSIG"; py "TEMPO"; py "BECMG"; py "RMK"] None SpLeft) [] [] [] (or_introl eq_refl)) as K.
  destruct (sort_sections _ _ _ _) as [[body trend] remark]. cbn [fst snd] in K. cbn [section nth].
  etransitivity; [apply places_part, strip_part|]. etransitivity; [exact K|]. cbn [places Nat.add]. apply sentence_places.
  repeat apply Forall_cons; try apply Forall_nil; (eexists; split; [reflexivity|split; [discriminate|reflexivity]]).
Qed.

Lemma raw_places : forall code, places ws (normalise code) <= places ws (unsigned code).
Proof.
  intro s. rewrite normalise_eq. apply (places_keeps true). change (unsigned s) with (remove_char 61 s). apply keeps_remove.
  destruct (strip_part s) as (p & q & E). rewrite E at 2. apply keeps_drops, keeps_more.
  exact (keeps_fresh _ _ _ (norm_keeps (strip s))).
Qed.
End Places.

Lemma trend_words_solid : Forall solid trend_words.
Proof. repeat apply Forall_cons; try apply Forall_nil; (split; [discriminate|plainly]). Qed.

(** A trend section begins with a trend word. *)
Definition begins_trend (s : str) : Prop := exists w t, In w trend_words /\ s = w ++ t.
Lemma is_trend_begins : forall s, is_trend_section s = true -> begins_trend s.
Proof.
  intros s H. unfold is_trend_section in H. rewrite !orb_true_iff in H. unfold begins_trend, trend_words.
  destruct H as [[H|H]|H]; apply starts_split in H; destruct H as (t & ->).
  - exists (py "TEMPO"), t. split; [right; left; reflexivity|reflexivity].
  - exists (py "BECMG"), t. split; [right; right; left; reflexivity|reflexivity].
  - exists (py "NOSIG"), t. split; [left; reflexivity|reflexivity].
Qed.
Lemma begins_app : forall s t, begins_trend s -> begins_trend (s ++ t).
Proof. intros s t (w & u & I & ->). exists w, (u ++ t). split; [exact I|]. rewrite <- app_assoc. reflexivity. Qed.

Lemma sort_begins : forall l body trend remark, trend = [] \/ begins_trend trend ->
  let t := snd (fst (sort_sections l body trend remark)) in t = [] \/ begins_trend t.
Proof.
  cbv zeta. induction l as [|w l IH]; intros body trend remark H; cbn [sort_sections fst snd]; [exact H|].
  destruct (is_trend_section w) eqn:E.
  - apply IH. right. destruct H as [->|H]; [apply (begins_app w (py " ")), is_trend_begins, E|apply begins_app, H].
  - destruct (starts_with (py "RMK") w); apply IH; exact H.
Qed.

Lemma begins_strip : forall s, begins_trend s -> begins_trend (strip s).
Proof.
  intros s (w & t & I & ->).
  assert (L : lstrip (w ++ t) = w ++ t).
  { destruct I as [<-|[<-|[<-|[]]]]; reflexivity. }
  unfold strip. rewrite L. rewrite rev_app_distr.
  assert (K : forall x v, lstrip v = v -> exists y, lstrip (x ++ v) = y ++ v).
  { induction x as [|c x IH]; intros v Hv; [exists []; exact Hv|]. cbn [app lstrip].
    destruct (is_space c); [apply IH; exact Hv|]. exists (c :: x). reflexivity. }
  destruct (K (rev t) (rev w)) as (y & ->).
  { destruct I as [<-|[<-|[<-|[]]]]; reflexivity. }
  rewrite rev_app_distr, rev_involutive. exists w, (rev y). split; [exact I|reflexivity].
Qed.

Lemma section_begins : forall raw, let t := section 1 (metar_sections raw) in t = [] \/ begins_trend t.
Proof.
  intro raw. cbv zeta. unfold metar_sections.
  pose proof (sort_begins (split_sentence raw [py "NOSIG"; py "TEMPO"; py "BECMG"; py "RMK"] None SpLeft) [] [] [] (or_introl eq_refl)) as K.
  cbv zeta in K. destruct (sort_sections _ _ _ _) as [[body trend] remark]. cbn [fst snd] in K. cbn [section nth].
  destruct K as [->|K]; [left; reflexivity|right; apply begins_strip, K].
Qed.

Lemma begins_places : forall s, begins_trend s -> 1 <= places trend_words s.
Proof.
  intros s (w & t & I & ->). etransitivity; [|apply (places_prefix trend_words trend_words_solid)].
  destruct I as [<-|[<-|[<-|[]]]]; apply Nat.leb_le; reflexivity.
Qed.

Lemma begins_cut : forall a c b, sepc c = true -> begins_trend (a ++ c :: b) -> begins_trend a.
Proof.
  intros a c b Hc (w & t & I & E). pose proof trend_words_solid as S. rewrite Forall_forall in S.
  destruct (prefix_sep w a c b t (solid_not w c (S w I) Hc) E) as (t' & ->). exists w, t'. split; [exact I|reflexivity].
Qed.

(** A text without [c] in [u c v] is in [u] or in [v]. *)
Lemma within_sep : forall c (x u v p q : str), x <> [] -> ~ In c x -> u ++ c :: v = p ++ x ++ q ->
  (exists q', u = p ++ x ++ q' /\ q = q' ++ c :: v) \/ (exists p', v = p' ++ x ++ q /\ p = u ++ c :: p').
Proof.
  intros c x u v p q Nx N E. apply app_eq_app in E. destruct E as (l & [[E1 E2]|[E1 E2]]).
  - apply app_eq_app in E2. destruct E2 as (l2 & [[F1 F2]|[F1 F2]]).
    + destruct l2 as [|d l2]; cbn [app] in F2.
      * rewrite app_nil_r in F1. left. exists []. subst. split; [rewrite app_nil_r; reflexivity|reflexivity].
      * injection F2 as <- _. exfalso. apply N. rewrite F1. apply in_or_app. right. left. reflexivity.
    + left. exists l2. subst. split; reflexivity.
  - destruct l as [|d l]; cbn [app] in E2.
    + destruct x as [|d x]; [contradiction|]. injection E2 as <- _. exfalso. apply N. left. reflexivity.
    + injection E2 as <- E2. right. exists l. split; assumption.
Qed.

Lemma cut1_places : forall kw s, bars kw = 0 -> kw <> [] ->
  bars (cut1 kw s) = bars s \/ exists a t, s = a ++ (32%N :: kw) ++ t /\ cut1 kw s = a ++ (124%N :: kw) ++ t.
Proof.
  intros kw s K N. unfold cut1. destruct (sub_once kw s) as [->|H]; [left; reflexivity|right; exact H].
Qed.

Lemma trend_codes_few : forall s, bars s = 0 -> s = [] \/ begins_trend s ->
  some_words (trend_codes s) <= 2
  \/ (contains s (py "TEMPO") /\ contains s (py "BECMG") /\ 3 <= places trend_words s).
Proof.
  intros s B Hs. pose proof (some_words_le (trend_codes s)) as L. rewrite trend_codes_cut, split_bars in L. rewrite trend_codes_cut.
  destruct (cut1_bars (py "TEMPO ") s eq_refl) as [E1|[E1 C1]]; destruct (cut1_bars (py "BECMG ") (cut1 (py "TEMPO ") s) eq_refl) as [E2|[E2 C2]];
    try (left; lia). right. split; [exact (contains_prefix s (py "TEMPO") (py " ") C1)|]. split.
  { apply (cut1_weaker (py "TEMPO ") s); [discriminate|apply word_solid; right; left; reflexivity|].
    exact (contains_prefix _ (py "BECMG") (py " ") C2). }
  pose proof (places_sep trend_words trend_words_solid) as Sep.
  destruct (cut1_places (py "TEMPO ") s eq_refl ltac:(discriminate)) as [K|(a & t & Es & Ec)]; [lia|].
  destruct (cut1_places (py "BECMG ") (cut1 (py "TEMPO ") s) eq_refl ltac:(discriminate)) as [K|(a' & t' & Es' & _)]; [lia|].
  rewrite Ec in Es'. clear E1 E2 C1 C2 L Ec.
  assert (Ha : begins_trend a).
  { destruct Hs as [->|Hs]; [destruct a; discriminate|]. rewrite Es in Hs. exact (begins_cut a 32%N _ eq_refl Hs). }
  rewrite Es. cbn [app] in *. rewrite (Sep a 32%N _ eq_refl).
  assert (T : forall u, begins_trend (py "TEMPO " ++ u)).
  { intro u. exists (py "TEMPO"), (py " " ++ u). split; [right; left; reflexivity|reflexivity]. }
  assert (Bc : forall u, 1 <= places trend_words (py "BECMG " ++ u)).
  { intro u. apply begins_places. exists (py "BECMG"), (py " " ++ u). split; [right; right; left; reflexivity|reflexivity]. }
  change (a ++ 124%N :: (py "TEMPO " ++ t) = a' ++ (32%N :: py "BECMG ") ++ t') in Es'.
  apply within_sep in Es'; [|discriminate|cbn; intuition discriminate].
  destruct Es' as [(q' & -> & _)|(p' & Ev & _)].
  - cbn [app] in Ha |- *. rewrite (Sep a' 32%N _ eq_refl).
    apply begins_cut in Ha; [|reflexivity]. apply begins_places in Ha. specialize (Bc q'). pose proof (begins_places _ (T t)). cbn [app] in *.
    lia.
  - pose proof (T t) as Tt. rewrite Ev in Tt. cbn [app] in Tt. apply begins_cut in Tt; [|reflexivity].
    apply begins_places in Tt, Ha. specialize (Bc t'). 
    assert (K : 3 <= places trend_words a + places trend_words (py "TEMPO " ++ t)); [|exact K].
    rewrite Ev. cbn [app]. rewrite (Sep p' 32%N _ eq_refl). cbn [app] in Bc. lia.
Qed.

(** ** The whole report *)

Lemma first_real : forall y mo, (1 <= y <= 9999)%Z -> (1 <= mo <= 12)%Z -> real_date y mo 1.
Proof.
  intros y mo Hy Hm. split; [exact Hy|]. exists (days_in_month y mo). split; [apply month_length_spec; auto|].
  assert (M : (mo = 1 \/ mo = 2 \/ mo = 3 \/ mo = 4 \/ mo = 5 \/ mo = 6 \/ mo = 7 \/ mo = 8 \/ mo = 9 \/ mo = 10
    \/ mo = 11 \/ mo = 12)%Z) by lia. split; [lia|].
  repeat (destruct M as [->|M]; [cbn; try destruct (is_leap y); discriminate|]). subst mo. discriminate.
Qed.

Lemma default_first : forall e y mo, (1000 <= opt_default (now_year e) y <= 9999)%Z ->
  (1 <= opt_default (now_month e) mo <= 12)%Z ->
  exists t, time_new e None None None None mo y = Ok t
    /\ t_dt t = mk_dt (opt_default (now_year e) y) (opt_default (now_month e) mo) 1 0 0.
Proof.
  intros e y mo Hy Hm. unfold time_new. cbn [opt_default].
  set (y1 := opt_default (now_year e) y) in *. set (m1 := opt_default (now_month e) mo) in *.
  remember (Z.to_N y1) as y' eqn:Ey. remember (Z.to_N m1) as mo' eqn:Emo.
  assert (E1 : y1 = Z.of_N y') by lia. assert (E2 : m1 = Z.of_N mo') by lia. rewrite E1, E2 in *. clear Ey Emo.
  rewrite Z_str_year, Z_pad_month by lia.
  replace (digits 4 y' ++ digits 2 mo' ++ py "01" ++ py "00" ++ py "00")
    with (tcode (stamp_text y' mo' 1 0 0))
    by (unfold tcode, stamp_text; cbn [map concat snd]; rewrite app_nil_r; reflexivity).
  rewrite strptime_ok by lia.
  replace (valid_date (Z.of_N y') (Z.of_N mo') (Z.of_N 1)) with true; [eexists; split; reflexivity|].
  symmetry. apply valid_date_spec. apply first_real; lia.
Qed.

Definition body_words (code : str) : list str := split_on 32%N (sanitize_body (section 0 (metar_sections (normalise code)))).

Lemma init_inv : forall e code year month, clock_wf e -> month_wf e year month ->
  exists x, metar_init e (normalise code) year month = Ok x
    /\ body_inv (opt_default (now_year e) year) (opt_default (now_month e) month) (body_words code) (metar_sections (normalise code)) 0 x.
Proof.
  intros e code year month [C1 C2] [W1 W2]. unfold metar_init, time_from_metar.
  destruct (default_first e None None C1 C2) as (t0 & -> & _).
  destruct (default_first e year month W1 W2) as (t & -> & Et).
  eexists. split; [reflexivity|]. unfold body_inv. cbn [me_rvr me_common me_ws me_time me_sections me_trends me_unparsed].
  conjs; try reflexivity; try (split; [reflexivity|apply le_n]).
  unfold time_of. rewrite Et. cbn [dt_year dt_month].
  conjs; try reflexivity; [|left; reflexivity].
  unfold real_time. cbn [dt_year dt_month dt_day dt_hour dt_minute]. split; [|lia].
  apply first_real; lia.
Qed.

Lemma parse_body_outcome : forall e code year month x tr,
  month_wf e year month ->
  body_inv (opt_default (now_year e) year) (opt_default (now_month e) month) (body_words code) (metar_sections (normalise code)) 0 x ->
  outcome (metar_fails (opt_default (now_year e) year) (opt_default (now_month e) month) tr code)
    (fun x' => time_of (opt_default (now_year e) year) (opt_default (now_month e) month) (body_words code) (t_dt (me_time x'))
       /\ me_sections x' = metar_sections (normalise code) /\ me_trends x' = gl_new 2)
    (parse_body e year month x).
Proof.
  intros e code year month x tr W I.
  pose proof I as (_ & _ & _ & _ & _ & Es & _). unfold parse_body. rewrite Es.
  pose proof (parse_section_outcome _ _ _ _ (sanitize_body (section 0 (metar_sections (normalise code)))) x (body_mono _ _ _ _)
    (fun k h g m st => body_steps e year month (body_words code) (metar_sections (normalise code)) W k h g m st) I) as P.
  destruct (parse_section _ _ x) as [[x' un]|ex]; cbn [outcome bind fst snd] in *.
  - destruct P as (k & _ & _ & _ & _ & T & S & Tr & _).
    unfold upd_unparsed. cbn [me_time me_sections me_trends]. auto.
  - destruct P as (g & Ig & Cg). pose proof (body_groups_weaker code) as B. unfold holds_all in B. rewrite Forall_forall in B.
    exact (body_fails _ _ _ _ g ex (B g Ig) Cg).
Qed.

Theorem metar_outcome : forall e code year month tr ex, clock_wf e -> month_wf e year month ->
  metar_parse e code year month tr = Raise ex ->
  metar_fails (opt_default (now_year e) year) (opt_default (now_month e) month) tr code ex.
Proof.
  intros e code year month tr ex C W. unfold metar_parse, report_raw_code.
  destruct code as [|c code0]; [cbn [bind]; intro H; injection H as <-; reflexivity|]. cbn [bind].
  set (code := c :: code0). destruct (init_inv e code year month C W) as (x0 & -> & I). cbn [bind].
  pose proof (parse_body_outcome e code year month x0 tr W I) as P.
  destruct (parse_body e year month x0) as [x|ex']; cbn [bind outcome] in *; [|intro H; injection H as <-; exact P].
  destruct P as (T & Es & Et). unfold parse_weather_trend. rewrite Es.
  pose proof (body_groups_weaker code) as B.
  assert (Q := trends_outcome (metar_fails (opt_default (now_year e) year) (opt_default (now_month e) month) tr code)
    (trend_codes (section 1 (metar_sections (normalise code)))) 0 x (proj1 T)).
  destruct (handle_trends (trend_codes (section 1 (metar_sections (normalise code)))) x) as [x'|ex']; cbn [bind].
  - destruct (gl_collect (me_trends x')) as [l g]. cbv zeta.
    destruct (me_unparsed (upd_unparsed _ _)); [discriminate|]. destruct tr; [|discriminate].
    intro H. injection H as <-. reflexivity.
  - intro H. injection H as <-. apply Q.
    + intros w ex1 Iw [[-> L]|(g & Ig & Cg)].
      * exact (late_fails _ _ code _ _ B T L).
      * pose proof (trend_groups_weaker code w Iw) as Bw. unfold holds_all in Bw. rewrite Forall_forall in Bw.
        exact (trend_fails _ _ tr code _ _ g ex1 B T (Bw g Ig) Cg).
    + cbn [Nat.add metar_fails].
      destruct (trend_codes_few _ (section_bars (normalise code)) (section_begins (normalise code))) as [L|(C1 & C2 & C3)];
        [left; exact L|right].
      pose proof (weaker_trans _ _ _ (proj2 (sections_weaker _)) (raw_weaker code)) as K.
      split; [apply K; [apply word_solid; left; reflexivity|exact C1]|].
      split; [apply K; [apply word_solid; right; left; reflexivity|exact C2]|].
      pose proof (sections_places trend_words trend_words_solid (normalise code)).
      pose proof (raw_places trend_words trend_words_solid code). lia.
    + rewrite Et. split; [reflexivity|apply le_n].
Qed.
