(** * The first group of a change *)
From Coq Require Import String Ascii.
From Coq Require Import List NArith ZArith Bool Lia.
From Verif Require Import PyBase PyRegex AeroRegex PyTime Utils Base Trend Taf
  SpecNum SpecTime SpecText SpecTaf SpecFailures SpecTafFailures StrFacts RegexPaths MergeFacts TextFacts ProofText ProofSections
  ProofTafText ProofProb ProofTime Keeps OutReport OutTafWords OutTafChange.
Import ListNotations.
Local Open Scope string_scope.
Local Open Scope nat_scope.
Local Open Scope list_scope.

(** ** Joining PROB and TEMPO *)

Definition pr (n : N) : str := [80; 82; 79; 66; n; 48]%N.
Definition te : str := [84; 69; 77; 80; 79]%N.

Lemma prob_shape : forall x, den r_SAN_PROB x -> exists n c, x = pr n ++ c :: te /\ (n = 51%N \/ n = 52%N) /\ is_space c = true.
Proof.
  intros x D. apply den_paths in D; [|reflexivity]. destruct D as (p & Hp & A).
  cbv in Hp. destruct Hp as [<-|[]]. read A. rewrite in_space in Hc0. exists c, c0. split; [reflexivity|]. split; [|exact Hc0].
  unfold in_cls in Hc. cbn [existsb in_citem] in Hc. rewrite orb_false_r in Hc. apply orb_true_iff in Hc.
  destruct Hc as [Hc|Hc]; apply andb_true_iff in Hc; destruct Hc as [H1 H2]; apply N.leb_le in H1, H2; lia.
Qed.

Lemma prob_percent : forall n c t m, n = 51%N \/ n = 52%N -> is_space c = true ->
  re_match r_SAN_PROB ((pr n ++ c :: te) ++ t) = Some m -> group m "percent" = Some [n; 48%N].
Proof.
  intros n c t m E Hc Em. unfold re_match in Em. destruct E as [-> | ->]; cbn in Em; rewrite in_space in Em || idtac;
    rewrite Hc in Em; cbn in Em; injection Em as <-; reflexivity.
Qed.

Lemma prob_hit : forall k s, sanitize_change_indicator_n (S k) s = s
  \/ exists a n c t, (n = 51%N \/ n = 52%N) /\ is_space c = true /\ s = a ++ pr n ++ c :: te ++ t
     /\ sanitize_change_indicator_n (S k) s = sanitize_change_indicator_n k (a ++ pr n ++ 95%N :: te ++ t).
Proof.
  intros k s. cbn [sanitize_change_indicator_n].
  destruct (first_hit r_SAN_PROB s eq_refl) as [Q|(a & x & t & m & -> & Q & Em & Ee & D)].
  - left. rewrite re_search_none by (try reflexivity; exact Q). reflexivity.
  - right. destruct (prob_shape x D) as (n & c & -> & Hn & Hc). exists a, n, c, t. split; [exact Hn|]. split; [exact Hc|].
    split; [rewrite <- app_assoc; reflexivity|].
    destruct (re_search_some r_SAN_PROB a ((pr n ++ c :: te) ++ t) m eq_refl Q Em) as (m' & Es & Eg & _).
    rewrite Es, Eg, (prob_percent n c t m Hn Hc Em).
    destruct (step_at r_SAN_PROB (py "PROB" ++ fmt_opt (Some [n; 48%N]) ++ py "_TEMPO") a (pr n ++ c :: te) t m
                eq_refl eq_refl Q ltac:(discriminate) Em Ee) as (S1 & _).
    rewrite S1. reflexivity.
Qed.

(** What joining keeps, the sanitizer keeps. *)
Lemma prob_inv : forall (I : str -> Prop),
  (forall a n c t, n = 51%N \/ n = 52%N -> is_space c = true -> I (a ++ pr n ++ c :: te ++ t) -> I (a ++ pr n ++ 95%N :: te ++ t)) ->
  forall k s, I s -> I (sanitize_change_indicator_n k s).
Proof.
  intros I Step k. induction k as [|k IH]; intros s H; [exact H|].
  destruct (prob_hit k s) as [->|(a & n & c & t & Hn & Hc & E & ->)]; [exact H|].
  apply IH. apply (Step a n c t Hn Hc). rewrite <- E. exact H.
Qed.

Lemma prob_step_keeps : forall a n c t, keeps false (a ++ pr n ++ 95%N :: te ++ t) (a ++ pr n ++ c :: te ++ t).
Proof.
  intros a n c t. apply keeps_copies. apply keeps_copies. apply k_sep; [reflexivity|]. apply k_drop. apply keeps_refl.
Qed.

Lemma prob_weaker : forall s, weaker (sanitize_change_indicator s) s.
Proof.
  intro s. unfold sanitize_change_indicator. apply (prob_inv (fun z => weaker z s)); [|apply weaker_refl].
  intros a n c t _ _ H. refine (weaker_trans _ _ _ _ H). exact (weaker_keeps _ _ _ (prob_step_keeps a n c t)).
Qed.
Lemma prob_places : forall ws s, Forall solid ws -> places ws (sanitize_change_indicator s) <= places ws s.
Proof.
  intros ws s Hs. unfold sanitize_change_indicator. apply (prob_inv (fun z => places ws z <= places ws s)); [|apply le_n].
  intros a n c t _ _ H. refine (Nat.le_trans _ _ _ _ H). exact (places_keeps ws Hs _ _ _ (prob_step_keeps a n c t)).
Qed.

(** ** The first group stays in front *)

(** No whitespace but spaces. *)
Definition spaced (s : str) : Prop := forall c, In c s -> is_space c = true -> c = 32%N.

Lemma cut_at : forall W t' a q, ~ In 32%N W -> blank_first t' -> W ++ t' = a ++ 32%N :: q ->
  (a = W /\ t' = 32%N :: q) \/ exists b, a = W ++ 32%N :: b /\ t' = 32%N :: b ++ 32%N :: q.
Proof.
  induction W as [|d W IH]; intros t' a q N B E; cbn [app] in E.
  - destruct B as [-> |(t2 & ->)]; [destruct a; discriminate|]. destruct a as [|e a].
    + left. split; [reflexivity|exact E].
    + injection E as <- E. right. exists a. split; [reflexivity|rewrite E; reflexivity].
  - destruct a as [|e a].
    + injection E as -> _. destruct N. left. reflexivity.
    + cbn [app] in E. injection E as <- E. destruct (IH t' a q) as [[-> ->]|(b & -> & ->)].
      * intro K. apply N. right. exact K.
      * exact B.
      * exact E.
      * left. split; reflexivity.
      * right. exists b. split; reflexivity.
Qed.

Lemma spaced_step : forall a n c t, spaced (a ++ pr n ++ c :: te ++ t) -> spaced (a ++ pr n ++ 95%N :: te ++ t).
Proof.
  intros a n c t H d I Hd. apply H; [|exact Hd]. apply in_app_or in I. apply in_or_app. destruct I as [I|I]; [left; exact I|right].
  apply in_app_or in I. apply in_or_app. destruct I as [I|I]; [left; exact I|right].
  destruct I as [<-|I]; [discriminate|right; exact I].
Qed.

Definition led (w : str) (s : str) : Prop :=
  spaced s /\ exists more t, s = (w ++ more) ++ t /\ ~ In 32%N (w ++ more) /\ blank_first t.

Lemma take_line : forall s, exists v t, s = v ++ t /\ ~ In 32%N v /\ blank_first t.
Proof.
  induction s as [|c s (v & t & -> & N & B)]; [exists [], []; split; [reflexivity|]; split; [intros []|left; reflexivity]|].
  destruct (N.eqb_spec c 32) as [->|E].
  - exists [], (32%N :: v ++ t). split; [reflexivity|]. split; [intros []|right; exists (v ++ t); reflexivity].
  - exists (c :: v), t. split; [reflexivity|]. split; [intros [K|K]; [congruence|exact (N K)]|exact B].
Qed.

Lemma led_keeps : forall w k s, led w s -> led w (sanitize_change_indicator_n k s).
Proof.
  intros w k s. apply prob_inv. intros a n c t Hn Hc (Sp & more & t' & E & N & B).
  split; [exact (spaced_step a n c t Sp)|].
  assert (c = 32%N) by (apply Sp; [apply in_or_app; right; apply in_or_app; right; left; reflexivity|exact Hc]). subst c.
  rewrite app_assoc in E. symmetry in E. rewrite (app_assoc a). destruct (cut_at _ _ _ _ N B E) as [[-> _]|(b & -> & _)].
  - destruct (take_line (te ++ t)) as (v & u & Ev & Nv & Bu). exists (more ++ 95%N :: v), u. rewrite Ev.
    split; [rewrite <- !app_assoc; reflexivity|]. split; [|exact Bu].
    rewrite app_assoc. intro K. apply in_app_or in K. destruct K as [K|[K|K]]; [exact (N K)|discriminate|exact (Nv K)].
  - exists more, (32%N :: b ++ 95%N :: te ++ t). split; [rewrite <- !app_assoc; reflexivity|]. split; [exact N|].
    right. eexists. reflexivity.
Qed.

Definition stays (W : str) (s : str) : Prop :=
  spaced s /\ exists t, s = W ++ t /\ blank_first t
    /\ (starts_with (32%N :: te) t = false \/ forall p n, W <> p ++ pr n).

Lemma stays_keeps : forall W k s, ~ In 32%N W -> stays W s -> stays W (sanitize_change_indicator_n k s).
Proof.
  intros W k s N. apply prob_inv. intros a n c t Hn Hc (Sp & t' & E & B & Hd).
  split; [exact (spaced_step a n c t Sp)|].
  assert (c = 32%N) by (apply Sp; [apply in_or_app; right; apply in_or_app; right; left; reflexivity|exact Hc]). subst c.
  rewrite app_assoc in E. symmetry in E. rewrite (app_assoc a). destruct (cut_at _ _ _ _ N B E) as [[Ea Et]|(b & -> & Et)].
  - exfalso. destruct Hd as [Hd|Hd]; [|exact (Hd a n (eq_sym Ea))]. rewrite Et in Hd.
    change (32%N :: te ++ t) with ((32%N :: te) ++ t) in Hd. rewrite starts_with_self in Hd. discriminate.
  - exists (32%N :: b ++ 95%N :: te ++ t). split; [rewrite <- !app_assoc; reflexivity|]. split; [right; eexists; reflexivity|].
    destruct Hd as [Hd|Hd]; [left|right; exact Hd]. rewrite Et in Hd. cbn [starts_with] in *. rewrite N.eqb_refl in *. cbn [andb] in *.
    rewrite starts_stop in Hd by (cbn; intuition discriminate). rewrite starts_stop by (cbn; intuition discriminate). exact Hd.
Qed.

(** ** Which changes have an indicator in front *)

Lemma groups_front : forall W s, led W s -> exists more gs,
  split_on 32%N (sanitize_visibility s) = (W ++ more) :: gs.
Proof.
  intros W s (Sp & more & t & -> & N & B). exists more.
  destruct (vis_prefix 3 (W ++ more) t) as (t' & Ev & Bt).
  - apply Forall_forall. intros c Ic. destruct (is_space c) eqn:E; [|reflexivity]. exfalso.
    rewrite (Sp c) in Ic by (try exact E; apply in_or_app; left; exact Ic). exact (N Ic).
  - exact B.
  - unfold sanitize_visibility. rewrite Ev. destruct (split_first (W ++ more) t' N Bt) as (gs & ->). exists gs. reflexivity.
Qed.
Lemma groups_stay : forall W s, ~ In 32%N W -> stays W s -> exists gs, split_on 32%N (sanitize_visibility s) = W :: gs.
Proof.
  intros W s N (Sp & t & -> & B & _).
  destruct (vis_prefix 3 W t) as (t' & Ev & Bt).
  - apply Forall_forall. intros c Ic. destruct (is_space c) eqn:E; [|reflexivity]. exfalso.
    rewrite (Sp c) in Ic by (try exact E; apply in_or_app; left; exact Ic). exact (N Ic).
  - exact B.
  - unfold sanitize_visibility. rewrite Ev. exact (split_first W t' N Bt).
Qed.

Lemma spread_char : forall s, replace (py "_") (py " ") s = subst_char 95 32 s.
Proof. intro s. exact (replace_char 95 32 s). Qed.
Lemma spread_level : forall s, level (subst_char 95 32 s) = level s.
Proof.
  unfold level, subst_char. induction s as [|c s IH]; [reflexivity|]. cbn [map]. rewrite IH. f_equal.
  destruct (N.eqb_spec c 95) as [->|E]; [reflexivity|]. destruct (N.eqb_spec c 95); [contradiction|reflexivity].
Qed.
Lemma spread_app : forall a b, subst_char 95 32 (a ++ b) = subst_char 95 32 a ++ subst_char 95 32 b.
Proof. intros a b. apply map_app. Qed.
Lemma spread_joins : forall w, joins w -> subst_char 95 32 w = w.
Proof.
  intros w H. induction H as [|c w Hc H IH]; [reflexivity|]. cbn [subst_char map]. fold (subst_char 95 32 w). rewrite IH. f_equal.
  destruct (N.eqb_spec c 95) as [->|]; [discriminate|reflexivity].
Qed.
Lemma spread_spaced : forall s, spaced s -> spaced (subst_char 95 32 s) /\ ~ In 95%N (subst_char 95 32 s).
Proof.
  intros s H. unfold subst_char. split.
  - intros c I Hc. apply in_map_iff in I. destruct I as (x & Ex & Ix). destruct (N.eqb_spec x 95) as [E|E]; [congruence|].
    rewrite Ex in Ix. exact (H c Ix Hc).
  - intro I. apply in_map_iff in I. destruct I as (x & Ex & Ix). destruct (N.eqb_spec x 95) as [E|E]; [discriminate|congruence].
Qed.
Lemma spread_first : forall t, spaced t -> apart_first t -> blank_first (subst_char 95 32 t).
Proof.
  intros [|c t] H A; [left; reflexivity|]. right. exists (subst_char 95 32 t). cbn [subst_char map]. f_equal.
  destruct (N.eqb_spec c 95) as [->|E]; [reflexivity|]. cbn [apart_first] in A. unfold apart in A.
  apply orb_true_iff in A. destruct A as [A|A]; [|apply N.eqb_eq in A; contradiction]. apply (H c); [left; reflexivity|exact A].
Qed.
Lemma apart_blank : forall t, spaced t -> ~ In 95%N t -> apart_first t -> blank_first t.
Proof.
  intros [|c t] H N A; [left; reflexivity|]. right. exists t. f_equal. cbn [apart_first] in A. unfold apart in A.
  destruct (N.eqb_spec c 95) as [->|E]; [destruct N; left; reflexivity|].
  apply orb_true_iff in A. destruct A as [A|A]; [|apply N.eqb_eq in A; contradiction]. apply (H c); [left; reflexivity|exact A].
Qed.
Lemma joins_no32 : forall w, joins w -> ~ In 32%N w.
Proof. intros w H I. unfold joins in H. rewrite Forall_forall in H. specialize (H 32%N I). discriminate. Qed.
Lemma spaced_part : forall a b, spaced (a ++ b) -> spaced b.
Proof. intros a b H c I. apply H. apply in_or_app. right. exact I. Qed.

Lemma word_match : forall w rest, w = py "TEMPO" \/ w = py "BECMG" -> exists m, re_match r_T_CHANGE_INDICATOR (w ++ rest) = Some m.
Proof. intros w rest [-> | ->]; unfold re_match; eexists; reflexivity. Qed.

Lemma prob_headed : forall n t, n = 51%N \/ n = 52%N -> spaced (pr n ++ t) -> apart_first t ->
  headed (pr n ++ t) \/ Exists broken (words_of t).
Proof.
  intros n t Hn Sp A.
  assert (J : joins (pr n)) by (destruct Hn as [-> | ->]; repeat (apply Forall_cons; [reflexivity|]); apply Forall_nil).
  assert (Eg : subst_char 95 32 (pr n ++ t) = pr n ++ subst_char 95 32 t) by (rewrite spread_app, (spread_joins _ J); reflexivity).
  destruct (spread_spaced _ Sp) as [Sp2 N95]. pose proof (spread_first t (spaced_part _ _ Sp) A) as Bt.
  assert (Nw32 := joins_no32 _ J).
  destruct (starts_with (32%N :: te) (subst_char 95 32 t)) eqn:St.
  2:{ left. assert (Sy : stays (pr n) (subst_char 95 32 (pr n ++ t))).
      { split; [exact Sp2|]. exists (subst_char 95 32 t). split; [exact Eg|]. split; [exact Bt|left; exact St]. }
      destruct (groups_stay (pr n) _ Nw32 (stays_keeps (pr n) 5 _ Nw32 Sy)) as (gs & G).
      assert (M : exists m, re_match r_T_CHANGE_INDICATOR (pr n) = Some m)
        by (destruct Hn as [-> | ->]; unfold re_match; eexists; reflexivity).
      destruct M as (m & M). exists (pr n), gs, m. split; [unfold change_groups; rewrite spread_char; exact G|exact M]. }
  apply starts_with_app in St. destruct St as (t2 & Et2).
  destruct (take_joins t2) as (v & t3 & -> & Jv & Av).
  destruct v as [|d v].
  2:{ right.
      assert (Ewt : words_of t = (te ++ d :: v) :: words_of t3).
      { rewrite <- (words_level t), <- spread_level, words_level, Et2.
        change ((32%N :: te) ++ (d :: v) ++ t3) with (32%N :: ((te ++ d :: v) ++ t3)). rewrite words_cons by reflexivity.
        apply words_first; [|discriminate|exact Av]. apply Forall_app. split; [repeat (apply Forall_cons; [reflexivity|]); apply Forall_nil|exact Jv]. }
      rewrite Ewt. apply Exists_cons_hd. right. right. split; [reflexivity|discriminate]. }
  left. cbn [app] in Et2.
  assert (Eg2 : subst_char 95 32 (pr n ++ t) = pr n ++ 32%N :: te ++ t3) by (rewrite Eg, Et2; reflexivity).
  assert (B3 : blank_first t3).
  { apply apart_blank; [| |exact Av].
    - rewrite Eg2 in Sp2. apply (spaced_part (pr n ++ 32%N :: te)). rewrite <- app_assoc. exact Sp2.
    - intro K. apply N95. rewrite Eg2. apply in_or_app. right. right. apply in_or_app. right. exact K. }
  assert (M0 : exists m0, re_match r_SAN_PROB ((pr n ++ 32%N :: te) ++ t3) = Some m0 /\ m_end m0 = length (pr n ++ 32%N :: te))
    by (destruct Hn as [-> | ->]; unfold re_match; eexists; split; reflexivity).
  destruct M0 as (m0 & M0 & Ee).
  assert (Hs : sanitize_change_indicator (subst_char 95 32 (pr n ++ t)) = sanitize_change_indicator_n 4 ((pr n ++ 95%N :: te) ++ t3)).
  { rewrite Eg2. unfold sanitize_change_indicator. cbn [sanitize_change_indicator_n].
    change (pr n ++ 32%N :: te ++ t3) with ([] ++ (pr n ++ 32%N :: te) ++ t3).
    destruct (step_at r_SAN_PROB (py "PROB" ++ fmt_opt (Some [n; 48%N]) ++ py "_TEMPO") [] (pr n ++ 32%N :: te) t3 m0
                eq_refl eq_refl (quiet_nil _ _) ltac:(discriminate) M0 Ee) as (S1 & m' & Es & Em).
    rewrite Es, Em, (prob_percent n 32%N t3 m0 Hn eq_refl M0), S1. reflexivity. }
  assert (Nt : ~ In 32%N (pr n ++ 95%N :: te)) by (destruct Hn as [-> | ->]; cbn; intuition discriminate).
  assert (Sy : stays (pr n ++ 95%N :: te) ((pr n ++ 95%N :: te) ++ t3)).
  { split; [pose proof (spaced_step [] n 32%N t3) as K; rewrite Eg2 in Sp2; exact (K Sp2)|].
    exists t3. split; [reflexivity|]. split; [exact B3|right].
    intros p n' E. apply (f_equal (@rev N)) in E. rewrite !rev_app_distr in E. discriminate E. }
  destruct (groups_stay _ _ Nt (stays_keeps _ 4 _ Nt Sy)) as (gs & G).
  assert (M : exists m, re_match r_T_CHANGE_INDICATOR (pr n ++ 95%N :: te) = Some m)
    by (destruct Hn as [-> | ->]; unfold re_match; eexists; reflexivity).
  destruct M as (m & M). exists (pr n ++ 95%N :: te), gs, m. split; [unfold change_groups; rewrite spread_char, Hs; exact G|exact M].
Qed.

Lemma change_headed : forall c, spaced c -> SpecText.begins_any change_words c = true ->
  headed c \/ Exists broken (words_of c).
Proof.
  intros c Sp B. destruct (first_word c B) as (w & t & -> & J & Nw & A & Ew & Bw).
  assert (Eg : subst_char 95 32 (w ++ t) = w ++ subst_char 95 32 t) by (rewrite spread_app, (spread_joins w J); reflexivity).
  destruct (spread_spaced _ Sp) as [Sp2 N95]. pose proof (spread_first t (spaced_part _ _ Sp) A) as Bt.
  assert (Nw32 := joins_no32 w J).
  assert (Ld : led w (subst_char 95 32 (w ++ t))).
  { split; [exact Sp2|]. exists [], (subst_char 95 32 t). rewrite !app_nil_r. split; [exact Eg|]. split; [exact Nw32|exact Bt]. }
  assert (G : exists more gs, change_groups (w ++ t) = (w ++ more) :: gs).
  { unfold change_groups. rewrite spread_char. apply groups_front. unfold sanitize_change_indicator. apply led_keeps. exact Ld. }
  rewrite Ew. unfold SpecText.begins_any, change_words in Bw. cbn [existsb] in Bw. rewrite !orb_true_iff in Bw.
  destruct Bw as [F|[T|[C|[P|F]]]]; [| | | |discriminate F].
  - destruct G as (more & gs & G). destruct (re_match r_T_CHANGE_INDICATOR (w ++ more)) as [m|] eqn:M.
    + left. exists (w ++ more), gs, m. split; [exact G|exact M].
    + right. apply Exists_cons_hd. left. split; [exact F|]. intros (d & h & mi & rest & E & Hd & Hh & Hm).
      rewrite E, <- app_assoc in M. destruct (fm_captures d h mi (rest ++ more) Hd Hh Hm) as (m & K & _).
      rewrite K in M. discriminate M.
  - left. destruct G as (more & gs & G). apply starts_with_app in T. destruct T as (u & ->).
    destruct (word_match (py "TEMPO") (u ++ more) (or_introl eq_refl)) as (m & M).
    exists ((py "TEMPO" ++ u) ++ more), gs, m. split; [exact G|]. rewrite <- app_assoc. exact M.
  - left. destruct G as (more & gs & G). apply starts_with_app in C. destruct C as (u & ->).
    destruct (word_match (py "BECMG") (u ++ more) (or_intror eq_refl)) as (m & M).
    exists ((py "BECMG" ++ u) ++ more), gs, m. split; [exact G|]. rewrite <- app_assoc. exact M.
  - clear G.
    destruct (list_eq_dec N.eq_dec w (py "PROB30")) as [E30|N30];
      [|destruct (list_eq_dec N.eq_dec w (py "PROB40")) as [E40|N40];
        [|right; apply Exists_cons_hd; right; left; split; [exact P|split; assumption]]].
    all: assert (En : exists n, w = pr n /\ (n = 51%N \/ n = 52%N))
      by (first [exists 51%N; split; [exact E30|left; reflexivity]|exists 52%N; split; [exact E40|right; reflexivity]]).
    all: destruct En as (n & En & Hn); rewrite En in *; clear En.
    all: destruct (prob_headed n t Hn Sp A) as [H|H]; [left; exact H|right; apply Exists_cons_tl; exact H].
Qed.
