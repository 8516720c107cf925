(** * Proofs: exactly when a METAR is refused (C83) *)
From Coq Require Import String Ascii.
From Coq Require Import List NArith ZArith Bool Lia.
From Verif Require Import PyBase PyRegex AeroRegex PyTime Utils Base MetarGroups Trend Metar SpecNum SpecTime SpecMetar SpecFailures SpecVision SpecGrammar SpecRefused
  StrFacts RegexPaths Captures Outcomes TextFacts ProofText TimeFacts ProofTime SymRegex ProofGroups ProofValues OutTime OutMetar Keeps ProofMetarText OutReport ProofVision ProofLists.
Import ListNotations.
Local Open Scope string_scope.
Local Open Scope nat_scope.
Local Open Scope list_scope.

(** ** The words that are taken *)

Lemma accepts_dec : forall p g, {accepts p g} + {~ accepts p g}.
Proof. intros p g. unfold accepts. destruct (re_match p g); [left; discriminate|right; intro K; apply K; reflexivity]. Qed.

Lemma first_at : forall (ps : list regex) g i, (exists k p, i <= k /\ nth_error ps k = Some p /\ accepts p g /\ forall j q, i <= j < k -> nth_error ps j = Some q -> ~ accepts q g)
  \/ (forall j q, i <= j -> nth_error ps j = Some q -> ~ accepts q g).
Proof.
  intros ps g i. remember (length ps - i) as n eqn:E. revert i E. induction n as [|n IH]; intros i E.
  - right. intros j q L N. assert (j < length ps) by (apply nth_error_Some; congruence). lia.
  - destruct (nth_error ps i) as [p|] eqn:P; [|apply nth_error_None in P; lia].
    destruct (accepts_dec p g) as [A|A].
    + left. exists i, p. split; [lia|]. split; [exact P|]. split; [exact A|]. intros j q L. lia.
    + destruct (IH (S i) ltac:(lia)) as [(k & q & L & N & B & F)|F].
      * left. exists k, q. split; [lia|]. split; [exact N|]. split; [exact B|]. intros j r Lj Nj.
        destruct (Nat.eq_dec j i) as [->|D]; [assert (r = p) by congruence; subst r; exact A|]. apply (F j); [lia|exact Nj].
      * right. intros j r Lj Nj. destruct (Nat.eq_dec j i) as [->|D]; [assert (r = p) by congruence; subst r; exact A|]. apply (F j); [lia|exact Nj].
Qed.

Lemma takes_total : forall ps gs i, exists t u, takes ps i gs t u.
Proof.
  intros ps gs. induction gs as [|g gs IH]; intro i; [do 2 eexists; constructor|].
  destruct (first_at ps g i) as [(k & p & L & N & A & F)|F].
  - destruct (IH (S k)) as (t & u & H). do 2 eexists. eapply takes_word; eassumption.
  - destruct (IH i) as (t & u & H). do 2 eexists. apply takes_not; eassumption.
Qed.
Lemma takes_one : forall ps i gs t u, takes ps i gs t u -> forall t' u', takes ps i gs t' u' -> t' = t /\ u' = u.
Proof.
  intros ps i gs t u H. induction H as [i|i k p g gs t u L N A F H IH|i g gs t u F H IH]; intros t' u' H'.
  - inversion H'. auto.
  - inversion H' as [|i0 k' p' g0 gs0 t0 u0 L' N' A' F' H0|i0 g0 gs0 t0 u0 F' H0]; subst.
    + assert (k' = k).
      { destruct (Nat.lt_trichotomy k k') as [D|[D|D]]; [|auto|]; exfalso; [exact (F' k p ltac:(lia) N A)|exact (F k' p' ltac:(lia) N' A')]. }
      subst k'. destruct (IH _ _ H0) as [-> ->]. auto.
    + exfalso. exact (F' k p L N A).
  - inversion H' as [|i0 k' p' g0 gs0 t0 u0 L' N' A' F' H0|i0 g0 gs0 t0 u0 F' H0]; subst.
    + exfalso. exact (F k' p' L' N' A').
    + destruct (IH _ _ H0) as [-> ->]. auto.
Qed.

Section Run.
  Context {T : Type} (hs : list (handler T)) (J : list (nat * str) -> nat -> T -> Prop) (bad : list (nat * str) -> nat * str -> exn -> Prop) (G : list str).
  Hypothesis mono : forall a i j st, i <= j -> J a i st -> J a j st.
  Hypothesis step : forall a k h g m st, nth_error hs k = Some h -> In g G -> re_match (h_regexp h) g = Some m -> J a k st ->
    (exists st', h_handle h m st = Ok st' /\ J (a ++ [(k, g)]) (S k) st' /\ forall e, ~ bad a (k, g) e)
    \/ (exists e, h_handle h m st = Raise e /\ forall e', bad a (k, g) e' <-> e' = e).

  Definition clean_from (a t : list (nat * str)) : Prop := forall b z c e, t = b ++ z :: c -> ~ bad (a ++ b) z e.
  Definition bad_from (a t : list (nat * str)) (e : exn) : Prop := exists b z c, t = b ++ z :: c /\ clean_from a b /\ bad (a ++ b) z e.

  Lemma first_of : forall i g,
    first_match (skipn i hs) 0 g = None /\ (forall j q, i <= j -> nth_error (map h_regexp hs) j = Some q -> ~ accepts q g)
    \/ exists k h m, first_match (skipn i hs) 0 g = Some (S k - i, h, m) /\ i <= k /\ nth_error hs k = Some h /\ re_match (h_regexp h) g = Some m
         /\ forall j q, i <= j < k -> nth_error (map h_regexp hs) j = Some q -> ~ accepts q g.
  Proof.
    intros i g.
    assert (GEN : forall (l : list (handler T)) c, first_match l c g = None /\ (forall j h, nth_error l j = Some h -> ~ accepts (h_regexp h) g)
      \/ exists k h m, first_match l c g = Some (S k + c, h, m) /\ nth_error l k = Some h /\ re_match (h_regexp h) g = Some m
           /\ forall j h', j < k -> nth_error l j = Some h' -> ~ accepts (h_regexp h') g).
    { intro l. induction l as [|h l IH]; intro c; cbn [first_match].
      - left. split; [reflexivity|]. intros [|j] h K; discriminate K.
      - destruct (re_match (h_regexp h) g) as [m|] eqn:M.
        + right. exists 0, h, m. split; [reflexivity|]. split; [reflexivity|]. split; [exact M|]. intros j h' L. lia.
        + destruct (IH (S c)) as [[E F]|(k & h1 & m & E & N & M1 & F)].
          * left. split; [exact E|]. intros [|j] h' K; [cbn in K; assert (h' = h) by congruence; subst h'; unfold accepts; congruence|exact (F j h' K)].
          * right. exists (S k), h1, m. split; [rewrite E; f_equal; f_equal; f_equal; lia|]. split; [exact N|]. split; [exact M1|].
            intros [|j] h' L K; [cbn in K; assert (h' = h) by congruence; subst h'; unfold accepts; congruence|exact (F j h' ltac:(lia) K)]. }
    assert (Q : forall j q, i <= j -> nth_error (map h_regexp hs) j = Some q -> exists h, nth_error (skipn i hs) (j - i) = Some h /\ q = h_regexp h).
    { intros j q L N. rewrite nth_skipn. replace (i + (j - i)) with j by lia. rewrite nth_error_map in N. destruct (nth_error hs j) as [h|]; [|discriminate N]. exists h. split; [reflexivity|]. cbn in N. congruence. }
    destruct (GEN (skipn i hs) 0) as [[E F]|(k & h & m & E & N & M & F)].
    - left. split; [exact E|]. intros j q L N0. destruct (Q j q L N0) as (h & Nh & ->). exact (F _ h Nh).
    - right. exists (i + k), h, m. split; [rewrite E; f_equal; f_equal; f_equal; lia|]. split; [lia|]. split; [rewrite nth_skipn in N; exact N|]. split; [exact M|].
      intros j q L N0. destruct (Q j q ltac:(lia) N0) as (h' & Nh & ->). exact (F (j - i) h' ltac:(lia) Nh).
  Qed.

  Lemma remove_length : forall g l, length (list_remove g (l ++ [g])) = length l.
  Proof.
    intros g l. induction l as [|y l IH]; cbn [app list_remove length].
    - rewrite (proj2 (str_eqb_eq g g) eq_refl). reflexivity.
    - destruct (str_eqb g y); [rewrite app_length; cbn; lia|]. cbn [length]. rewrite IH. reflexivity.
  Qed.

  Lemma clean_cons : forall a z t, (forall e, ~ bad a z e) -> clean_from (a ++ [z]) t -> clean_from a (z :: t).
  Proof.
    intros a z t N C b y c e E. destruct b as [|x b]; cbn [app] in E; injection E as <- ->.
    - rewrite app_nil_r. apply N.
    - specialize (C b y c e eq_refl). rewrite <- app_assoc in C. exact C.
  Qed.
  Lemma clean_inv : forall a z t, clean_from a (z :: t) -> (forall e, ~ bad a z e) /\ clean_from (a ++ [z]) t.
  Proof.
    intros a z t C. split.
    - intro e. specialize (C [] z t e eq_refl). rewrite app_nil_r in C. exact C.
    - intros b y c e ->. specialize (C (z :: b) y c e eq_refl). rewrite <- app_assoc. exact C.
  Qed.
  Lemma bad_cons : forall a z t e, (forall e, ~ bad a z e) -> bad_from (a ++ [z]) t e <-> bad_from a (z :: t) e.
  Proof.
    intros a z t e N. split.
    - intros (b & y & c & -> & C & B). exists (z :: b), y, c. split; [reflexivity|]. split; [exact (clean_cons a z b N C)|]. rewrite <- app_assoc in B. exact B.
    - intros (b & y & c & E & C & B). destruct b as [|x b]; cbn [app] in E; injection E as <- ->.
      + rewrite app_nil_r in B. exfalso. exact (N e B).
      + apply clean_inv in C. exists b, y, c. split; [reflexivity|]. split; [exact (proj2 C)|]. rewrite <- app_assoc. exact B.
  Qed.
  Lemma bad_here : forall a z t e, (forall e', bad a z e' <-> e' = e) -> forall e', bad_from a (z :: t) e' <-> e' = e.
  Proof.
    intros a z t e H e'. split.
    - intros (b & y & c & E & C & B). destruct b as [|x b]; cbn [app] in E; injection E as <- ->.
      + rewrite app_nil_r in B. apply H. exact B.
      + exfalso. apply clean_inv in C. destruct C as [C _]. apply (C e). apply H. reflexivity.
    - intros ->. exists [], z, t. split; [reflexivity|]. split; [intros [|? ?] ? ? ? K; discriminate K|]. rewrite app_nil_r. apply H. reflexivity.
  Qed.

  Lemma run_groups : forall gs a i un st t u, incl gs G -> takes (map h_regexp hs) i gs t u -> J a i st ->
    (exists e, parse_groups hs gs i un st = Raise e /\ forall e', bad_from a t e' <-> e' = e)
    \/ (exists st' un' k, parse_groups hs gs i un st = Ok (st', un') /\ J (a ++ t) k st' /\ clean_from a t /\ length un' = length un + length u).
  Proof.
    intro gs. induction gs as [|g gs IH]; intros a i un st t u Inc H I.
    - inversion H; subst. right. exists st, un, i. cbn [parse_groups]. split; [reflexivity|]. rewrite app_nil_r. split; [exact I|].
      split; [intros [|? ?] ? ? ? K; discriminate K|]. cbn. lia.
    - assert (Ig : In g G) by (apply Inc; left; reflexivity).
      assert (Is : incl gs G) by (intros x Hx; apply Inc; right; exact Hx).
      cbn [parse_groups]. cbv zeta. destruct (first_of i g) as [[E F]|(k & h & m & E & L & N & M & F)]; rewrite E.
      + inversion H as [|i0 k' p' g0 gs0 t0 u0 L' N' A' F' H0|i0 g0 gs0 t0 u0 F' H0]; subst; [exfalso; exact (F _ _ L' N' A')|].
        destruct (IH a i (un ++ [g]) st t u0 Is H0 I) as [R|(st' & un' & k & R1 & R2 & R3 & R4)]; [left; exact R|right].
        exists st', un', k. split; [exact R1|]. split; [exact R2|]. split; [exact R3|]. rewrite R4, app_length. cbn. lia.
      + assert (Np : nth_error (map h_regexp hs) k = Some (h_regexp h)) by (rewrite nth_error_map, N; reflexivity).
        assert (Ap : accepts (h_regexp h) g) by (unfold accepts; congruence).
        inversion H as [|i0 k' p' g0 gs0 t0 u0 L' N' A' F' H0|i0 g0 gs0 t0 u0 F' H0]; subst; [|exfalso; exact (F' _ _ L Np Ap)].
        assert (K : k' = k).
        { destruct (Nat.lt_trichotomy k k') as [D|[D|D]]; [|auto|]; exfalso; [exact (F' k _ ltac:(lia) Np Ap)|exact (F k' p' ltac:(lia) N' A')]. }
        subst k'. destruct (step a k h g m st N Ig M (mono a i k st L I)) as [(st1 & E1 & J1 & N1)|(e & E1 & B1)]; rewrite E1; cbn [bind].
        * replace (i + (S k - i)) with (S k) by lia. destruct (IH (a ++ [(k, g)]) (S k) (list_remove g (un ++ [g])) st1 t0 u Is H0 J1) as [(e & R1 & R2)|(st' & un' & k1 & R1 & R2 & R3 & R4)].
          -- left. exists e. split; [exact R1|]. intro e'. rewrite <- (bad_cons a (k, g) t0 e' N1). apply R2.
          -- right. exists st', un', k1. split; [exact R1|]. rewrite <- app_assoc in R2. split; [exact R2|]. split; [exact (clean_cons _ _ _ N1 R3)|].
             rewrite R4, remove_length. reflexivity.
        * left. exists e. split; [reflexivity|]. exact (bad_here a (k, g) t0 e B1).
  Qed.
End Run.

Lemma run_section : forall T (hs : list (handler T)) (J : list (nat * str) -> nat -> T -> Prop) (bad : list (nat * str) -> nat * str -> exn -> Prop) sec st t u,
  (forall a i j st, i <= j -> J a i st -> J a j st) ->
  (forall a k h g m st, nth_error hs k = Some h -> In g (split_on 32%N sec) -> re_match (h_regexp h) g = Some m -> J a k st ->
    (exists st', h_handle h m st = Ok st' /\ J (a ++ [(k, g)]) (S k) st' /\ forall e, ~ bad a (k, g) e)
    \/ (exists e, h_handle h m st = Raise e /\ forall e', bad a (k, g) e' <-> e' = e)) ->
  takes (map h_regexp hs) 0 (split_on 32%N sec) t u -> J [] 0 st ->
  (exists e, parse_section hs sec st = Raise e /\ forall e', first_bad bad t e' <-> e' = e)
  \/ (exists st' un k, parse_section hs sec st = Ok (st', un) /\ J t k st' /\ none_bad bad t /\ length un = length u).
Proof.
  intros T hs J bad sec st t u mono step H I.
  exact (run_groups hs J bad (split_on 32%N sec) mono step (split_on 32%N sec) [] 0 [] st t u (fun x Hx => Hx) H I).
Qed.

(** ** The body *)

Lemma time_match_at : forall g m, re_match r_TIME g = Some m -> exists x a b c,
  (exists t, g = x ++ t) /\ x = a ++ b ++ c ++ py "Z" /\ group m "day" = Some a /\ group m "hour" = Some b /\ group m "min" = Some c
  /\ day_text a /\ (hour_text b \/ b = py "24") /\ inst c M60 /\ m_string m = g.
Proof.
  intros g m M. pose proof time_paths as T. apply andb_true_iff in T. destruct T as [F T].
  destruct (path_check r_TIME g m time_path F M T) as (q & x & t & P & Fo). unfold time_path in P.
  rewrite !andb_true_iff in P. destruct P as (((((((L & S1) & S2) & S3) & P1) & P2) & P3) & P4).
  apply Nat.eqb_eq in L. rewrite <- (follows_length _ _ _ _ _ Fo) in L.
  exists x, (substr x 0 2), (substr x 2 4), (substr x 4 6). conjs.
  - destruct Fo as (E & _); exists t; exact E.
  - rewrite <- (spells_ok _ _ _ P4 (piece_along _ _ _ _ _ 6 7 Fo)). exact (cut7 x L).
  - exact (span_is_group _ _ _ _ _ _ _ _ Fo S1).
  - exact (span_is_group _ _ _ _ _ _ _ _ Fo S2).
  - exact (span_is_group _ _ _ _ _ _ _ _ Fo S3).
  - exact (day_path_ok _ _ (piece_along _ _ _ _ _ 0 2 Fo) P1).
  - exact (hour24_path_ok _ _ (piece_along _ _ _ _ _ 2 4 Fo) P2).
  - exact (min_path_ok _ _ (piece_along _ _ _ _ _ 4 6 Fo) P3).
  - destruct Fo as (_ & E & _). exact E.
Qed.

Lemma time_any_at : forall e g m year month, re_match r_TIME g = Some m -> month_wf e year month ->
  let y := opt_default (now_year e) year in let mo := opt_default (now_month e) month in
  exists d h mi, stamped g d h mi /\ (h <= 24)%N /\
    time_from_metar e (Some m) year month
    = if valid_date y mo (Z.of_N d) && (h <? 24)%N
      then Ok (mk_time (group_code (Some g)) (mk_dt y mo (Z.of_N d) (Z.of_N h) (Z.of_N mi))) else Raise ValueError.
Proof.
  intros e g m year month M [Hy Hm] y mo. destruct (time_match_at g m M) as (x & a & b & c & (t & C) & X & Ga & Gb & Gc & A & B & M6 & Es).
  destruct (day_value a A) as [La (d & Ra & Bd)]. destruct (min_value c M6) as [Lc (mi & Rc & Bm)].
  unfold time_from_metar, time_new. rewrite Ga, Gb, Gc, Es. cbn [opt_default]. fold y mo. fold y in Hy. fold mo in Hm.
  remember (Z.to_N y) as y' eqn:Ey. remember (Z.to_N mo) as mo' eqn:Emo.
  assert (E1 : y = Z.of_N y') by lia. assert (E2 : mo = Z.of_N mo') by lia. clearbody y mo. subst y mo. clear Ey Emo.
  rewrite Z_str_year, Z_pad_month by lia. destruct B as [B| ->].
  - destruct (hour_value b B) as [Lb (h & Rb & Bh)]. exists d, h, mi. split; [exists x, t; split; [exact C|]|split; [lia|]].
    + exists a, b, c. conjs; auto. all: lia.
    + rewrite (strptime_any y' mo' a b c d h mi) by (assumption || lia).
      replace (h <? 24)%N with true by (symmetry; apply N.ltb_lt; lia). rewrite andb_true_r.
      destruct (valid_date (Z.of_N y') (Z.of_N mo') (Z.of_N d)); reflexivity.
  - exists d, 24%N, mi. split; [exists x, t; split; [exact C|]|split; [lia|]].
    + exists a, (py "24"), c. conjs; auto; try lia; try reflexivity. split; [discriminate|reflexivity].
    + rewrite (strptime_any24 y' mo' a c) by (assumption || lia). change (24 <? 24)%N with false. rewrite andb_false_r. reflexivity.
Qed.

Lemma app_eq : forall (a a' b b' : str), length a = length a' -> a ++ b = a' ++ b' -> a' = a /\ b' = b.
Proof.
  induction a as [|c a IH]; intros [|c' a'] b b' L E; try discriminate L; [split; [reflexivity|symmetry; exact E]|].
  cbn [app] in E. injection E as <- E. injection L as L. destruct (IH a' b b' L E) as [-> ->]. auto.
Qed.

Lemma stamped_one : forall g d h mi d' h' mi', stamped g d h mi -> stamped g d' h' mi' -> d' = d /\ h' = h /\ mi' = mi.
Proof.
  intros g d h mi d' h' mi' (x & r & E & a & b & c & -> & Ra & Rb & Rc & La & Lb & Lc & _) (x' & r' & E' & a' & b' & c' & -> & Ra' & Rb' & Rc' & La' & Lb' & Lc' & _).
  subst g. rewrite <- !app_assoc in E'.
  destruct (app_eq a a' _ _ ltac:(congruence) E') as [-> E1].
  destruct (app_eq b b' _ _ ltac:(congruence) (eq_sym E1)) as [-> E2].
  destruct (app_eq c c' _ _ ltac:(congruence) (eq_sym E2)) as [-> _].
  destruct Ra as [_ Ra], Rb as [_ Rb], Rc as [_ Rc], Ra' as [_ Ra'], Rb' as [_ Rb'], Rc' as [_ Rc']. conjs; congruence.
Qed.

(** What the report time is after the words [a]. *)
Definition told (y mo : Z) (a : list (nat * str)) (t : datetime) : Prop :=
  ((forall g, ~ In (2, g) a) /\ t = mk_dt y mo 1 0 0)
  \/ (exists g d h mi, (forall g', In (2, g') a <-> g' = g) /\ stamped g d h mi /\ t = mk_dt y mo (Z.of_N d) (Z.of_N h) (Z.of_N mi)).

Lemma told_other : forall y mo a t k g, k <> 2 -> told y mo a t -> told y mo (a ++ [(k, g)]) t.
Proof.
  intros y mo a t k g N H.
  assert (K : forall g', In (2, g') (a ++ [(k, g)]) <-> In (2, g') a).
  { intro g'. rewrite in_app_iff. split; [intros [I|[I|[]]]; [exact I|congruence]|auto]. }
  destruct H as [[H E]|(g0 & d & h & mi & H & R)]; [left|right].
  - split; [|exact E]. intros g' I. apply K in I. exact (H g' I).
  - exists g0, d, h, mi. split; [|exact R]. intro g'. rewrite K. apply H.
Qed.
Lemma told_late : forall y mo a t, told y mo a t -> (late t <-> at_the_end y mo a).
Proof.
  intros y mo a t [[H ->]|(g & d & h & mi & H & R & ->)]; unfold late, at_the_end; cbn [dt_year dt_month dt_day dt_hour].
  - split; [intros (_ & _ & K & _); discriminate K|]. intros (_ & _ & g & h & mi & I & _). exfalso. exact (H g I).
  - split.
    + intros (-> & -> & E & L). split; [reflexivity|]. split; [reflexivity|]. exists g, h, mi.
      split; [apply H; reflexivity|]. replace 31%N with d by lia. split; [exact R|lia].
    + intros (-> & -> & g' & h' & mi' & I & R' & L). apply H in I. subst g'. destruct (stamped_one _ _ _ _ _ _ _ R R') as (<- & <- & <-).
      conjs; try reflexivity. lia.
Qed.

Section Body.
Variables (e : env) (year month : option Z) (G secs : list str).
Hypothesis W : month_wf e year month.
Notation y := (opt_default (now_year e) year).
Notation mo := (opt_default (now_month e) month).
Notation inv := (body_inv y mo G secs).

Definition body_state (a : list (nat * str)) (k : nat) (x : metar) : Prop :=
  inv k x /\ told y mo a (t_dt (me_time x)) /\ Forall (fun z => fst z < k) a.

Lemma body_others : forall a k h g m x, nth_error (metar_handlers e year month) k = Some h -> re_match (h_regexp h) g = Some m -> inv k x -> k <> 2 ->
  (exists x', h_handle h m x = Ok x' /\ me_time x' = me_time x /\ forall ex, ~ body_bad y mo a (k, g) ex)
  \/ (exists ex, h_handle h m x = Raise ex /\ forall e', body_bad y mo a (k, g) e' <-> e' = ex).
Proof.
  assert (FINE : forall a k g (r : result metar) x, k <> 2 -> k <> 6 -> k <> 7 -> (exists x', r = Ok x' /\ me_time x' = me_time x) ->
    (exists x', r = Ok x' /\ me_time x' = me_time x /\ forall ex, ~ body_bad y mo a (k, g) ex)
    \/ (exists ex, r = Raise ex /\ forall e', body_bad y mo a (k, g) e' <-> e' = ex)).
  { intros a k g r x N1 N2 N3 (x' & E1 & E2). left. exists x'. split; [exact E1|]. split; [exact E2|]. intros ex B.
    unfold body_bad in B. cbn [fst snd] in B. do 8 (destruct k as [|k]; [congruence || exact B|]). exact B. }
  assert (RVR : forall k g m x, 8 <= k < 11 -> re_match r_RUNWAY_RANGE g = Some m -> inv k x -> exists x', handle_runway_range m x = Ok x' /\ me_time x' = me_time x).
  { intros k g m x Hk M (A & _). unfold handle_runway_range. destruct (rvr_fine g m M) as (r & ->). cbn [bind].
    destruct (room_add _ _ _ r _ A) as (l & -> & _); [lia|]. eexists. split; reflexivity. }
  assert (WEA : forall k m x, 11 <= k < 14 -> inv k x -> exists x', lift handle_weather m x = Ok x' /\ me_time x' = me_time x).
  { intros k m x Hk (_ & A & _). unfold lift, handle_weather. cbv zeta.
    destruct (room_add _ _ _ (weather_new (Some m)) _ A) as (l & -> & _); [lia|]. eexists. split; reflexivity. }
  assert (CLO : forall k g m x, 14 <= k < 18 -> re_match r_CLOUD g = Some m -> inv k x -> exists x', lift handle_cloud m x = Ok x' /\ me_time x' = me_time x).
  { intros k g m x Hk M (_ & _ & A & _). unfold lift, handle_cloud. destruct (cloud_fine g m M) as (c & ->). cbn [bind].
    destruct (room_add _ _ _ c _ A) as (l & -> & _); [lia|]. eexists. split; reflexivity. }
  assert (WSH : forall k m x, 22 <= k < 25 -> inv k x -> exists x', handle_windshear m x = Ok x' /\ me_time x' = me_time x).
  { intros k m x Hk (_ & _ & _ & A & _). unfold handle_windshear. cbv zeta.
    destruct (room_add _ _ _ (windshear_new (Some m)) _ A) as (l & -> & _); [lia|]. eexists. split; reflexivity. }
  intros a k h g m x E M I N. unfold metar_handlers in E.
  nth_cases k E.
  - apply FINE; try discriminate. eexists. split; reflexivity.
  - apply FINE; try discriminate. eexists. split; reflexivity.
  - congruence.
  - apply FINE; try discriminate. eexists. split; reflexivity.
  - apply FINE; try discriminate. unfold lift, handle_wind. destruct (wind_fine r_WIND g m (proj1 wind_checks_ok) M) as (w & ->). eexists. split; reflexivity.
  - apply FINE; try discriminate. unfold handle_wind_variation. destruct (wvar_fine g m M) as (v & ->). eexists. split; reflexivity.
  - unfold lift, handle_prevailing, body_bad. cbn [fst snd]. destruct (prevailing_new (Some m)) as [v|ex] eqn:P; cbn [bind].
    + left. eexists. split; [reflexivity|]. split; [reflexivity|]. intros ex B. apply (prevailing_exact g m ex M) in B. congruence.
    + right. exists ex. split; [reflexivity|]. intro e'. rewrite <- (prevailing_exact g m e' M), P. split; [congruence|intros ->; reflexivity].
  - unfold handle_minimum_visibility, body_bad. cbn [fst snd]. destruct (minimum_visibility_new (Some m)) as [v|ex] eqn:P; cbn [bind].
    + left. eexists. split; [reflexivity|]. split; [reflexivity|]. intros ex B. apply (minimum_exact g m ex M) in B. congruence.
    + right. exists ex. split; [reflexivity|]. intro e'. rewrite <- (minimum_exact g m e' M), P. split; [congruence|intros ->; reflexivity].
  - apply FINE; try discriminate. apply (RVR 8 g); [lia|exact M|exact I].
  - apply FINE; try discriminate. apply (RVR 9 g); [lia|exact M|exact I].
  - apply FINE; try discriminate. apply (RVR 10 g); [lia|exact M|exact I].
  - apply FINE; try discriminate. apply (WEA 11); [lia|exact I].
  - apply FINE; try discriminate. apply (WEA 12); [lia|exact I].
  - apply FINE; try discriminate. apply (WEA 13); [lia|exact I].
  - apply FINE; try discriminate. apply (CLO 14 g); [lia|exact M|exact I].
  - apply FINE; try discriminate. apply (CLO 15 g); [lia|exact M|exact I].
  - apply FINE; try discriminate. apply (CLO 16 g); [lia|exact M|exact I].
  - apply FINE; try discriminate. apply (CLO 17 g); [lia|exact M|exact I].
  - apply FINE; try discriminate. unfold handle_temperatures. destruct (temps_fine g m M) as (v & ->). eexists. split; reflexivity.
  - apply FINE; try discriminate. unfold handle_pressure. destruct (press_fine g m M) as (v & ->). eexists. split; reflexivity.
  - apply FINE; try discriminate. unfold handle_pressure. destruct (press_fine g m M) as (v & ->). eexists. split; reflexivity.
  - apply FINE; try discriminate. eexists. split; reflexivity.
  - apply FINE; try discriminate. apply (WSH 22); [lia|exact I].
  - apply FINE; try discriminate. apply (WSH 23); [lia|exact I].
  - apply FINE; try discriminate. apply (WSH 24); [lia|exact I].
  - apply FINE; try discriminate. unfold handle_sea_state. destruct (sea_fine g m M) as (v & ->). eexists. split; reflexivity.
  - apply FINE; try discriminate. eexists. split; reflexivity.
  - destruct k; discriminate E.
Qed.

Lemma body_time : forall a g m x, re_match r_TIME g = Some m -> (forall g', ~ In (2, g') a) ->
  (exists x', handle_time e year month m x = Ok x' /\ told y mo (a ++ [(2, g)]) (t_dt (me_time x')) /\ forall ex, ~ body_bad y mo a (2, g) ex)
  \/ (exists ex, handle_time e year month m x = Raise ex /\ forall e', body_bad y mo a (2, g) e' <-> e' = ex).
Proof.
  intros a g m x M N. destruct (time_any_at e g m year month M W) as (d & h & mi & P & Bh & E). unfold handle_time. rewrite E. unfold body_bad. cbn [fst snd].
  assert (K : valid_date y mo (Z.of_N d) && (h <? 24)%N = true <-> ~ impossible y mo d h).
  { unfold impossible. rewrite andb_true_iff, valid_date_spec, N.ltb_lt. split.
    - intros [A B] [C|C]; [exact (C A)|lia].
    - intro A. split.
      + destruct (valid_date y mo (Z.of_N d)) eqn:V; [apply valid_date_spec; exact V|]. exfalso. apply A. left. intro R. apply valid_date_spec in R. congruence.
      + destruct (N.eq_dec h 24) as [->|D]; [exfalso; apply A; right; reflexivity|lia]. }
  destruct (valid_date y mo (Z.of_N d) && (h <? 24)%N) eqn:V; cbn [bind].
  - left. eexists. split; [reflexivity|]. split.
    + right. exists g, d, h, mi. split; [|split; [exact P|reflexivity]]. intro g'. rewrite in_app_iff. split.
      * intros [I|[I|[]]]; [exfalso; exact (N g' I)|congruence].
      * intros ->. right. left. reflexivity.
    + intros ex (_ & d' & h' & mi' & P' & B). destruct (stamped_one _ _ _ _ _ _ _ P P') as (-> & -> & ->). exact (proj1 K eq_refl B).
  - right. exists ValueError. split; [reflexivity|]. intro e'. split; [intros [B _]; exact B|]. intros ->. split; [reflexivity|].
    exists d, h, mi. split; [exact P|]. destruct (N.eq_dec h 24) as [D|D]; [right; exact D|left]. intro R.
    assert (~ impossible y mo d h) as C by (intros [C|C]; [exact (C R)|exact (D C)]). apply K in C. discriminate C.
Qed.

Lemma body_state_mono : forall a i j x, i <= j -> body_state a i x -> body_state a j x.
Proof.
  intros a i j x L (I & T & F). split; [exact (body_mono _ _ _ _ i j x L I)|]. split; [exact T|].
  apply (Forall_impl _ (fun z H => Nat.lt_le_trans _ _ _ H L) F).
Qed.
Lemma body_step : forall a k h g m x, nth_error (metar_handlers e year month) k = Some h -> In g G -> re_match (h_regexp h) g = Some m -> body_state a k x ->
  (exists x', h_handle h m x = Ok x' /\ body_state (a ++ [(k, g)]) (S k) x' /\ forall ex, ~ body_bad y mo a (k, g) ex)
  \/ (exists ex, h_handle h m x = Raise ex /\ forall e', body_bad y mo a (k, g) e' <-> e' = ex).
Proof.
  intros a k h g m x E Ig M (I & T & F). pose proof (body_steps e year month G secs W k h g m x E Ig M I) as B.
  assert (F' : Forall (fun z => fst z < S k) (a ++ [(k, g)])).
  { apply Forall_app. split; [apply (Forall_impl _ (fun z (H : fst z < k) => Nat.lt_trans _ _ _ H (Nat.lt_succ_diag_r k)) F)|].
    constructor; [cbn; lia|constructor]. }
  destruct (Nat.eq_dec k 2) as [->|N].
  - injection E as <-. cbn [h_handle h_regexp] in *.
    destruct (body_time a g m x M) as [(x' & R1 & R2 & R3)|R]; [| |right; exact R].
    + intros g' K. rewrite Forall_forall in F. specialize (F _ K). cbn in F. lia.
    + left. exists x'. split; [exact R1|]. rewrite R1 in B. split; [|exact R3]. split; [exact B|]. split; [exact R2|exact F'].
  - destruct (body_others a k h g m x E M I N) as [(x' & R1 & R2 & R3)|R]; [|right; exact R].
    left. exists x'. split; [exact R1|]. rewrite R1 in B. split; [|exact R3]. split; [exact B|]. split; [|exact F']. rewrite R2. exact (told_other _ _ _ _ _ _ N T).
Qed.
End Body.

(** ** The trends *)

Section Trend.
Variables (t : datetime).
Hypothesis NL : ~ late t.

Definition trend_state (a : list (nat * str)) (k : nat) (p : change_period) : Prop :=
  trend_inv t k p /\ cp_unparsed p = [] /\ (ti_code (cp_ind p) = None <-> forall g, ~ In (0, g) a).

Lemma trend_state_mono : forall a i j p, i <= j -> trend_state a i p -> trend_state a j p.
Proof. intros a i j p L (I & R). split; [exact (trend_mono t i j p L I)|exact R]. Qed.

Lemma told0_other : forall (a : list (nat * str)) k g (o : option str), k <> 0 ->
  (o = None <-> forall g, ~ In (0, g) a) -> (o = None <-> forall g', ~ In (0, g') (a ++ [(k, g)])).
Proof.
  intros a k g o N H. rewrite H. split; intros K g' I.
  - apply in_app_or in I. destruct I as [I|[I|[]]]; [exact (K g' I)|congruence].
  - apply (K g'). apply in_or_app. left. exact I.
Qed.

Lemma ind_code : forall m c, change_indicator_new (Some m) = Ok c -> fst c <> None.
Proof.
  intros m c. unfold change_indicator_new, group_code. cbv zeta.
  destruct (assoc (m_string m) CHANGE_TRANSLATIONS); [intro H; injection H as <-; discriminate|].
  destruct (starts_with (py "PROB") (m_string m)); [|intro H; injection H as <-; discriminate].
  destruct (split_on 95%N (m_string m)) as [|c0 [|c1 l]]; [discriminate|destruct (assoc c0 CHANGE_TRANSLATIONS); discriminate|].
  destruct (assoc c0 CHANGE_TRANSLATIONS); [|discriminate]. destruct (assoc c1 CHANGE_TRANSLATIONS); [|discriminate].
  intro H; injection H as <-; discriminate.
Qed.

Lemma trend_step : forall a k h g m p, nth_error trend_handlers k = Some h -> re_match (h_regexp h) g = Some m -> trend_state a k p ->
  (exists p', h_handle h m p = Ok p' /\ trend_state (a ++ [(k, g)]) (S k) p' /\ forall ex, ~ trend_bad a (k, g) ex)
  \/ (exists ex, h_handle h m p = Raise ex /\ forall e', trend_bad a (k, g) e' <-> e' = ex).
Proof.
  assert (FINE : forall a k g (r : result change_period) p, 2 < k -> k <> 4 -> trend_state a k p ->
    outcome (trend_cause t g) (trend_inv t (S k)) r ->
    (exists p', r = Ok p' /\ cp_unparsed p' = cp_unparsed p /\ cp_ind p' = cp_ind p) ->
    (exists p', r = Ok p' /\ trend_state (a ++ [(k, g)]) (S k) p' /\ forall ex, ~ trend_bad a (k, g) ex)
    \/ (exists ex, r = Raise ex /\ forall e', trend_bad a (k, g) e' <-> e' = ex)).
  { intros a k g r p N1 N2 (_ & U & C) O (p' & -> & E2 & E3). left. exists p'. split; [reflexivity|]. split.
    - split; [exact O|]. rewrite E2, E3. split; [exact U|]. apply told0_other; [lia|exact C].
    - intros ex B. unfold trend_bad in B. cbn [fst snd] in B. do 5 (destruct k as [|k]; [lia || exact B|]). exact B. }
  assert (PER : forall a k g m p, k = 1 \/ k = 2 -> re_match r_TREND_TIME_PERIOD g = Some m -> trend_state a k p ->
    outcome (trend_cause t g) (trend_inv t (S k)) (handle_time_period m p) ->
    (exists p', handle_time_period m p = Ok p' /\ trend_state (a ++ [(k, g)]) (S k) p' /\ forall ex, ~ trend_bad a (k, g) ex)
    \/ (exists ex, handle_time_period m p = Raise ex /\ forall e', trend_bad a (k, g) e' <-> e' = ex)).
  { intros a k g m p Hk M (I & U & C) O.
    assert (B : forall ex, trend_bad a (k, g) ex <-> ex = TypeError /\ forall g', ~ In (0, g') a) by (intro ex; destruct Hk as [->| ->]; reflexivity).
    revert O. unfold handle_time_period. cbv zeta.
    pose proof (add_period_outcome t g m (cp_ind p) (proj1 I) M) as P.
    destruct (ti_code (cp_ind p)) as [c|] eqn:Ec.
    - destruct (period_match g m M) as (x & a0 & b0 & h & mi & _ & _ & Ga & Gb & Ra & Rb & Bh & Bm & Es).
      assert (K : exists i, add_period m (cp_ind p) = Ok i /\ ti_code i <> None).
      { unfold add_period. rewrite Ec, Ga, Gb. unfold int_of_opt. rewrite (reads_int a0 h Ra), (reads_int b0 mi Rb). cbn [bind].
        destruct (period_time_fine t (cp_ind p) (Z.of_N h) (Z.of_N mi) (proj1 I)) as (v & ->); [lia|]. cbn [bind]. cbv zeta.
        destruct (opt_str_eqb (group m "prefix") (py "FM")); [|destruct (opt_str_eqb (group m "prefix") (py "TL"))];
          eexists; (split; [reflexivity|discriminate]). }
      destruct K as (i & Ei & Ni). rewrite Ei. cbn [bind outcome]. intro O. left. eexists. split; [reflexivity|]. split.
      + split; [exact O|]. split; [exact U|]. cbn [cp_ind]. apply told0_other; [lia|]. rewrite <- C. split; [intro K; exfalso; exact (Ni K)|discriminate].
      + intros ex K. apply B in K. destruct K as [_ K]. apply C in K. discriminate K.
    - intros _. right. exists TypeError. split.
      + unfold add_period. rewrite Ec. reflexivity.
      + intro e'. rewrite B. split; [intros [K _]; exact K|]. intros ->. split; [reflexivity|]. apply C. reflexivity. }
  intros a k h g m p E M I. pose proof (trend_steps t k h g m p E M (proj1 I)) as O. unfold trend_handlers in E.
  nth_cases k E.
  - revert O. destruct I as ((A & B & _) & U & _). unfold handle_trend_indicator, trend_ind_new. rewrite B.
    destruct (indicator_fine g m M) as (c & Ec). rewrite Ec. cbn [bind]. cbv zeta.
    destruct (two_hours t (proj1 (proj2 A))) as [(v & -> & _)|(_ & L)]; [|exfalso; exact (NL L)]. cbn [bind outcome].
    intro O. left. eexists. split; [reflexivity|]. split; [|intros ex K; exact K].
    split; [exact O|]. split; [exact U|]. cbn [cp_ind ti_code]. split; [intro K; exfalso; exact (ind_code m c Ec K)|].
    intro K. exfalso. apply (K g). apply in_or_app. right. left. reflexivity.
  - apply PER; auto.
  - apply PER; auto.
  - apply (FINE a 3 g _ p); [lia|discriminate|exact I|exact O|].
    unfold cp_lift, handle_wind. destruct (wind_fine r_WIND g m (proj1 wind_checks_ok) M) as (w & ->). eexists. split; [reflexivity|split; reflexivity].
  - revert O. unfold cp_lift, handle_prevailing, trend_bad. cbn [fst snd]. destruct (prevailing_new (Some m)) as [v|ex] eqn:P; cbn [bind outcome]; intro O.
    + left. eexists. split; [reflexivity|]. split.
      * destruct I as (_ & U & C). split; [exact O|]. split; [exact U|]. apply told0_other; [lia|exact C].
      * intros ex B. apply (prevailing_exact g m ex M) in B. congruence.
    + right. exists ex. split; [reflexivity|]. intro e'. rewrite <- (prevailing_exact g m e' M), P. split; [congruence|intros ->; reflexivity].
  - apply (FINE a 5 g _ p); [lia|discriminate|exact I|exact O|]. destruct I as ((_ & _ & R & _) & _).
    unfold cp_lift, handle_weather. cbv zeta. destruct (room_add _ _ _ (weather_new (Some m)) _ R) as (l & -> & _); [lia|]. eexists. split; [reflexivity|split; reflexivity].
  - apply (FINE a 6 g _ p); [lia|discriminate|exact I|exact O|]. destruct I as ((_ & _ & R & _) & _).
    unfold cp_lift, handle_weather. cbv zeta. destruct (room_add _ _ _ (weather_new (Some m)) _ R) as (l & -> & _); [lia|]. eexists. split; [reflexivity|split; reflexivity].
  - apply (FINE a 7 g _ p); [lia|discriminate|exact I|exact O|]. destruct I as ((_ & _ & R & _) & _).
    unfold cp_lift, handle_weather. cbv zeta. destruct (room_add _ _ _ (weather_new (Some m)) _ R) as (l & -> & _); [lia|]. eexists. split; [reflexivity|split; reflexivity].
  - apply (FINE a 8 g _ p); [lia|discriminate|exact I|exact O|]. destruct I as ((_ & _ & _ & R) & _).
    unfold cp_lift, handle_cloud. destruct (cloud_fine g m M) as (c & ->). cbn [bind]. destruct (room_add _ _ _ c _ R) as (l & -> & _); [lia|]. eexists. split; [reflexivity|split; reflexivity].
  - apply (FINE a 9 g _ p); [lia|discriminate|exact I|exact O|]. destruct I as ((_ & _ & _ & R) & _).
    unfold cp_lift, handle_cloud. destruct (cloud_fine g m M) as (c & ->). cbn [bind]. destruct (room_add _ _ _ c _ R) as (l & -> & _); [lia|]. eexists. split; [reflexivity|split; reflexivity].
  - apply (FINE a 10 g _ p); [lia|discriminate|exact I|exact O|]. destruct I as ((_ & _ & _ & R) & _).
    unfold cp_lift, handle_cloud. destruct (cloud_fine g m M) as (c & ->). cbn [bind]. destruct (room_add _ _ _ c _ R) as (l & -> & _); [lia|]. eexists. split; [reflexivity|split; reflexivity].
  - apply (FINE a 11 g _ p); [lia|discriminate|exact I|exact O|]. destruct I as ((_ & _ & _ & R) & _).
    unfold cp_lift, handle_cloud. destruct (cloud_fine g m M) as (c & ->). cbn [bind]. destruct (room_add _ _ _ c _ R) as (l & -> & _); [lia|]. eexists. split; [reflexivity|split; reflexivity].
  - destruct k; discriminate E.
Qed.
End Trend.

Lemma late_dec : forall t, {late t} + {~ late t}.
Proof.
  intro t. unfold late. destruct (Z.eq_dec (dt_year t) 9999); [|right; tauto]. destruct (Z.eq_dec (dt_month t) 12); [|right; tauto].
  destruct (Z.eq_dec (dt_day t) 31); [|right; tauto]. destruct (Z_le_dec 22 (dt_hour t)); [left; auto|right; tauto].
Qed.

Lemma add_late : forall t, real_time t -> late t -> dt_add_hours t 2 = Raise OverflowError.
Proof.
  intros t (_ & _ & Hmi) (Hy & Hm & Hd & Hh). unfold dt_add_hours. apply dt_add_minutes_over. unfold dt_minutes. rewrite Hy, Hm, Hd.
  change (ymd2ord 9999 12 31) with max_ordinal. unfold max_ordinal. lia.
Qed.

Lemma run_trend : forall w t, real_time t ->
  (exists ex, change_period_new w t = Raise ex /\ forall e', trend_refused (late t) w e' <-> e' = ex)
  \/ (exists p u, change_period_new w t = Ok p /\ trend_read (late t) w u /\ length (cp_unparsed p) = length u).
Proof.
  intros w t R. unfold change_period_new. cbv zeta. destruct (common_fresh []) as (c & -> & E1 & E2). cbn [bind].
  unfold trend_ind_new. cbn [change_indicator_new bind]. cbv zeta.
  destruct (late_dec t) as [L|NL].
  - rewrite (add_late t R L). cbn [bind]. left. exists OverflowError. split; [reflexivity|]. intro e'. unfold trend_refused. split; [intros [[_ K]|[K _]]; [exact K|contradiction]|].
    intros ->. left. auto.
  - destruct (two_hours t R) as [(v & Ev & Rv & Mv)|(_ & L)]; [|contradiction]. rewrite Ev. cbn [bind].
    set (p0 := mk_cp _ _ _ _ _ _).
    assert (I0 : trend_state t [] 0 p0).
    { unfold trend_state, trend_inv, p0. cbn [cp_ind cp_time cp_common cp_unparsed ti_code fst]. rewrite E1, E2. split; [|split; [reflexivity|]].
      - split; [unfold ind_of; cbn [ti_init ti_end t_dt time_at]; auto|]. split; [reflexivity|]. split; split; try reflexivity; cbn; lia.
      - split; [intros _ g []|reflexivity]. }
    destruct (takes_total trend_order (words_of_trend w) 0) as (tk & u & T).
    destruct (run_section _ trend_handlers (trend_state t) trend_bad _ p0 tk u (trend_state_mono t)
      (fun a k h g m st E _ => trend_step t NL a k h g m st E) T I0) as [(ex & P1 & P2)|(p & un & k & P1 & P2 & P3 & P4)]; rewrite P1; cbn [bind].
    + left. exists ex. split; [reflexivity|]. intro e'. unfold trend_refused. split.
      * intros [[K _]|(_ & t' & u' & T' & F)]; [contradiction|]. destruct (takes_one _ _ _ _ _ T _ _ T') as [-> ->]. apply P2. exact F.
      * intros ->. right. split; [exact NL|]. exists tk, u. split; [exact T|]. apply P2. reflexivity.
    + right. exists (mk_cp (cp_code p) (cp_time p) (cp_common p) (cp_ind p) (cp_unparsed p ++ un) (cp_out p)), u.
      split; [reflexivity|]. split; [split; [exact NL|]; exists tk; split; [exact T|exact P3]|].
      cbn [cp_unparsed]. destruct P2 as (_ & -> & _). exact P4.
Qed.

Lemma read_not_refused : forall over w u ex, trend_read over w u -> ~ trend_refused over w ex.
Proof.
  intros over w u ex (N & t & T & C) [[O _]|(_ & t' & u' & T' & (a & z & b & E & _ & B))]; [exact (N O)|].
  destruct (takes_one _ _ _ _ _ T _ _ T') as [-> ->]. exact (C a z b ex E B).
Qed.
Lemma read_one : forall over w u u', trend_read over w u -> trend_read over w u' -> u' = u.
Proof. intros over w u u' (_ & t & T & _) (_ & t' & T' & _). exact (proj2 (takes_one _ _ _ _ _ T _ _ T')). Qed.

Definition refused_from (k : nat) (over : Prop) (ws : list str) (ex : exn) : Prop :=
  exists a w b us, ws = a ++ w :: b /\ Forall2 (trend_read over) a us /\ k + length a <= 2
    /\ (trend_refused over w ex \/ (k + length a = 2 /\ (exists u, trend_read over w u) /\ ex = RangeError)).

Notation full := (fun w : str => match w with [] => false | _ => true end).
Notation left_in x := (length (flat_map cp_unparsed (gl_list (me_trends x)))).

Lemma run_trends : forall l k x, real_time (t_dt (me_time x)) -> gl_max (me_trends x) = 2 -> gl_n (me_trends x) = 0 ->
  length (gl_list (me_trends x)) = k -> k <= 2 ->
  (exists ex, handle_trends l x = Raise ex /\ forall e', refused_from k (late (t_dt (me_time x))) (filter full l) e' <-> e' = ex)
  \/ (exists x' us, handle_trends l x = Ok x' /\ Forall2 (trend_read (late (t_dt (me_time x)))) (filter full l) us /\ k + length us <= 2
       /\ me_unparsed x' = me_unparsed x /\ gl_n (me_trends x') = 0 /\ left_in x' = left_in x + length (concat us)).
Proof.
  intro l. induction l as [|w l IH]; intros k x R Em En El Lk.
  - right. exists x, []. cbn [handle_trends filter]. split; [reflexivity|]. split; [constructor|]. cbn. conjs; auto; lia.
  - destruct w as [|c w]; [cbn [handle_trends filter]; exact (IH k x R Em En El Lk)|].
    cbn [handle_trends filter]. set (cw := c :: w). unfold handle_weather_trend.
    assert (NF : forall ws ex, trend_read (late (t_dt (me_time x))) cw ex -> forall e', refused_from k (late (t_dt (me_time x))) (cw :: ws) e' ->
      k = 2 /\ e' = RangeError \/ (k < 2 /\ refused_from (S k) (late (t_dt (me_time x))) ws e')).
    { intros ws u Ru e' (a & v & b & us & E & F & L & D). destruct a as [|a0 a]; cbn [app length] in *.
      - injection E as <- <-. destruct D as [D|(D & _ & ->)]; [exfalso; exact (read_not_refused _ _ _ _ Ru D)|left; split; [lia|reflexivity]].
      - injection E as <- ->. right. split; [lia|]. inversion F as [|? u0 ? us0 _ F0]; subst. exists a, v, b, us0. split; [reflexivity|]. split; [exact F0|]. split; [lia|].
        destruct D as [D|(D & D')]; [left; exact D|right; split; [lia|exact D']]. }
    destruct (run_trend cw (t_dt (me_time x)) R) as [(ex & P1 & P2)|(p & u & P1 & P2 & P3)]; rewrite P1; cbn [bind].
    + left. exists ex. split; [reflexivity|]. intro e'. split.
      * intros (a & v & b & us & E & F & L & D). destruct a as [|a0 a]; cbn [app length] in *.
        -- injection E as <- <-. destruct D as [D|(_ & (u & D) & _)]; [apply P2; exact D|]. exfalso. apply (read_not_refused _ _ _ ex D). apply P2. reflexivity.
        -- injection E as <- E. inversion F as [|? u0 ? us0 R0 _]; subst. exfalso. apply (read_not_refused _ _ _ ex R0). apply P2. reflexivity.
      * intros ->. exists [], cw, (filter full l), []. split; [reflexivity|]. split; [constructor|]. cbn [length]. split; [lia|]. left. apply P2. reflexivity.
    + unfold gl_add. rewrite Em, El. destruct (Nat.leb_spec 2 k) as [L|L]; cbn [bind].
      * left. exists RangeError. split; [reflexivity|]. intro e'. split.
        -- intro K. apply (NF _ _ P2) in K. destruct K as [[_ K]|[K _]]; [exact K|lia].
        -- intros ->. exists [], cw, (filter full l), []. split; [reflexivity|]. split; [constructor|]. cbn [length]. split; [lia|]. right. split; [lia|]. split; [exists u; exact P2|reflexivity].
      * set (x1 := out_string _ _).
        destruct (IH (S k) x1) as [(ex & Q1 & Q2)|(x' & us & Q1 & Q2 & Q3 & Q4 & Q5 & Q6)].
        -- exact R.
        -- reflexivity.
        -- exact En.
        -- unfold x1, out_string. cbn [upd_common upd_out upd_trends me_trends gl_list]. rewrite app_length, El. cbn. lia.
        -- lia.
        -- left. exists ex. split; [exact Q1|]. intro e'. rewrite <- Q2. split.
           ++ intro K. apply (NF _ _ P2) in K. destruct K as [[K _]|[_ K]]; [lia|exact K].
           ++ intros (a & v & b & us & E & F & L' & D). exists (cw :: a), v, b, (u :: us).
              split; [cbn [app]; f_equal; exact E|]. split; [constructor; [exact P2|exact F]|]. cbn [length]. split; [lia|].
              destruct D as [D|(D & D')]; [left; exact D|right; split; [lia|exact D']].
        -- right. exists x', (u :: us). split; [exact Q1|]. split; [constructor; [exact P2|exact Q2]|]. cbn [length concat]. split; [lia|]. split; [exact Q4|]. split; [exact Q5|].
           rewrite Q6. unfold x1, out_string. cbn [upd_common upd_out upd_trends me_trends gl_list]. rewrite flat_map_app, !app_length. cbn [flat_map]. rewrite app_nil_r, P3. lia.
Qed.

Lemma forall2_length : forall A B (P : A -> B -> Prop) l l', Forall2 P l l' -> length l = length l'.
Proof. intros A B P l l' H. induction H; cbn [length]; congruence. Qed.

Lemma refused_not_read : forall over ws ex us, trends_refused over ws ex -> Forall2 (trend_read over) ws us -> length us <= 2 -> False.
Proof.
  intros over ws ex us (a & w & b & vs & -> & F & L & D) R Lu. apply Forall2_app_inv_l in R. destruct R as (us1 & us2 & R1 & R2 & ->).
  apply forall2_length in R1. inversion R2 as [|? v ? us3 Rv _]; subst. rewrite app_length in Lu. cbn [length] in Lu.
  destruct D as [D|(D & _)]; [exact (read_not_refused _ _ _ _ Rv D)|lia].
Qed.

Lemma reads_one : forall over ws us us', Forall2 (trend_read over) ws us -> Forall2 (trend_read over) ws us' -> us' = us.
Proof.
  intros over ws us us' H. revert us'. induction H as [|w u ws us R H IH]; intros us' H'; inversion H' as [|? v ? vs R' H0]; subst; [reflexivity|].
  rewrite (read_one _ _ _ _ R R'), (IH _ H0). reflexivity.
Qed.

Lemma forall2_impl : forall A B (P Q : A -> B -> Prop) l l', (forall a b, P a b -> Q a b) -> Forall2 P l l' -> Forall2 Q l l'.
Proof. intros A B P Q l l' K H. induction H; constructor; auto. Qed.

(** ** The report *)

Lemma body_told : forall e code year month x, metar_init e (normalise code) year month = Ok x -> clock_wf e -> month_wf e year month ->
  t_dt (me_time x) = mk_dt (opt_default (now_year e) year) (opt_default (now_month e) month) 1 0 0.
Proof.
  intros e code year month x H [C1 C2] [W1 W2]. revert H. unfold metar_init, time_from_metar.
  destruct (default_first e None None C1 C2) as (t0 & -> & _).
  destruct (default_first e year month W1 W2) as (t & -> & Et). cbn [bind].
  intro H. injection H as <-. exact Et.
Qed.

Lemma nil_length : forall A (l : list A), l = [] <-> length l = 0.
Proof. intros A [|x l]; split; try discriminate; reflexivity. Qed.

Theorem metar_refused_exactly : forall e code year month tr ex, clock_wf e -> month_wf e year month ->
  (metar_parse e code year month tr = Raise ex
   <-> metar_refused (opt_default (now_year e) year) (opt_default (now_month e) month) tr code ex).
Proof.
  intros e code year month tr ex C W.
  set (y := opt_default (now_year e) year). set (mo := opt_default (now_month e) month).
  assert (K : (exists ex', metar_parse e code year month tr = Raise ex' /\ forall ex, metar_refused y mo tr code ex <-> ex = ex')
    \/ (exists x, metar_parse e code year month tr = Ok x /\ forall ex, ~ metar_refused y mo tr code ex)).
  { unfold metar_parse, report_raw_code. destruct code as [|c code0].
    { left. exists AssertionError. split; [reflexivity|]. intro e'. split; [intros [[_ K]|[K _]]; [exact K|contradiction]|]. intros ->. left. auto. }
    set (code := c :: code0). assert (NC : code <> []) by discriminate. clearbody code. cbn [bind].
    destruct (init_inv e code year month C W) as (x0 & Ei & I). pose proof (body_told e code year month x0 Ei C W) as T0. rewrite Ei. cbn [bind].
    destruct (takes_total metar_order (words_of_body code) 0) as (t & u & T).
    assert (NB : forall ex, metar_refused y mo tr code ex <->
      (first_bad (body_bad y mo) t ex
       \/ (none_bad (body_bad y mo) t
           /\ (trends_refused (at_the_end y mo t) (trends_of code) ex
               \/ (exists us, Forall2 (trend_read (at_the_end y mo t)) (trends_of code) us /\ length us <= 2
                     /\ tr = true /\ u ++ concat us <> [] /\ ex = ParserError))))).
    { intro e'. unfold metar_refused. split.
      - intros [[K _]|(_ & t' & u' & T' & K)]; [contradiction|]. destruct (takes_one _ _ _ _ _ T _ _ T') as [-> ->]. exact K.
      - intro K. right. split; [exact NC|]. exists t, u. split; [exact T|exact K]. }
    unfold parse_body. pose proof I as (_ & _ & _ & _ & _ & Es & _). rewrite Es.
    assert (I0 : body_state e year month (body_words code) (metar_sections (normalise code)) [] 0 x0).
    { split; [exact I|]. split; [|constructor]. left. split; [intros g []|exact T0]. }
    destruct (run_section _ (metar_handlers e year month) (body_state e year month (body_words code) (metar_sections (normalise code))) (body_bad y mo)
      (sanitize_body (section 0 (metar_sections (normalise code)))) x0 t u (body_state_mono _ _ _ _ _)
      (body_step e year month (body_words code) (metar_sections (normalise code)) W) T I0)
      as [(e1 & P1 & P2)|(x1 & un & k & P1 & (P2 & P2' & _) & P3 & P4)]; rewrite P1; cbn [bind].
    - left. exists e1. split; [reflexivity|]. intro e'. rewrite NB, <- P2. split; [|auto]. intros [K|[K _]]; [exact K|].
      exfalso. destruct (proj2 (P2 e1) eq_refl) as (a & z & b & E & _ & B). exact (K a z b e1 E B).
    - assert (NF : forall ex, ~ first_bad (body_bad y mo) t ex) by (intros e' (a & z & b & E & _ & B); exact (P3 a z b e' E B)).
      pose proof (told_late _ _ _ _ P2') as LE.
      destruct P2 as (_ & _ & _ & _ & Tm & Es1 & Et1 & Eu1).
      assert (RD : forall w u, trend_read (late (t_dt (me_time x1))) w u <-> trend_read (at_the_end y mo t) w u) by (intros; unfold trend_read; rewrite LE; reflexivity).
      assert (RF : forall w ex, trend_refused (late (t_dt (me_time x1))) w ex <-> trend_refused (at_the_end y mo t) w ex) by (intros; unfold trend_refused; rewrite LE; reflexivity).
      assert (FF : forall ws us, Forall2 (trend_read (late (t_dt (me_time x1)))) ws us <-> Forall2 (trend_read (at_the_end y mo t)) ws us).
      { intros ws us. split; apply forall2_impl; intros a b; apply RD. }
      set (x2 := upd_unparsed (me_unparsed x1 ++ un) x1).
      assert (Eu2 : length (me_unparsed x2) = length u) by (unfold x2; cbn [upd_unparsed me_unparsed]; rewrite Eu1; exact P4).
      unfold parse_weather_trend. replace (me_sections x2) with (metar_sections (normalise code)) by (symmetry; exact Es1).
      destruct (run_trends (trend_codes (section 1 (metar_sections (normalise code)))) 0 x2) as [(e1 & Q1 & Q2)|(x3 & us & Q1 & Q2 & Q3 & Q4 & Q5 & Q6)];
        [exact (proj1 Tm)|change (gl_max (me_trends x1) = 2); rewrite Et1; reflexivity|change (gl_n (me_trends x1) = 0); rewrite Et1; reflexivity
        |change (length (gl_list (me_trends x1)) = 0); rewrite Et1; reflexivity|lia| |]; rewrite Q1; cbn [bind].
      + left. exists e1. split; [reflexivity|]. intro e'. rewrite NB, <- Q2. change (t_dt (me_time x2)) with (t_dt (me_time x1)). split.
        * intros [K|(_ & [K|(us & F & L & _)])]; [exfalso; exact (NF e' K)| |].
          -- destruct K as (a & w & b & us & E & F & L & D). exists a, w, b, us. split; [exact E|]. split; [apply FF; exact F|]. split; [exact L|].
             destruct D as [D|(D1 & (v & D2) & D3)]; [left; apply RF; exact D|right; split; [exact D1|]; split; [exists v; apply RD; exact D2|exact D3]].
          -- exfalso. revert Q2. change (t_dt (me_time x2)) with (t_dt (me_time x1)). intro Q2.
             refine (refused_not_read _ _ e1 us (proj2 (Q2 e1) eq_refl) (proj2 (FF _ _) F) L).
        * intros (a & w & b & us & E & F & L & D). right. split; [exact P3|]. left. exists a, w, b, us. split; [exact E|]. split; [apply FF; exact F|]. split; [exact L|].
          destruct D as [D|(D1 & (v & D2) & D3)]; [left; apply RF; exact D|right; split; [exact D1|]; split; [exists v; apply RD; exact D2|exact D3]].
      + apply FF in Q2. cbn [Nat.add] in Q3. change (t_dt (me_time x2)) with (t_dt (me_time x1)) in Q2.
        assert (NT : forall ex, ~ trends_refused (at_the_end y mo t) (trends_of code) ex) by (intros e' K; exact (refused_not_read _ _ _ _ K Q2 Q3)).
        rewrite gl_collect_spec, Q5. cbn [skipn]. cbv zeta.
        set (x4 := upd_unparsed _ _).
        assert (U4 : length (me_unparsed x4) = length (u ++ concat us)).
        { unfold x4. cbn [upd_unparsed upd_trends me_unparsed]. rewrite !app_length, Q4, Eu2, Q6.
          change (me_trends x2) with (me_trends x1). rewrite Et1. reflexivity. }
        assert (NR : forall ex, metar_refused y mo tr code ex <-> tr = true /\ u ++ concat us <> [] /\ ex = ParserError).
        { intro e'. rewrite NB. split.
          - intros [K|(_ & [K|(vs & F & L & K)])]; [exfalso; exact (NF e' K)|exfalso; exact (NT e' K)|].
            rewrite (reads_one _ _ _ _ Q2 F) in K. exact K.
          - intro K. right. split; [exact P3|]. right. exists us. split; [exact Q2|]. split; [exact Q3|exact K]. }
        destruct (me_unparsed x4) as [|v vs].
        * right. exists x4. split; [reflexivity|]. intros e' K. apply NR in K. destruct K as (_ & K & _). apply K, nil_length. symmetry. exact U4.
        * destruct tr.
          -- left. exists ParserError. split; [reflexivity|]. intro e'. rewrite NR. split; [intros (_ & _ & K); exact K|]. intros ->. split; [reflexivity|]. split; [|reflexivity].
             intro K. rewrite K in U4. discriminate U4.
          -- right. exists x4. split; [reflexivity|]. intros e' K. apply NR in K. destruct K as (K & _). discriminate K. }
  destruct K as [(e' & P1 & P2)|(x & P1 & P2)]; rewrite P1.
  - rewrite P2. split; congruence.
  - split; [discriminate|]. intro K. exfalso. exact (P2 ex K).
Qed.

Theorem metar_accepted_exactly : forall e code year month tr, clock_wf e -> month_wf e year month ->
  ((exists x, metar_parse e code year month tr = Ok x)
   <-> forall ex, ~ metar_refused (opt_default (now_year e) year) (opt_default (now_month e) month) tr code ex).
Proof.
  intros e code year month tr C W. split.
  - intros (x & E) ex K. apply (metar_refused_exactly e code year month tr ex C W) in K. congruence.
  - intro K. destruct (metar_parse e code year month tr) as [x|ex] eqn:E; [exists x; reflexivity|].
    exfalso. apply (K ex), (metar_refused_exactly e code year month tr ex C W). exact E.
Qed.

(** ** For examples *)

Definition no_match (g : str) (p : regex) : bool := match re_match p g with None => true | Some _ => false end.

Lemma taken : forall ps i k g gs t u,
  (Nat.leb i k && forallb (no_match g) (firstn (k - i) (skipn i ps)) && match nth_error ps k with Some p => negb (no_match g p) | None => false end) = true ->
  takes ps (S k) gs t u -> takes ps i (g :: gs) ((k, g) :: t) u.
Proof.
  intros ps i k g gs t u H T. rewrite !andb_true_iff in H. destruct H as [[H1 H2] H3]. apply Nat.leb_le in H1.
  destruct (nth_error ps k) as [p|] eqn:N; [|discriminate H3]. apply (takes_word ps i k p); [exact H1|exact N| | |exact T].
  - unfold accepts. unfold no_match in H3. destruct (re_match p g); discriminate.
  - intros j q L Nj. rewrite forallb_forall in H2.
    assert (I : In q (firstn (k - i) (skipn i ps))).
    { apply nth_error_In with (n := j - i). assert (E : nth_error (skipn i ps) (j - i) = Some q) by (rewrite nth_skipn; replace (i + (j - i)) with j by lia; exact Nj).
      rewrite <- E. clear -L. revert L. generalize (skipn i ps) as l. intros l L.
      assert (D : j - i < k - i) by lia. revert D. generalize (j - i) (k - i). intros n m. revert m l. induction n as [|n IH]; intros [|m] [|x l] D; try lia; try reflexivity. apply IH. lia. }
    specialize (H2 q I). unfold accepts. unfold no_match in H2. destruct (re_match q g); [discriminate|]. intro K. apply K. reflexivity.
Qed.
Lemma not_taken : forall ps i g gs t u, forallb (no_match g) (skipn i ps) = true -> takes ps i gs t u -> takes ps i (g :: gs) t (g :: u).
Proof.
  intros ps i g gs t u H T. apply takes_not; [|exact T]. intros j q L Nj. rewrite forallb_forall in H.
  assert (I : In q (skipn i ps)) by (apply nth_error_In with (n := j - i); rewrite nth_skipn; replace (i + (j - i)) with j by lia; exact Nj).
  specialize (H q I). unfold accepts. unfold no_match in H. destruct (re_match q g); [discriminate|]. intro K. apply K. reflexivity.
Qed.
