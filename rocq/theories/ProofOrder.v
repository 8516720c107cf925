(** * When the sections keep the order of the text (C36) *)
From Coq Require Import String Ascii.
From Coq Require Import List NArith ZArith Bool Lia.
From Verif Require Import PyBase PyRegex AeroRegex PyTime Utils Base Metar SpecText SpecOrder StrFacts ProofText TextFacts ProofSections.
Import ListNotations.
Local Open Scope string_scope.
Local Open Scope nat_scope.
Local Open Scope list_scope.

Definition body_list (ps : list str) : list str := filter (fun p => negb (begins_any section_words p)) (firstn 1 ps).
Definition remark_list (ps : list str) : list str :=
  match filter (starts_with (py "RMK")) ps with [] => [] | r :: l => [last (r :: l) []] end.
Definition shown_pieces (ps : list str) : list str := body_list ps ++ trends_of ps ++ remark_list ps.

Lemma last_in : forall (A : Type) (l : list A) x d, In (last (x :: l) d) (x :: l).
Proof. intros A l. induction l as [|y l IH]; intros x d; [left; reflexivity|]. right. exact (IH y d). Qed.
Lemma last_change : forall (A : Type) (l : list A) x d d', last (x :: l) d = last (x :: l) d'.
Proof. intros A l. induction l as [|y l IH]; intros x d d'; [reflexivity|]. exact (IH y d d'). Qed.
Lemma last_apps : forall (A : Type) (a l : list A) x d, last (a ++ x :: l) d = last (x :: l) d.
Proof.
  intros A a. induction a as [|y a IH]; intros l x d; [reflexivity|]. cbn [app]. rewrite <- (IH l x d).
  destruct a; reflexivity.
Qed.

Lemma sentence_last : forall p ps, Forall closed (p :: ps) -> closed (sentence (p :: ps)).
Proof.
  intros p ps. revert p. induction ps as [|q ps IH]; intros p H; [exact (Forall_inv H)|].
  assert (H0 := Forall_inv H). apply Forall_inv_tail in H. specialize (IH q H). destruct IH as [N L].
  change (sentence (p :: q :: ps)) with (p ++ 32%N :: sentence (q :: ps)).
  destruct (sentence (q :: ps)) as [|c s]; [congruence|]. split.
  - destruct p; discriminate.
  - rewrite last_apps. exact L.
Qed.

Lemma trim_ends : forall s : str, is_space (hd 0%N s) = false -> ~ blank (last s 0%N) -> trimmed s.
Proof. intros [|c s] H L; [exact I|]. split; [exact H|apply not_blank; exact L]. Qed.

Lemma trends_strip : forall ps, Forall closed ps -> strip (sentence (trends_of ps)) = sentence (trends_of ps).
Proof.
  intros ps H. apply strip_trimmed. unfold trends_of.
  assert (T : Forall (fun p => closed p /\ begins_any trend_words p = true) (filter (begins_any trend_words) ps)).
  { rewrite Forall_forall in *. intros p I. apply filter_In in I. destruct I as [I B]. split; [exact (H p I)|exact B]. }
  destruct (filter (begins_any trend_words) ps) as [|t l]; [exact I|].
  assert (C : Forall closed (t :: l)) by (eapply Forall_impl; [|exact T]; intros p K; exact (proj1 K)).
  apply sentence_last in C. destruct C as [C1 C2]. destruct (Forall_inv T) as [_ B].
  unfold begins_any in B. apply existsb_exists in B. destruct B as (kw & HI & Hs).
  apply starts_with_app in Hs. destruct Hs as (u & ->).
  refine (trim_ends _ _ C2).
  assert (Eh : hd 0%N (sentence ((kw ++ u) :: l)) = hd 0%N kw) by (destruct HI as [<-|[<-|[<-|[]]]]; destruct l; reflexivity).
  refine (eq_trans (f_equal is_space Eh) _). destruct HI as [<-|[<-|[<-|[]]]]; reflexivity.
Qed.

Lemma shown_sections : forall raw ps, ~ In 124%N raw -> pieces section_words raw ps -> Forall closed ps ->
  sentence (filter inked (metar_sections raw)) = sentence (shown_pieces ps).
Proof.
  intros raw ps Hn Hp H. rewrite (metar_sections_pieces raw ps Hn Hp), (trends_strip ps H).
  assert (B : filter inked [body_of ps] = body_list ps).
  { destruct ps as [|p ps]; [reflexivity|]. unfold body_of, body_list. cbn [firstn filter].
    destruct (begins_any section_words p); cbn [negb]; [reflexivity|]. destruct (Forall_inv H) as [N _].
    destruct p; [congruence|reflexivity]. }
  assert (R : filter inked [last_remark ps] = remark_list ps).
  { unfold last_remark, remark_list. destruct (filter (starts_with (py "RMK")) ps) as [|r l] eqn:F; [reflexivity|].
    assert (I : In (last (r :: l) []) ps).
    { pose proof (last_in _ l r []) as I. rewrite <- F in I at 2. apply filter_In in I. exact (proj1 I). }
    rewrite Forall_forall in H. destruct (H _ I) as [N _]. destruct (last (r :: l) []); [congruence|reflexivity]. }
  assert (T : forall a b, sentence (filter inked [a] ++ filter inked [sentence (trends_of ps)] ++ filter inked [b])
    = sentence (filter inked [a] ++ trends_of ps ++ filter inked [b])).
  { intros a b. assert (C : Forall closed (trends_of ps)).
    { rewrite Forall_forall in *. intros p I. apply filter_In in I. exact (H p (proj1 I)). }
    destruct (trends_of ps) as [|t l]; [reflexivity|]. destruct (sentence_last t l C) as [N _].
    assert (S : filter inked [sentence (t :: l)] = [sentence (t :: l)]).
    { destruct (sentence (t :: l)) as [|c s] eqn:Es; [congruence|reflexivity]. }
    rewrite S. clear S N.
    assert (J : forall l1, sentence (sentence (t :: l) :: l1) = sentence ((t :: l) ++ l1)).
    { clear. intros l1. revert t. induction l as [|u l IH]; intros t; [reflexivity|].
      cbn [app]. change (sentence (t :: u :: l)) with (t ++ 32%N :: sentence (u :: l)).
      change (sentence (t :: u :: l ++ l1)) with (t ++ 32%N :: sentence (u :: l ++ l1)).
      cbn [app] in IH. rewrite <- (IH u). destruct l1 as [|v l1]; [reflexivity|].
      change (sentence ((t ++ 32%N :: sentence (u :: l)) :: v :: l1)) with ((t ++ 32%N :: sentence (u :: l)) ++ 32%N :: sentence (v :: l1)).
      change (sentence (sentence (u :: l) :: v :: l1)) with (sentence (u :: l) ++ 32%N :: sentence (v :: l1)).
      rewrite <- app_assoc. reflexivity. }
    destruct a as [|a0 a]; cbn [filter inked app].
    - rewrite J. reflexivity.
    - change ((a0 :: a) ++ 32%N :: sentence (sentence (t :: l) :: filter inked [b])
        = (a0 :: a) ++ 32%N :: sentence ((t :: l) ++ filter inked [b])).
      rewrite J. reflexivity. }
  change (filter inked [body_of ps; sentence (trends_of ps); last_remark ps])
    with (filter inked ([body_of ps] ++ [sentence (trends_of ps)] ++ [last_remark ps])).
  rewrite !filter_app, T, B, R. reflexivity.
Qed.

Lemma uncut_shown : forall ps, Forall (uncut section_words) ps -> Forall (uncut section_words) (shown_pieces ps).
Proof.
  intros ps H. rewrite Forall_forall in *. intros p I. apply H. unfold shown_pieces in I.
  apply in_app_or in I. destruct I as [I|I]; [|apply in_app_or in I; destruct I as [I|I]].
  - unfold body_list in I. apply filter_In in I. destruct I as [I _]. destruct ps as [|q ps]; [destruct I|].
    destruct I as [<-|[]]. left. reflexivity.
  - apply filter_In in I. exact (proj1 I).
  - unfold remark_list in I. destruct (filter (starts_with (py "RMK")) ps) as [|r l] eqn:F; [destruct I|].
    destruct I as [<-|[]]. pose proof (last_in _ l r []) as I. rewrite <- F in I at 2. apply filter_In in I. exact (proj1 I).
Qed.
Lemma remark_begins : forall ps, Forall (fun p => starts_with (py "RMK") p = true) (remark_list ps).
Proof.
  intros ps. unfold remark_list. destruct (filter (starts_with (py "RMK")) ps) as [|r l] eqn:F; [constructor|].
  constructor; [|constructor]. pose proof (last_in _ l r []) as I. rewrite <- F in I at 2. apply filter_In in I. exact (proj2 I).
Qed.

Lemma shown_are_pieces : forall raw ps, pieces section_words raw ps -> sentence (shown_pieces ps) = raw ->
  pieces section_words raw (shown_pieces ps).
Proof.
  intros raw ps (E & N & U & T) S. split; [symmetry; exact S|]. split; [|split; [exact (uncut_shown ps U)|]].
  - destruct ps as [|p ps]; [congruence|]. unfold shown_pieces, body_list, trends_of, remark_list. cbn [firstn filter].
    destruct (begins_any section_words p) eqn:B; cbn [negb]; [|discriminate]. rewrite section_begins in B.
    apply orb_prop in B. destruct B as [-> | ->]; [discriminate|].
    intro K. apply app_eq_nil in K. destruct K as [_ K]. apply app_eq_nil in K. destruct K as [_ K]. discriminate K.
  - unfold shown_pieces.
    assert (K : Forall (fun p => begins_any section_words p = true) (trends_of ps ++ remark_list ps)).
    { apply Forall_app. split.
      - rewrite Forall_forall. intros p I. apply filter_In in I. rewrite section_begins, (proj2 I). reflexivity.
      - eapply Forall_impl; [|exact (remark_begins ps)]. intros p R. rewrite section_begins, R. apply orb_true_r. }
    assert (L : length (body_list ps) <= 1).
    { unfold body_list. destruct ps as [|p ps]; [cbn; lia|]. cbn [firstn filter]. destruct (negb _); cbn; lia. }
    destruct (body_list ps) as [|b [|b2 l]]; cbn [app tl length] in *; [apply Forall_tl; exact K|exact K|lia].
Qed.

Lemma removelast_app1 : forall (A : Type) (l : list A) x, removelast (l ++ [x]) = l.
Proof. intros A l x. rewrite removelast_app by discriminate. apply app_nil_r. Qed.

Theorem in_order_exact : forall raw ps, ~ In 124%N raw -> pieces section_words raw ps -> Forall closed ps ->
  (sentence (filter inked (metar_sections raw)) = raw
   <-> Forall (fun p => starts_with (py "RMK") p = false) (removelast ps)).
Proof.
  intros raw ps Hn Hp H. rewrite (shown_sections raw ps Hn Hp H). split.
  - intro S. assert (Q := shown_are_pieces raw ps Hp S).
    assert (E : shown_pieces ps = ps).
    { refine (eq_trans (eq_sym (pieces_unique section_words raw _ section_words_ok Hn Q)) _).
      exact (pieces_unique section_words raw ps section_words_ok Hn Hp). }
    rewrite <- E at 1. unfold shown_pieces.
    assert (B : Forall (fun p => starts_with (py "RMK") p = false) (body_list ps ++ trends_of ps)).
    { apply Forall_app. split; rewrite Forall_forall; intros p I; apply filter_In in I.
      - destruct I as [_ I]. apply negb_true_iff in I. rewrite section_begins in I. apply orb_false_iff in I. exact (proj2 I).
      - exact (trend_starts p (proj2 I)). }
    rewrite app_assoc. assert (L : remark_list ps = [] \/ exists r, remark_list ps = [r]).
    { unfold remark_list. destruct (filter _ ps); [left; reflexivity|right; eexists; reflexivity]. }
    destruct L as [-> |(r & ->)].
    + rewrite app_nil_r. revert B. generalize (body_list ps ++ trends_of ps). intros l B.
      destruct l as [|x l] using rev_ind; [constructor|]. rewrite removelast_app1. apply Forall_app in B. exact (proj1 B).
    + rewrite removelast_app1. exact B.
  - intro R. destruct Hp as (E & N & U & T). rewrite E. f_equal.
    destruct ps as [|p0 ps0] using rev_ind; [congruence|]. clear IHps0. rewrite removelast_app1 in R.
    assert (F0 : filter (starts_with (py "RMK")) ps0 = []) by (apply filter_none; exact R).
    unfold shown_pieces, remark_list. unfold trends_of. rewrite !filter_app, F0. cbn [app filter].
    assert (K : body_list (ps0 ++ [p0]) ++ filter (begins_any trend_words) ps0
      ++ (if begins_any trend_words p0 then [p0] else []) ++ (if starts_with (py "RMK") p0 then [p0] else []) = ps0 ++ [p0]).
    { destruct ps0 as [|q ps0].
      - cbn [app]. unfold body_list. cbn [firstn filter app]. rewrite section_begins.
        destruct (begins_any trend_words p0) eqn:B.
        + rewrite (trend_starts p0 B). reflexivity.
        + destruct (starts_with (py "RMK") p0); reflexivity.
      - cbn [app tl] in T. apply Forall_app in T. destruct T as [T1 T2]. assert (T0 := Forall_inv T2).
        assert (R0 := Forall_inv R). assert (R1 := Forall_inv_tail R). cbv beta in T0, R0.
        assert (A : filter (begins_any trend_words) ps0 = ps0).
        { apply filter_all. rewrite Forall_forall in *. intros x I. specialize (T1 x I). rewrite section_begins, (R1 x I), orb_false_r in T1. exact T1. }
        assert (Z : (if begins_any trend_words p0 then [p0] else []) ++ (if starts_with (py "RMK") p0 then [p0] else []) = [p0]).
        { rewrite section_begins in T0. destruct (begins_any trend_words p0) eqn:B; [rewrite (trend_starts p0 B); reflexivity|].
          cbn [orb] in T0. rewrite T0. reflexivity. }
        rewrite Z. unfold body_list. cbn [app firstn filter]. rewrite A, section_begins. rewrite R0, orb_false_r.
        destruct (begins_any trend_words q); reflexivity. }
    rewrite <- app_assoc. rewrite <- K at 2. do 2 f_equal. f_equal. destruct (starts_with (py "RMK") p0); reflexivity.
Qed.
