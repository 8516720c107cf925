(** * The header of a TAF whatever follows it (C38) *)
From Coq Require Import String Ascii.
From Coq Require Import List NArith ZArith Bool Lia.
From Verif Require Import PyBase PyRegex AeroRegex PyFloat PyTime Utils Base MetarGroups Trend Metar Taf SpecNum SpecGroups SpecTime
  SpecText SpecTaf SpecWords SpecMetar SpecTafReport StrFacts RegexPaths TextFacts MergeFacts ProofText ProofTafText ProofProb ProofMerge
  ProofWords Keeps Dispatch ProofValues ProofTime ProofMetar ProofMetarText ProofClock ProofTafBody ProofTafReport DigitFacts.
Import ListNotations.
Local Open Scope string_scope.
Local Open Scope nat_scope.
Local Open Scope list_scope.

(** ** What the sanitizers look for *)

Lemma prob_den : forall x, den r_SAN_PROB x -> exists k x', x = 80%N :: 82%N :: 79%N :: 66%N :: k :: x' /\ (48 <= k <= 57)%N.
Proof.
  intros x D. destruct (den_paths r_SAN_PROB x eq_refl D) as (p & Ip & A). vm_compute in Ip. destruct Ip as [<-|[]]. read A.
  eexists _, _. split; [reflexivity|]. unfold in_cls in Hc. cbn [existsb in_citem] in Hc. rewrite !orb_true_iff, !andb_true_iff, !N.leb_le in Hc. intuition (try discriminate; lia).
Qed.

(** A text and what stays of it in front when its tail changes. *)
Definition firm (r : regex) (h : str) : Prop := forall t, blank_first t -> quiet r h t.

Lemma sub_after : forall r w h t m, nobos r = true -> mlen r [] = None -> firm r h -> blank_first t ->
  re_search r (h ++ t) = Some m ->
  exists a x t2, t = a ++ x ++ t2 /\ den r x /\ (x <> [] -> re_sub r w (h ++ t) (Some 1) = h ++ a ++ w ++ t2).
Proof.
  intros r w h t m Hb Hn Hf Ht Es. pose proof (Hf t Ht) as Q0.
  destruct (first_hit r t Hn) as [Q|(a & x & t2 & m0 & -> & Q & Em & Ee & D)].
  - rewrite re_search_none in Es; [discriminate|exact Hb|exact Hn|]. apply quiet_app; [rewrite app_nil_r; exact Q0|exact Q].
  - exists a, x, t2. split; [reflexivity|]. split; [exact D|]. intro Hx.
    destruct (step_at r w (h ++ a) x t2 m0 Hb Hn) as (S1 & _); auto.
    + apply quiet_app; [exact Q0|exact Q].
    + rewrite app_assoc, S1, <- app_assoc. reflexivity.
Qed.

Lemma prob_after : forall k h t, firm r_SAN_PROB h -> blank_first t ->
  exists t', sanitize_change_indicator_n k (h ++ t) = h ++ t' /\ blank_first t'.
Proof.
  induction k as [|k IH]; intros h t Hf Ht; [exists t; auto|]. cbn [sanitize_change_indicator_n].
  destruct (re_search r_SAN_PROB (h ++ t)) as [m|] eqn:E; [|exists t; auto].
  destruct (sub_after r_SAN_PROB (py "PROB" ++ fmt_opt (group m "percent") ++ py "_TEMPO") h t m eq_refl eq_refl Hf Ht E)
    as (a & x & t2 & Et & D & S).
  destruct (prob_den x D) as (kk & x' & -> & _). rewrite S by discriminate. apply IH; [exact Hf|].
  destruct Ht as [-> |(t3 & ->)]; [destruct a; discriminate Et|].
  destruct a as [|c a]; [discriminate Et|]. cbn [app] in Et. injection Et as <- _. right. eexists. reflexivity.
Qed.

Lemma vis_after : forall k h t, firm r_SAN_VIS h -> blank_first t ->
  exists t', sanitize_visibility_n k (h ++ t) = h ++ t' /\ blank_first t'.
Proof.
  induction k as [|k IH]; intros h t Hf Ht; [exists t; auto|]. cbn [sanitize_visibility_n]. unfold sanitize_visibility_step.
  destruct (re_search r_SAN_VIS (h ++ t)) as [m|] eqn:E; [|exists t; auto].
  destruct (group m "int") as [i|]; [|exists t; auto]. destruct (group m "frac") as [f|]; [|exists t; auto].
  destruct (sub_after r_SAN_VIS (py " " ++ i ++ py "_" ++ f ++ py " ") h t m eq_refl eq_refl Hf Ht E) as (a & x & t2 & Et & D & S).
  destruct (vis_blank x D) as (b & x' & -> & _). rewrite S by discriminate. apply IH; [exact Hf|].
  destruct a as [|c a]; [right; eexists; reflexivity|].
  destruct Ht as [-> |(t3 & ->)]; [discriminate Et|]. cbn [app] in Et. injection Et as <- _. right. eexists. reflexivity.
Qed.

(** The tail starts with a blank or a bar. *)
Definition sep_first (t : str) : Prop := t = [] \/ exists t2, t = 32%N :: t2 \/ t = 124%N :: t2.

Lemma kw_after : forall kw h t, kw <> [] -> (forall t, sep_first t -> quiet (literal (32%N :: kw)) h t) -> sep_first t ->
  exists t', re_sub (literal (32%N :: kw)) (py "|" ++ kw) (h ++ t) None = h ++ t' /\ sep_first t'.
Proof.
  intros kw h t Hk Hf Ht. rewrite re_sub_quiet; [|apply nobos_literal|apply Hf; exact Ht].
  eexists. split; [reflexivity|].
  assert (Hn : mlen (literal (32%N :: kw)) [] = None) by (rewrite mlen_literal by discriminate; reflexivity).
  destruct Ht as [-> |(t2 & Ht)]; [left; apply re_sub_nil; exact Hn|right].
  destruct (mlen (literal (32%N :: kw)) t) as [n|] eqn:E.
  - destruct (mlen_den _ _ _ E) as (x & u & Ex & En & D). apply den_literal in D. subst x n. rewrite Ex in E |- *.
    rewrite re_sub_hit; [|apply nobos_literal|exact Hn|discriminate|discriminate|exact E]. eexists. right. reflexivity.
  - destruct Ht as [-> | ->]; (rewrite re_sub_copy; [eexists|apply nobos_literal|exact E]); [left|right]; reflexivity.
Qed.

Lemma split_bar : forall h t, ~ In 124%N h -> sep_first t ->
  exists t' l, split_on 124 (h ++ t) = (h ++ t') :: l /\ blank_first t'.
Proof.
  intros h t Hh Ht.
  assert (G : forall u, exists u' l, split_on 124 (h ++ u) = (h ++ u') :: l /\ ((exists l', split_on 124 u = u' :: l'))).
  { intro u. induction h as [|c h IH].
    - cbn [app]. destruct (split_on 124 u) as [|u' l] eqn:E; [|eauto]. exfalso. destruct u as [|c u]; [discriminate E|]. cbn [split_on] in E. destruct (c =? 124)%N; [discriminate E|]. destruct (split_on 124 u); discriminate E.
    - destruct IH as (u' & l & E & l' & E2); [intro K; apply Hh; right; exact K|].
      exists u', l. cbn [app split_on]. rewrite E.
      destruct (N.eqb_spec c 124) as [K|K]; [exfalso; apply Hh; left; exact K|]. eauto. }
  destruct (G t) as (t' & l & E & l' & E2). exists t', l. split; [exact E|].
  destruct Ht as [-> |(t2 & [-> | ->])].
  - cbn in E2. injection E2 as <- _. left. reflexivity.
  - cbn [split_on N.eqb Pos.eqb] in E2. destruct (split_on 124 t2) as [|w l2]; injection E2 as <- _; right; eexists; reflexivity.
  - cbn [split_on N.eqb Pos.eqb] in E2. injection E2 as <- _. left. reflexivity.
Qed.

Lemma replace_after : forall old new h t, old <> [] ->
  (forall a1 c a2, h = a1 ++ c :: a2 -> starts_with old (c :: a2 ++ t) = false) ->
  replace old new (h ++ t) = h ++ replace old new t.
Proof.
  intros old new h t Ho. induction h as [|c h IH]; intro H; [reflexivity|]. cbn [app].
  rewrite replace_step; [|exact Ho|apply (H [] c h); reflexivity].
  rewrite IH; [reflexivity|]. intros a1 d a2 E. apply (H (c :: a1) d a2). rewrite E. reflexivity.
Qed.

(** ** The characters of the header *)

Definition digit_char (k : N) : Prop := (48 <= k <= 57)%N.
Definition stamp_chars (s : str) : Prop := exists a b c d e f, s = [a; b; c; d; e; f; 90%N]
  /\ digit_char a /\ digit_char b /\ digit_char c /\ digit_char d /\ digit_char e /\ digit_char f.

Lemma dig_range : forall n, digit_char (dig (n mod 10)).
Proof. intro n. unfold digit_char, dig. pose proof (N.mod_lt n 10 ltac:(discriminate)). lia. Qed.
Lemma stamp_is_chars : forall d h mi, stamp_chars (stamp_code d h mi).
Proof. intros d h mi. do 6 eexists. split; [reflexivity|]. conjs; apply dig_range. Qed.

Definition head_text (md : option (string * string)) (st stamp : str) : str :=
  sentence (py "TAF" :: of_option code_of md ++ [st; stamp]).
(** The header while TAF is joined to the word after it. *)
Definition head_joined (md : option (string * string)) (x : N) (st stamp : str) : str :=
  py "TAF_" ++ match md with Some m => code_of m ++ [32%N] | None => [] end ++ st ++ x :: stamp.
Definition joiner (st : str) : N := if ends_with (py "TAF") st then 95%N else 32%N.

(** No literal at the start of explicit characters. *)
Ltac off := match goal with
  | |- starts_with ?p ?s = false =>
      let E := fresh "E" in destruct (starts_with p s) eqn:E; [exfalso|reflexivity];
      apply starts_with_app in E; let u := fresh "u" in destruct E as (u & E);
      first [discriminate E | injection E; clear E; intros; unfold digit_char, is_alnum, is_upper in *; subst; lia]
  end.
Ltac off_lit := rewrite mlen_literal by discriminate; match goal with |- (if starts_with ?p ?s then _ else _) = None =>
  let E := fresh "E" in assert (E : starts_with p s = false); [|rewrite E; reflexivity] end.

Lemma digits_stop : forall w z t i b2 x', Forall (fun k => is_space k = false) w -> is_space z = false -> is_digit z = false ->
  Forall (fun k => is_digit k = true) i -> is_space b2 = true -> i ++ b2 :: x' = w ++ z :: t -> False.
Proof.
  intros w z t i b2 x' Hw Hz Hz2. revert i. induction Hw as [|k w Hk Hw IH]; intros i Hi Hb2 E.
  - destruct i as [|j i]; cbn [app] in E; injection E as -> E; [congruence|]. apply Forall_inv in Hi. congruence.
  - destruct i as [|j i]; cbn [app] in E; injection E as -> E; [congruence|]. apply Forall_inv_tail in Hi. exact (IH i Hi Hb2 E).
Qed.

Lemma alnum_ink : forall k, is_alnum k -> is_space k = false.
Proof.
  intros k H. apply alnum_in in H. assert (Q : forallb (fun k => negb (is_space k)) alnum_sym = true) by (vm_compute; reflexivity).
  rewrite forallb_forall in Q. apply Q in H. destruct (is_space k); [discriminate|reflexivity].
Qed.
Lemma upper_no_digit : forall k, is_upper k -> is_digit k = false.
Proof.
  intros k H. apply upper_in in H. assert (Q : forallb (fun k => negb (is_digit k)) upper_sym = true) by (vm_compute; reflexivity).
  rewrite forallb_forall in Q. apply Q in H. destruct (is_digit k); [discriminate|reflexivity].
Qed.

Section Head.
Variables (a b c d : N) (e1 e2 e3 e4 e5 e6 : N).
Hypotheses (Ha : is_upper a) (Hb : is_alnum b) (Hc : is_alnum c) (Hd : is_alnum d)
  (H1 : digit_char e1) (H2 : digit_char e2) (H3 : digit_char e3) (H4 : digit_char e4) (H5 : digit_char e5) (H6 : digit_char e6).
Let st := [a; b; c; d].
Let stamp := [e1; e2; e3; e4; e5; e6; 90%N].

Ltac spread := match goal with |- quiet _ ?h _ => let z := eval cbv in h in change h with z end.
Ltac cases_md Hm := match type of Hm with opt_all _ ?md => destruct md as [?m|]; [cbn in Hm; destruct Hm as [<-|[<-|[]]]|] end.

Lemma head_prob : forall md, opt_all (fun x => In x taf_modifiers) md -> firm r_SAN_PROB (head_text md st stamp).
Proof.
  intros md Hm t Ht.
  assert (K : forall s, (forall k x', (48 <= k <= 57)%N -> s <> 80%N :: 82%N :: 79%N :: 66%N :: k :: x') -> mlen r_SAN_PROB s = None).
  { intros s Hs. apply mlen_none. intros x u -> D. destruct (prob_den x D) as (k & x' & -> & Hk). exact (Hs k (x' ++ u) Hk eq_refl). }
  destruct md as [m|]; [cbn in Hm; destruct Hm as [<-|[<-|[]]]|]; spread;
    repeat (apply quiet_cons; [apply K; intros k x' Hk E; cbn [app] in E;
      first [discriminate E | destruct Ht as [-> |(t2 & ->)]; first [discriminate E | injection E; clear E; intros; unfold digit_char, is_alnum, is_upper in *; subst; lia]]|]);
    apply quiet_nil.
Qed.

Lemma head_vis : forall md, opt_all (fun x => In x taf_modifiers) md -> firm r_SAN_VIS (head_text md st stamp).
Proof.
  intros md Hm t Ht.
  assert (K : forall k s, is_space k = false -> mlen r_SAN_VIS (k :: s) = None).
  { intros k s Hk. apply mlen_none. intros x u E D. destruct (vis_blank x D) as (z & x' & -> & Hz). injection E as -> _. congruence. }
  assert (L : forall k j s, is_digit j = false -> is_space j = false -> mlen r_SAN_VIS (k :: j :: s) = None).
  { intros k j s Hj Hj2. apply mlen_none. intros x u E D. destruct (vis_den x D) as (z & i & b2 & p & q & v & -> & _ & Hz & Hi & _).
    destruct i as [|i0 i]; cbn [app] in E; injection E as _ -> _; [congruence|]. apply Forall_inv in Hi. congruence. }
  assert (M : forall k w z s, Forall (fun k => is_space k = false) w -> is_space z = false -> is_digit z = false ->
    mlen r_SAN_VIS (k :: w ++ z :: s) = None).
  { intros k w z s Hw Hz Hz2. apply mlen_none. intros x u E D. destruct (vis_den x D) as (y & i & b2 & p & q & v & -> & _ & Hb2 & Hi & _).
    cbn [app] in E. injection E as _ E. rewrite <- app_assoc in E. symmetry in E.
    exact (digits_stop w z s i b2 _ Hw Hz Hz2 Hi Hb2 E). }
  assert (N0 : forall k, is_alnum k -> is_space k = false) by exact alnum_ink.
  assert (Hs : Forall (fun k => is_space k = false) [e1; e2; e3; e4; e5; e6]).
  { repeat constructor; apply alnum_ink; right; assumption. }
  destruct md as [m|]; [cbn in Hm; destruct Hm as [<-|[<-|[]]]|]; spread;
    repeat (apply quiet_cons; [first
      [apply K; first [reflexivity | apply alnum_ink; first [left; assumption | assumption | right; assumption]]
      |apply L; first [reflexivity | apply upper_no_digit; assumption | apply alnum_ink; left; assumption]
      |exact (M 32%N [e1; e2; e3; e4; e5; e6] 90%N t Hs eq_refl eq_refl)]|]);
    apply quiet_nil.
Qed.

Lemma head_kw : forall md x kw, opt_all (fun x => In x taf_modifiers) md -> x = 32%N \/ x = 95%N ->
  In kw [py "FM"; py "TEMPO"; py "BECMG"; py "PROB"] -> (md <> None -> starts_with kw st = false) ->
  forall t, sep_first t -> quiet (literal (32%N :: kw)) (head_joined md x st stamp) t.
Proof.
  intros md x kw Hm Hx Hk Hs t Ht.
  destruct md as [m|]; [specialize (Hs ltac:(discriminate)); cbn in Hm; destruct Hm as [<-|[<-|[]]]|clear Hs];
    (destruct Hx as [-> | ->]);
    cbn [In] in Hk; (destruct Hk as [<-|[<-|[<-|[<-|[]]]]]); spread;
    repeat (apply quiet_cons; [off_lit; first [off|exact Hs]|]);
    apply quiet_nil.
Qed.
(** Joining TAF to the next word and cutting it off again. *)
Lemma head_join : forall md t, opt_all (fun x => In x taf_modifiers) md -> blank_first t ->
  exists t', replace (py "TAF ") (py "TAF_") (head_text md st stamp ++ t) = head_joined md (joiner st) st stamp ++ t' /\ blank_first t'.
Proof.
  intros md t Hm Ht.
  assert (Tl : blank_first (replace (py "TAF ") (py "TAF_") t)).
  { destruct Ht as [-> |(t2 & ->)]; [left; reflexivity|right]. rewrite replace_step; [eexists; reflexivity|discriminate|reflexivity]. }
  exists (replace (py "TAF ") (py "TAF_") t). split; [|exact Tl].
  assert (P : forall l k, starts_with (py "TAF ") (k :: l) = false ->
     replace (py "TAF ") (py "TAF_") (k :: l) = k :: replace (py "TAF ") (py "TAF_") l).
  { intros l k Hk. apply replace_step; [discriminate|exact Hk]. }
  assert (E2 : replace (py "TAF ") (py "TAF_") (stamp ++ t) = stamp ++ replace (py "TAF ") (py "TAF_") t).
  { unfold stamp. cbn [app]. rewrite !P; [reflexivity|..]; try off.
    all: destruct Ht as [-> |(t2 & ->)]; off. }
  assert (E3 : replace (py "TAF ") (py "TAF_") (st ++ 32%N :: stamp ++ t) = st ++ joiner st :: stamp ++ replace (py "TAF ") (py "TAF_") t).
  { unfold joiner, st. change (ends_with (py "TAF") [a; b; c; d]) with (starts_with [70%N; 65%N; 84%N] [d; c; b; a]).
    cbn [starts_with]. cbn [app].
    destruct (N.eqb_spec 70 d) as [<-|Nd]; [destruct (N.eqb_spec 65 c) as [<-|Nc]; [destruct (N.eqb_spec 84 b) as [<-|Nb]|]|]; cbn [andb].
    - rewrite P by off. change (84%N :: 65%N :: 70%N :: 32%N :: stamp ++ t) with (py "TAF " ++ stamp ++ t).
      rewrite replace_at by discriminate. rewrite E2. reflexivity.
    - rewrite !P; [rewrite E2; reflexivity|..]; off.
    - rewrite !P; [rewrite E2; reflexivity|..]; off.
    - rewrite !P; [rewrite E2; reflexivity|..]; off. }
  destruct md as [m|]; [cbn in Hm; destruct Hm as [<-|[<-|[]]]|].
  - change (head_text (Some ("AMD", "Amendment")) st stamp ++ t) with (py "TAF " ++ 65%N :: 77%N :: 68%N :: 32%N :: st ++ 32%N :: stamp ++ t).
    rewrite replace_at by discriminate. rewrite !(P _ _) by reflexivity. rewrite E3. reflexivity.
  - change (head_text (Some ("COR", "Correction")) st stamp ++ t) with (py "TAF " ++ 67%N :: 79%N :: 82%N :: 32%N :: st ++ 32%N :: stamp ++ t).
    rewrite replace_at by discriminate. rewrite !(P _ _) by reflexivity. rewrite E3. reflexivity.
  - change (head_text None st stamp ++ t) with (py "TAF " ++ st ++ 32%N :: stamp ++ t).
    rewrite replace_at by discriminate. rewrite E3. reflexivity.
Qed.

Lemma head_back : forall md t, opt_all (fun x => In x taf_modifiers) md -> blank_first t ->
  exists t', replace (py "TAF_") (py "TAF ") (head_joined md (joiner st) st stamp ++ t) = head_text md st stamp ++ t' /\ blank_first t'.
Proof.
  intros md t Hm Ht.
  assert (Tl : blank_first (replace (py "TAF_") (py "TAF ") t)).
  { destruct Ht as [-> |(t2 & ->)]; [left; reflexivity|right]. rewrite replace_step; [eexists; reflexivity|discriminate|reflexivity]. }
  exists (replace (py "TAF_") (py "TAF ") t). split; [|exact Tl].
  assert (P : forall l k, starts_with (py "TAF_") (k :: l) = false ->
     replace (py "TAF_") (py "TAF ") (k :: l) = k :: replace (py "TAF_") (py "TAF ") l).
  { intros l k Hk. apply replace_step; [discriminate|exact Hk]. }
  assert (E2 : replace (py "TAF_") (py "TAF ") (stamp ++ t) = stamp ++ replace (py "TAF_") (py "TAF ") t).
  { unfold stamp. cbn [app]. rewrite !P; [reflexivity|..]; try off.
    all: destruct Ht as [-> |(t2 & ->)]; off. }
  assert (E3 : replace (py "TAF_") (py "TAF ") (st ++ joiner st :: stamp ++ t) = st ++ 32%N :: stamp ++ replace (py "TAF_") (py "TAF ") t).
  { unfold joiner, st. change (ends_with (py "TAF") [a; b; c; d]) with (starts_with [70%N; 65%N; 84%N] [d; c; b; a]).
    cbn [starts_with]. cbn [app].
    destruct (N.eqb_spec 70 d) as [<-|Nd]; [destruct (N.eqb_spec 65 c) as [<-|Nc]; [destruct (N.eqb_spec 84 b) as [<-|Nb]|]|]; cbn [andb].
    - rewrite P by off. change (84%N :: 65%N :: 70%N :: 95%N :: stamp ++ t) with (py "TAF_" ++ stamp ++ t).
      rewrite replace_at by discriminate. rewrite E2. reflexivity.
    - rewrite !P; [rewrite E2; reflexivity|..]; off.
    - rewrite !P; [rewrite E2; reflexivity|..]; off.
    - rewrite !P; [rewrite E2; reflexivity|..]; off. }
  destruct md as [m|]; [cbn in Hm; destruct Hm as [<-|[<-|[]]]|].
  - change (head_joined (Some ("AMD", "Amendment")) (joiner st) st stamp ++ t)
      with (py "TAF_" ++ 65%N :: 77%N :: 68%N :: 32%N :: st ++ joiner st :: stamp ++ t).
    rewrite replace_at by discriminate. rewrite !(P _ _) by reflexivity. rewrite E3. reflexivity.
  - change (head_joined (Some ("COR", "Correction")) (joiner st) st stamp ++ t)
      with (py "TAF_" ++ 67%N :: 79%N :: 82%N :: 32%N :: st ++ joiner st :: stamp ++ t).
    rewrite replace_at by discriminate. rewrite !(P _ _) by reflexivity. rewrite E3. reflexivity.
  - change (head_joined None (joiner st) st stamp ++ t) with (py "TAF_" ++ st ++ joiner st :: stamp ++ t).
    rewrite replace_at by discriminate. rewrite E3. reflexivity.
Qed.

Lemma head_no_bar : forall md, opt_all (fun x => In x taf_modifiers) md -> ~ In 124%N (head_joined md (joiner st) st stamp).
Proof.
  intros md Hm K. assert (J : joiner st = 32%N \/ joiner st = 95%N) by (unfold joiner; destruct (ends_with _ _); auto).
  unfold head_joined, st, stamp in K. apply in_app_or in K. destruct K as [K|K]; [cbn in K; intuition discriminate|].
  apply in_app_or in K. destruct K as [K|K].
  - destruct md as [m|]; [cbn in Hm; destruct Hm as [<-|[<-|[]]]|]; cbn in K; intuition discriminate.
  - cbn [In app] in K. unfold digit_char, is_alnum, is_upper in *. unfold st in J. intuition lia.
Qed.

(** The body of a report that starts with the header. *)
Lemma head_body : forall md t, opt_all (fun x => In x taf_modifiers) md ->
  (md <> None -> begins_any change_words st = false) -> blank_first t ->
  exists t', fst (taf_split (head_text md st stamp ++ t)) = head_text md st stamp ++ t' /\ blank_first t'.
Proof.
  intros md t Hm Hs Ht. unfold taf_split, sanitize_change_indicator.
  destruct (prob_after 5 _ t (head_prob md Hm) Ht) as (t1 & -> & T1).
  assert (SW : starts_with (py "TAF") (head_text md st stamp ++ t1) = true).
  { apply starts_with_app. destruct md as [m|]; [cbn in Hm; destruct Hm as [<-|[<-|[]]]|]; eexists; reflexivity. }
  rewrite SW. destruct (head_join md t1 Hm T1) as (t2 & -> & T2).
  assert (J : joiner st = 32%N \/ joiner st = 95%N) by (unfold joiner; destruct (ends_with _ _); auto).
  assert (T2' : sep_first t2) by (destruct T2 as [-> |(u & ->)]; [left; reflexivity|right; eexists; left; reflexivity]).
  assert (Q : forall kw, In kw [py "FM"; py "TEMPO"; py "BECMG"; py "PROB"] ->
    forall t, sep_first t -> exists t', re_sub (literal (py " " ++ kw)) (py "|" ++ lstrip (py " " ++ kw))
      (head_joined md (joiner st) st stamp ++ t) None = head_joined md (joiner st) st stamp ++ t' /\ sep_first t').
  { intros kw Hk u Hu.
    assert (L : lstrip (py " " ++ kw) = kw) by (cbn [In] in Hk; destruct Hk as [<-|[<-|[<-|[<-|[]]]]]; reflexivity). rewrite L.
    apply (kw_after kw); [cbn [In] in Hk; intro E; subst kw; intuition discriminate| |exact Hu].
    intros v Hv. apply head_kw; try assumption. intro Nm. specialize (Hs Nm).
    unfold begins_any, change_words in Hs. cbn [existsb] in Hs.
    repeat match type of Hs with (_ || _)%bool = false => apply orb_false_iff in Hs; let K := fresh "K" in destruct Hs as [K Hs] end.
    cbn [In] in Hk. destruct Hk as [<-|[<-|[<-|[<-|[]]]]]; assumption. }
  unfold split_sentence. cbn [fold_left add_space].
  destruct (Q (py "FM") ltac:(cbn; tauto) t2 T2') as (t3 & -> & T3).
  destruct (Q (py "TEMPO") ltac:(cbn; tauto) t3 T3) as (t4 & -> & T4).
  destruct (Q (py "BECMG") ltac:(cbn; tauto) t4 T4) as (t5 & -> & T5).
  destruct (Q (py "PROB") ltac:(cbn; tauto) t5 T5) as (t6 & -> & T6).
  destruct (split_bar _ t6 (head_no_bar md Hm) T6) as (t7 & l & -> & T7). cbn [fst].
  exact (head_back md t7 Hm T7).
Qed.

Lemma head_groups : forall md t, opt_all (fun x => In x taf_modifiers) md -> blank_first t ->
  exists gs, split_on 32 (sanitize_visibility (head_text md st stamp ++ t)) = py "TAF" :: of_option code_of md ++ st :: stamp :: gs.
Proof.
  intros md t Hm Ht. destruct (vis_after 3 _ t (head_vis md Hm) Ht) as (t1 & E & T1). unfold sanitize_visibility. rewrite E.
  assert (N1 : ~ In 32%N st) by (unfold st; cbn [In]; unfold is_alnum, is_upper in *; intuition lia).
  assert (N2 : ~ In 32%N stamp) by (unfold stamp; cbn [In]; unfold digit_char in *; intuition lia).
  destruct (split_first stamp t1 N2 T1) as (gs & Eg). exists gs.
  destruct md as [m|]; [cbn in Hm; destruct Hm as [<-|[<-|[]]]|].
  - change (head_text (Some ("AMD", "Amendment")) st stamp ++ t1) with (py "TAF" ++ 32%N :: py "AMD" ++ 32%N :: st ++ 32%N :: stamp ++ t1).
    rewrite !split_on_app by (first [exact N1|cbn; intuition discriminate]). rewrite Eg. reflexivity.
  - change (head_text (Some ("COR", "Correction")) st stamp ++ t1) with (py "TAF" ++ 32%N :: py "COR" ++ 32%N :: st ++ 32%N :: stamp ++ t1).
    rewrite !split_on_app by (first [exact N1|cbn; intuition discriminate]). rewrite Eg. reflexivity.
  - change (head_text None st stamp ++ t1) with (py "TAF" ++ 32%N :: st ++ 32%N :: stamp ++ t1).
    rewrite !split_on_app by (first [exact N1|cbn; intuition discriminate]). rewrite Eg. reflexivity.
Qed.
End Head.

(** ** The report *)

Definition kept_head (st stamp : str) (x : taf) : Prop :=
  st_code (ta_station x) = Some st /\ t_code (ta_time x) = Some stamp.

Lemma kept_later : forall e y mo st stamp h m x x', In h (skipn 4 (taf_handlers e y mo)) -> h_handle h m x = Ok x' ->
  kept_head st stamp x -> kept_head st stamp x'.
Proof.
  intros e y mo st stamp h m x x' Hin E H. unfold taf_handlers in Hin. cbn [skipn In] in Hin.
  assert (L : forall f, tlift f m x = Ok x' -> kept_head st stamp x').
  { intros f E1. unfold tlift in E1. destruct (f m (ta_common x)) as [c|]; [|discriminate E1]. cbn [bind] in E1. injection E1 as <-. exact H. }
  assert (T : thandle_temperature m x = Ok x' -> kept_head st stamp x').
  { intro E1. unfold thandle_temperature in E1. destruct (taf_temp_new m (t_dt (ta_time x))) as [v|]; [|discriminate E1]. cbn [bind] in E1.
    destruct (opt_str_eqb (group m "type") (py "X"));
      [destruct (gl_add v (ta_max x)) as [l|]|destruct (gl_add v (ta_min x)) as [l|]]; try discriminate E1;
      cbn [bind] in E1; injection E1 as <-; exact H. }
  repeat (destruct Hin as [<-|Hin]; [cbn [h_handle] in E; first
    [exact (L _ E) | exact (T E) | injection E as <-; exact H
    | unfold thandle_valid in E; destruct (valid_from_taf (Some m) (t_dt (ta_time x))) as [v|]; [|discriminate E];
      cbn [bind] in E; injection E as <-; exact H]|]).
  destruct Hin.
Qed.

Lemma time_kept_code : forall e m y mo t, time_from_metar e (Some m) y mo = Ok t -> ~ In 95%N (m_string m) ->
  t_code t = Some (m_string m).
Proof.
  intros e m y mo t E H. unfold time_from_metar, time_new in E. destruct (strptime _) as [w|]; [|discriminate E]. cbn [bind] in E.
  replace t with (mk_time (group_code (Some (m_string m))) w) by congruence. cbn [t_code]. unfold group_code, option_map. f_equal.
  apply (replace_absent _ _ 95%N); [left; reflexivity|exact H].
Qed.

Lemma changes_station : forall l x x', handle_changes l x = Ok x' -> ta_station x' = ta_station x.
Proof.
  induction l as [|t l IH]; intros x x' E; cbn [handle_changes] in E; [congruence|].
  destruct t as [|a t]; [exact (IH _ _ E)|]. unfold handle_change_forecasted in E.
  destruct (change_fc_new (a :: t) (ta_valid x)) as [p|]; [|discriminate]. cbn [bind] in E.
  destruct (changes_add p (ta_changes x)) as [c|]; [|discriminate]. cbn [bind] in E.
  rewrite (IH _ _ E). reflexivity.
Qed.

Lemma head_shown : forall md st stamp rest, rest = [] \/ head_text md st stamp ++ 32%N :: sentence rest =
  sentence ((py "TAF" :: of_option code_of md ++ [st; stamp]) ++ rest).
Proof.
  intros md st stamp rest. destruct rest as [|w rest]; [left; reflexivity|right]. unfold head_text, sentence. rewrite join_app; [reflexivity|discriminate|discriminate].
Qed.

Lemma head_raw : forall md s dd h mi rest ca ct cq cb,
  opt_all (fun w => In w taf_modifiers) md -> station_wf s -> Forall (fun w => word w /\ ~ In 61%N w) rest ->
  laid_out (py "TAF" :: of_option code_of md ++ s :: stamp_code dd h mi :: rest) ct -> Forall blank ca -> Forall blank cb ->
  cq = [] \/ cq = [61%N] ->
  exists t, report_raw_code (ca ++ ct ++ cq ++ cb) = Ok (head_text md s (stamp_code dd h mi) ++ t) /\ blank_first t.
Proof.
  intros md s dd h mi rest ca ct cq cb Hm Hs Hr Ht Hca Hcb Hcq.
  destruct (stamp_is_chars dd h mi) as (e1 & e2 & e3 & e4 & e5 & e6 & Ez & K1 & K2 & K3 & K4 & K5 & K6).
  assert (AW : Forall (fun w => word w /\ ~ In 61%N w) (py "TAF" :: of_option code_of md ++ s :: stamp_code dd h mi :: rest)).
  { constructor; [split; [split; [discriminate|repeat constructor; discriminate]|cbn; intuition discriminate]|].
    apply Forall_app. split; [|constructor; [|constructor; [|exact Hr]]].
    - apply of_option_Forall. eapply opt_all_impl; [|exact Hm]. intros w Hw. destruct (modifier_head w Hw) as [K _]. split; apply K.
    - pose proof (station_head s Hs) as K. split; apply K.
    - assert (F : Forall is_alnum (stamp_code dd h mi)).
      { rewrite Ez. unfold digit_char in *. repeat (constructor; [first [right; assumption|left; unfold is_upper; lia]|]). constructor. }
      split; [split|].
      + rewrite Ez. discriminate.
      + eapply Forall_impl; [|exact F]. intros k Kk K. unfold blank in K. rewrite (alnum_ink k Kk) in K. discriminate.
      + intro K. rewrite Forall_forall in F. apply F in K. unfold is_alnum, is_upper in K. lia. }
  rewrite (raw_layout _ _ _ _ _ Ht); [|eapply Forall_impl; [|exact AW]; intros w K; apply K
    |eapply Forall_impl; [|exact AW]; intros w K; apply K|exact Hca|exact Hcb|exact Hcq].
  assert (R : exists t, sentence (py "TAF" :: of_option code_of md ++ s :: stamp_code dd h mi :: rest) = head_text md s (stamp_code dd h mi) ++ t
    /\ blank_first t).
  { replace (py "TAF" :: of_option code_of md ++ s :: stamp_code dd h mi :: rest)
      with ((py "TAF" :: of_option code_of md ++ [s; stamp_code dd h mi]) ++ rest) by (cbn [app]; rewrite <- app_assoc; reflexivity).
    destruct (head_shown md s (stamp_code dd h mi) rest) as [-> |K].
    - exists []. split; [rewrite !app_nil_r; reflexivity|left; reflexivity].
    - eexists. split; [symmetry; exact K|right; eexists; reflexivity]. }
  destruct R as (t & -> & Bt). exists t. auto.
Qed.

Lemma amd_match : forall w, In w taf_modifiers -> exists m, re_match r_T_AMD_COR (code_of w) = Some m.
Proof. intros w Hm. cbn in Hm. destruct Hm as [<-|[<-|[]]]; eexists; vm_compute; reflexivity. Qed.

Lemma taf_head : forall e md s dd h mi rest y mo tr code x,
  opt_all (fun w => In w taf_modifiers) md -> station_wf s -> (md <> None -> begins_any change_words s = false) ->
  (1 <= dd <= 31)%N -> (h <= 24)%N -> (mi <= 59)%N -> Forall (fun w => word w /\ ~ In 61%N w) rest ->
  shows (py "TAF" :: of_option code_of md ++ s :: stamp_code dd h mi :: rest) code ->
  taf_parse e code y mo tr = Ok x -> st_code (ta_station x) = Some s /\ t_code (ta_time x) = Some (stamp_code dd h mi).
Proof.
  intros e md s dd h mi rest y mo tr code x Hm Hs Ho Hd Hh Hmi Hr (ca & ct & cq & cb & -> & Ht & Hca & Hcb & Hcq) E.
  pose proof Hs as (a & b & c & d & Es & Ka & Kb & Kc & Kd).
  destruct (stamp_is_chars dd h mi) as (e1 & e2 & e3 & e4 & e5 & e6 & Ez & K1 & K2 & K3 & K4 & K5 & K6).
  destruct (head_raw md s dd h mi rest ca ct cq cb Hm Hs Hr Ht Hca Hcb Hcq) as (t & Er & Bt).
  unfold taf_parse in E. rewrite Er in E. cbn [bind] in E. clear Er.
  rewrite Ez, Es in E.
  destruct (head_body a b c d e1 e2 e3 e4 e5 e6 Ka Kb Kc Kd K1 K2 K3 K4 K5 K6 md t Hm) as (t1 & Eb & T1); [subst s; exact Ho|exact Bt|].
  destruct (head_groups a b c d e1 e2 e3 e4 e5 e6 Ka Kb Kc Kd K1 K2 K3 K4 K5 K6 md t1 Hm T1) as (gs & Eg).
  rewrite <- Es, <- Ez in E, Eb, Eg.
  unfold taf_init in E. destruct (time_new e None None None None None None) as [t0|]; [|discriminate E]. cbn [bind] in E.
  destruct (taf_split (head_text md s (stamp_code dd h mi) ++ t)) as [body codes] eqn:Esp. cbn [fst] in Eb. subst body.
  destruct (common_new []) as [c0|]; [|discriminate E]. cbn [bind] in E.
  destruct (valid_from_taf None (t_dt t0)) as [v0|]; [|discriminate E]. cbn [bind] in E.
  match type of E with context [taf_parse_body e y mo ?z] => set (x0 := z) in E end.
  unfold taf_parse_body, parse_section in E. change (ta_body x0) with (head_text md s (stamp_code dd h mi) ++ t1) in E.
  rewrite Eg in E.
  set (hs := taf_handlers e y mo) in E.
  destruct taf_type_match as (m1 & M1 & S1).
  rewrite (parse_at hs 0 0 _ _ (mk_handler r_TYPE thandle_type) m1) in E; [|lia|intros j hh Hj; lia|reflexivity|exact M1].
  cbn [h_handle] in E. unfold thandle_type in E. cbn [bind] in E.
  match type of E with context [parse_groups hs _ 1 [] ?z] => set (x1 := z) in E end. clearbody x1.
  match type of E with context [parse_groups hs ?l 1 ?u x1] => match l with ?l1 ++ ?l2 =>
    assert (Mo : exists i x2, i <= 2 /\ 1 <= i /\ parse_groups hs l 1 u x1 = parse_groups hs l2 i u x2) end end.
  { destruct md as [w|]; cbn [of_option app]; [|exists 1, x1; auto].
    cbn [opt_all] in Hm.
    destruct (amd_match w Hm) as (m2 & M2).
    rewrite (parse_at hs 1 1 _ _ (mk_handler r_T_AMD_COR thandle_modifier) m2); [|lia|intros j hh Hj; lia|reflexivity|exact M2].
    cbn [h_handle]. unfold thandle_modifier. cbn [bind]. eexists 2, _. split; [lia|]. split; [lia|reflexivity]. }
  destruct Mo as (i2 & x2 & I2 & I1 & Em). rewrite Em in E. clear Em.
  destruct (station_match _ Hs) as (m3 & M3 & S3).
  rewrite (parse_at hs i2 2 _ _ (mk_handler r_STATION (thandle_station e)) m3) in E;
    [|lia| |reflexivity|exact M3].
  2:{ intros j hh Hj Eh. assert (j = 1) by lia. subst j. injection Eh as <-. exact (station_not_amd _ Hs). }
  cbn [h_handle] in E. unfold thandle_station in E. rewrite S3 in E. cbn [bind] in E.
  destruct (time_captures dd h mi Hd Hh Hmi) as (m4 & M4 & S4 & _).
  match type of E with context [parse_groups hs _ 3 [] ?z] => set (x3 := z) in E end.
  assert (St3 : st_code (ta_station x3) = Some s) by exact (station_code_ok e s Hs). clearbody x3.
  rewrite (parse_at hs 3 3 _ _ (mk_handler r_TIME (thandle_time e y mo)) m4) in E; [|lia|intros j hh Hj; lia|reflexivity|exact M4].
  cbn [h_handle] in E. unfold thandle_time in E.
  destruct (time_from_metar e (Some m4) y mo) as [tm|] eqn:Et; [|discriminate E]. cbn [bind] in E.
  match type of E with context [parse_groups hs _ 4 [] ?z] => set (x4 := z) in E end.
  assert (Hk : kept_head s (stamp_code dd h mi) x4).
  { split; [exact St3|]. change (t_code tm = Some (stamp_code dd h mi)). rewrite <- S4. apply (time_kept_code e m4 y mo tm Et).
    rewrite S4, Ez. cbn [In]. unfold digit_char in *. intuition lia. }
  clearbody x4.
  destruct (parse_groups hs gs 4 [] x4) as [[x5 un]|] eqn:Ep; [|discriminate E]. cbn [bind] in E.
  assert (H5 : kept_head s (stamp_code dd h mi) x5).
  { refine (parse_groups_inv _ (kept_head s (stamp_code dd h mi)) hs gs 4 _ _ x5 un _ Hk Ep).
    intros hh m z z' Hin Eh Hz. exact (kept_later e y mo _ _ hh m z z' Hin Eh Hz). }
  set (x6 := tupd_unparsed (ta_unparsed x5 ++ un) x5) in E.
  assert (H6 : kept_head s (stamp_code dd h mi) x6) by exact H5. clearbody x6.
  assert (G : ta_station x = ta_station x6).
  { unfold parse_changes_forecasted in E. destruct (handle_changes (ta_codes x6) x6) as [z|] eqn:Eh; [|discriminate E].
    apply changes_station in Eh. rewrite <- Eh. cbn [bind] in E. destruct (gl_collect (ta_changes z)) as [l g]. cbv zeta in E.
    match type of E with match ?u with _ => _ end = _ => destruct u end; [|destruct tr; [discriminate E|]];
      match type of E with Ok ?a = _ => replace x with a by congruence end; reflexivity. }
  apply forecasts_keep in E. destruct E as [E _]. rewrite G, E. exact H6.
Qed.


(** ** A station taken for a change *)

Lemma bar_stays : forall kw u, exists u', re_sub (literal (32%N :: kw)) (py "|" ++ kw) (124%N :: u) None = 124%N :: u'.
Proof.
  intros kw u. rewrite re_sub_copy; [eexists; reflexivity|apply nobos_literal|]. rewrite mlen_literal by discriminate. reflexivity.
Qed.

Lemma kw_hits : forall kw h u, quiet (literal (32%N :: kw)) h (32%N :: kw ++ u) ->
  exists u', re_sub (literal (32%N :: kw)) (py "|" ++ kw) (h ++ 32%N :: kw ++ u) None = h ++ 124%N :: u'.
Proof.
  intros kw h u Q. rewrite re_sub_quiet; [|apply nobos_literal|exact Q]. change (32%N :: kw ++ u) with ((32%N :: kw) ++ u).
  rewrite re_sub_hit; [eexists; reflexivity|apply nobos_literal|rewrite mlen_literal by discriminate; reflexivity|discriminate|discriminate|].
  rewrite mlen_literal by discriminate.
  assert (E : starts_with (32%N :: kw) ((32%N :: kw) ++ u) = true) by (apply starts_with_app; eexists; reflexivity). rewrite E. reflexivity.
Qed.

Lemma word_quiet : forall kw h t, Forall (fun k => is_space k = false) h -> quiet (literal (32%N :: kw)) h t.
Proof.
  intros kw h t H. induction H as [|k h Hk H IH]; [apply quiet_nil|]. apply quiet_cons; [|exact IH]. rewrite mlen_literal by discriminate.
  cbn [starts_with]. destruct (N.eqb_spec 32 k) as [<-|K]; [discriminate Hk|reflexivity].
Qed.

(** The keyword found right after a first word without blanks. *)
Lemma cut_first : forall w kw u, Forall (fun k => is_space k = false) w -> ~ In 124%N w ->
  In kw [py "FM"; py "PROB"] ->
  (kw = py "PROB" -> exists u', u = 32%N :: u') ->
  exists l, split_sentence (w ++ 32%N :: kw ++ u) [py "FM"; py "TEMPO"; py "BECMG"; py "PROB"] None SpLeft = w :: l.
Proof.
  intros w kw u Hw Hb Hk Hu. unfold split_sentence. cbn [fold_left add_space].
  change (py " " ++ py "FM") with (32%N :: py "FM"). change (py " " ++ py "TEMPO") with (32%N :: py "TEMPO").
  change (py " " ++ py "BECMG") with (32%N :: py "BECMG"). change (py " " ++ py "PROB") with (32%N :: py "PROB").
  change (lstrip (32%N :: py "FM")) with (py "FM"). change (lstrip (32%N :: py "TEMPO")) with (py "TEMPO").
  change (lstrip (32%N :: py "BECMG")) with (py "BECMG"). change (lstrip (32%N :: py "PROB")) with (py "PROB").
  assert (B : forall k v, exists v', re_sub (literal (32%N :: k)) (py "|" ++ k) (w ++ 124%N :: v) None = w ++ 124%N :: v').
  { intros k v. destruct (bar_stays k v) as (v' & E). exists v'. rewrite re_sub_quiet; [|apply nobos_literal|apply word_quiet; exact Hw].
    rewrite E. reflexivity. }
  cbn [In] in Hk. destruct Hk as [<-|[<-|[]]].
  - destruct (kw_hits (py "FM") w u (word_quiet _ _ _ Hw)) as (u1 & ->).
    destruct (B (py "TEMPO") u1) as (u2 & ->). destruct (B (py "BECMG") u2) as (u3 & ->). destruct (B (py "PROB") u3) as (u4 & ->).
    eexists. apply split_on_app. exact Hb.
  - destruct (Hu eq_refl) as (u0 & ->).
    assert (K : forall k t, In k [py "FM"; py "TEMPO"; py "BECMG"] -> blank_first t \/ sep_first t ->
       exists t', re_sub (literal (32%N :: k)) (py "|" ++ k) (w ++ 32%N :: py "PROB" ++ t) None = w ++ 32%N :: py "PROB" ++ t' /\ sep_first t').
    { intros k t Hk Ht. assert (Ht' : sep_first t) by (destruct Ht as [[-> |(v & ->)]|Ht]; [left; reflexivity|right; eexists; left; reflexivity|exact Ht]).
      destruct (kw_after k (w ++ 32%N :: py "PROB") t) as (t' & E & St).
      - intro E. subst k. cbn [In] in Hk. intuition discriminate.
      - intros v Hv. apply quiet_app; [apply word_quiet; exact Hw|].
        cbn [In] in Hk. destruct Hk as [<-|[<-|[<-|[]]]]; repeat (apply quiet_cons; [off_lit; reflexivity|]); apply quiet_nil.
      - exact Ht'.
      - exists t'. rewrite <- !app_assoc in E. split; [exact E|exact St]. }
    destruct (K (py "FM") (32%N :: u0)) as (u1 & -> & S1); [cbn; tauto|left; right; eexists; reflexivity|].
    destruct (K (py "TEMPO") u1) as (u2 & -> & S2); [cbn; tauto|right; exact S1|].
    destruct (K (py "BECMG") u2) as (u3 & -> & S3); [cbn; tauto|right; exact S2|].
    destruct (kw_hits (py "PROB") w u3 (word_quiet _ _ _ Hw)) as (u4 & ->). eexists. apply split_on_app. exact Hb.
Qed.

Lemma only_modifier : forall e y mo m x0, In m taf_modifiers -> ta_station x0 = station_new e None -> t_code (ta_time x0) = None ->
  exists x1, parse_section (taf_handlers e y mo) (sanitize_visibility (py "TAF " ++ code_of m)) x0 = Ok (x1, [])
    /\ st_code (ta_station x1) = None /\ t_code (ta_time x1) = None.
Proof.
  intros e y mo m x0 Hm S0 T0. unfold parse_section. set (hs := taf_handlers e y mo).
  assert (Eg : split_on 32 (sanitize_visibility (py "TAF " ++ code_of m)) = [py "TAF"; code_of m]).
  { clear - Hm. cbn in Hm. destruct Hm as [<-|[<-|[]]]; vm_compute; reflexivity. }
  rewrite Eg. clear Eg.
  destruct taf_type_match as (m1 & M1 & _).
  rewrite (parse_at hs 0 0 _ _ (mk_handler r_TYPE thandle_type) m1); [|lia|intros j hh Hj; lia|reflexivity|exact M1].
  cbn [h_handle]. unfold thandle_type. cbn [bind].
  destruct (amd_match m Hm) as (m2 & M2).
  rewrite (parse_at hs 1 1 _ _ (mk_handler r_T_AMD_COR thandle_modifier) m2); [|lia|intros j hh Hj; lia|reflexivity|exact M2].
  cbn [h_handle]. unfold thandle_modifier. cbn [bind parse_groups]. eexists. split; [reflexivity|].
  change (st_code (ta_station x0) = None /\ t_code (ta_time x0) = None). rewrite S0. auto.
Qed.

Lemma lost_body : forall m s dd h mi t, In m taf_modifiers -> station_wf s -> begins_any change_words s = true -> blank_first t ->
  exists l, taf_split (head_text (Some m) s (stamp_code dd h mi) ++ t) = (py "TAF " ++ code_of m, l).
Proof.
  intros m s dd h mi t Hm (a & b & c & d & Es & Ka & Kb & Kc & Kd) Ho Ht.
  destruct (stamp_is_chars dd h mi) as (e1 & e2 & e3 & e4 & e5 & e6 & Ez & K1 & K2 & K3 & K4 & K5 & K6).
  assert (Hm' : opt_all (fun w => In w taf_modifiers) (Some m)) by exact Hm.
  unfold taf_split, sanitize_change_indicator. rewrite Ez, Es.
  destruct (prob_after 5 _ t (head_prob a b c d e1 e2 e3 e4 e5 e6 Ka Kb Kc Kd K1 K2 K3 K4 K5 K6 (Some m) Hm') Ht) as (t1 & -> & T1).
  assert (SW : starts_with (py "TAF") (head_text (Some m) [a; b; c; d] [e1; e2; e3; e4; e5; e6; 90%N] ++ t1) = true).
  { apply starts_with_app. eexists. reflexivity. }
  rewrite SW.
  destruct (head_join a b c d e1 e2 e3 e4 e5 e6 Ka Kb Kc Kd K1 K2 K3 K4 K5 K6 (Some m) t1 Hm' T1) as (t2 & -> & T2).
  assert (Kw : exists kw u, In kw [py "FM"; py "PROB"] /\ (kw = py "PROB" -> exists u', u = 32%N :: u')
     /\ head_joined (Some m) (joiner [a; b; c; d]) [a; b; c; d] [e1; e2; e3; e4; e5; e6; 90%N] ++ t2
        = (py "TAF_" ++ code_of m) ++ 32%N :: kw ++ u).
  { rewrite Es in Ho. unfold begins_any, change_words in Ho. cbn [existsb] in Ho. rewrite !orb_true_iff in Ho.
    destruct Ho as [Ho|[Ho|[Ho|[Ho|Ho]]]].
    - apply starts_with_app in Ho. destruct Ho as (u & Eu). change (py "FM" ++ u) with (70%N :: 77%N :: u) in Eu.
      injection Eu as Ea Eb Eu. subst a b. clear Eu. eexists (py "FM"), _. split; [left; reflexivity|]. split; [discriminate|].
      unfold head_joined. rewrite <- !app_assoc. cbn [app]. reflexivity.
    - apply starts_with_app in Ho. destruct Ho as (u & Eu). discriminate Eu.
    - apply starts_with_app in Ho. destruct Ho as (u & Eu). discriminate Eu.
    - apply starts_with_app in Ho. destruct Ho as (u & Eu). change (py "PROB" ++ u) with (80%N :: 82%N :: 79%N :: 66%N :: u) in Eu.
      injection Eu as Ea Eb Ec Ed Eu. subst a b c d. clear Eu. eexists (py "PROB"), _. split; [right; left; reflexivity|].
      split; [intros _; eexists; reflexivity|].
      unfold head_joined. rewrite <- !app_assoc. cbn [app]. reflexivity.
    - discriminate Ho. }
  destruct Kw as (kw & u & Hk & Hu & ->).
  destruct (cut_first (py "TAF_" ++ code_of m) kw u) as (l & ->); try assumption.
  - cbn in Hm. destruct Hm as [<-|[<-|[]]]; repeat constructor.
  - cbn in Hm. destruct Hm as [<-|[<-|[]]]; cbn; intuition discriminate.
  - exists l. cbn in Hm. destruct Hm as [<-|[<-|[]]]; reflexivity.
Qed.

Lemma taf_head_lost : forall e m s dd h mi rest y mo tr code x,
  In m taf_modifiers -> station_wf s -> begins_any change_words s = true ->
  Forall (fun w => word w /\ ~ In 61%N w) rest ->
  shows (py "TAF" :: code_of m :: s :: stamp_code dd h mi :: rest) code ->
  taf_parse e code y mo tr = Ok x -> st_code (ta_station x) = None /\ t_code (ta_time x) = None.
Proof.
  intros e m s dd h mi rest y mo tr code x Hm Hs Ho Hr (ca & ct & cq & cb & -> & Ht & Hca & Hcb & Hcq) E.
  destruct (head_raw (Some m) s dd h mi rest ca ct cq cb Hm Hs Hr Ht Hca Hcb Hcq) as (t & Er & Bt).
  unfold taf_parse in E. rewrite Er in E. cbn [bind] in E. clear Er.
  unfold taf_init in E. destruct (time_new e None None None None None None) as [t0|] eqn:E0; [|discriminate E]. cbn [bind] in E.
  destruct (lost_body m s dd h mi t Hm Hs Ho Bt) as (l & El). rewrite El in E. clear El.
  destruct (common_new []) as [c0|]; [|discriminate E]. cbn [bind] in E.
  destruct (valid_from_taf None (t_dt t0)) as [v0|]; [|discriminate E]. cbn [bind] in E.
  match type of E with context [taf_parse_body e y mo ?z] => set (x0 := z) in E end.
  unfold taf_parse_body in E. change (ta_body x0) with (py "TAF " ++ code_of m) in E.
  destruct (only_modifier e y mo m x0 Hm eq_refl (no_code_time e _ _ _ E0)) as (x1 & Ep & S1 & T1). rewrite Ep in E. cbn [bind] in E.
  clear Ep. set (x6 := tupd_unparsed (ta_unparsed x1 ++ []) x1) in E.
  assert (S6 : st_code (ta_station x6) = None) by exact S1. assert (T6 : t_code (ta_time x6) = None) by exact T1. clearbody x6.
  assert (G : ta_station x = ta_station x6).
  { unfold parse_changes_forecasted in E. destruct (handle_changes (ta_codes x6) x6) as [z|] eqn:Eh; [|discriminate E].
    apply changes_station in Eh. rewrite <- Eh. cbn [bind] in E. destruct (gl_collect (ta_changes z)) as [l2 g]. cbv zeta in E.
    match type of E with match ?u with _ => _ end = _ => destruct u end; [|destruct tr; [discriminate E|]];
      match type of E with Ok ?a = _ => replace x with a by congruence end; reflexivity. }
  apply forecasts_keep in E. destruct E as [E _]. rewrite G, E. auto.
Qed.
