(** * Proofs: the moments that the codes of a report name : forecasts (C82) *)
From Coq Require Import String Ascii.
From Coq Require Import List NArith ZArith Bool Lia.
From Verif Require Import PyBase PyRegex AeroRegex PyFloat PyTime Utils Base MetarGroups Trend Metar Taf SpecNum SpecFailures SpecVision SpecKept SpecByCode
  StrFacts RegexPaths Captures GroupShapes ProofStation ReprFacts ProofGroups ProofGroups2 ProofValues ProofValues2 ProofValues3 ProofExact ProofFailures ProofVision ProofKeptReport ProofKeptTaf ProofProb ProofVerdict ProofAgree ProofByCode
  SpecGroups SpecTime SpecExact SpecGrammar TimeFacts ProofTime ProofWhen ProofMeans ProofGrammar ProofGrammarRest SpecStated ProofStated SpecSay SpecPhrase ProofPhrase ProofPhraseTime SpecMoment ProofMoment SpecClocked ProofClocked.
From Verif Require Import ProofAbsent ProofAbsentTaf ProofTafReport ProofTrendReport.
From Verif Require SpecTaf ProofTaf OutTime Outcomes ProofMomentReport.
Import ListNotations.
Local Open Scope string_scope.
Local Open Scope nat_scope.
Local Open Scope list_scope.
Local Opaque dt_add_minutes dt_add_hours dt_add_days.
Local Opaque dt_add_minutes dt_add_hours dt_add_days.
Local Ltac binds E := repeat (match type of E with bind ?r _ = _ => destruct r; [cbn [bind] in E; cbv zeta in E|discriminate E] end).

(** ** Periods of a trend *)

(** ** How a change gets its times *)

(** A validity read from a group after [v] begins. *)
Definition group_of (v w : valid) : Prop :=
  exists u n, re_match r_T_VALID u = Some n /\ valid_from_taf (Some n) (t_dt (va_from v)) = Ok w.
Definition c_from (v : valid) (i : taf_ind) : Prop :=
  exists w m, re_match r_T_CHANGE_INDICATOR w = Some m /\ starts_with (py "FM") w = true /\ tc_code i = Some w
    /\ ((exists j, taf_ind_new (Some m) v = Ok j /\ va_from (tc_valid i) = va_from (tc_valid j)) \/ exists z, group_of v z /\ va_from (tc_valid i) = va_from z).
Definition c_bare (v : valid) (i : taf_ind) : Prop :=
  exists w m, re_match r_T_CHANGE_INDICATOR w = Some m /\ starts_with (py "FM") w = false /\ change_indicator_new (Some m) = Ok (Some (blanked w), tc_trans i)
    /\ tc_code i = Some (blanked w) /\ tc_valid i = v.
Definition c_timed (v : valid) (i : taf_ind) : Prop :=
  exists w m t u n, re_match r_T_CHANGE_INDICATOR w = Some m /\ starts_with (py "FM") w = false /\ change_indicator_new (Some m) = Ok (Some (blanked w), t)
    /\ re_match r_T_VALID u = Some n /\ tc_code i = Some (blanked w ++ py " " ++ blanked u) /\ valid_from_taf (Some n) (t_dt (va_from v)) = Ok (tc_valid i).
Definition c_held (v : valid) (i : taf_ind) : Prop := tc_code i = None \/ c_from v i \/ c_bare v i \/ c_timed v i.
Definition c_end (v : valid) (i : taf_ind) : Prop :=
  (exists c, tc_code i = Some c /\ starts_with (py "FM") c = true) -> va_until (tc_valid i) = va_until v \/ exists z, group_of v z /\ va_until (tc_valid i) = va_until z.
Definition c_at (v : valid) (n : nat) (p : change_fc) : Prop :=
  let i := cf_ind p in
  cf_valid p = v /\ c_end v i /\ match n with 0 => tc_code i = None | 1 => c_from v i \/ c_bare v i | _ => c_held v i end.
Lemma c_at_held : forall v n p, c_at v n p -> cf_valid p = v /\ c_end v (cf_ind p) /\ c_held v (cf_ind p).
Proof. intros v [|[|n]] p (A & B & C); unfold c_held; (split; [exact A|]; split; [exact B|]); [left; exact C|destruct C; auto|exact C]. Qed.

Lemma c_step : forall v i k h g m p p', i <= k -> nth_error change_handlers k = Some h -> unspaced g -> re_match (h_regexp h) g = Some m -> h_handle h m p = Ok p' ->
  c_at v i p -> c_at v (S k) p'.
Proof.
  intros v i k h g m p p' L N0 U M E H. destruct k as [|[|k]].
  - assert (K : h = mk_handler r_T_CHANGE_INDICATOR handle_change_indicator) by (cbn in N0; congruence). rewrite K in E, M. cbn [h_handle h_regexp] in E, M. clear K.
    destruct H as (Hv & _). unfold handle_change_indicator in E. rewrite Hv in E. destruct (taf_ind_new (Some m) v) as [j|] eqn:Ej; [|discriminate E]. cbn [bind] in E.
    match type of E with Ok ?a = Ok _ => assert (K : p' = a) by congruence; rewrite K; clear K E end. unfold cf_set_ind, c_at. cbn [cf_ind cf_valid]. cbv zeta. split; [exact Hv|].
    pose proof Ej as Ej0. unfold taf_ind_new in Ej. rewrite (re_match_string _ _ _ M) in Ej. destruct (starts_with (py "FM") g) eqn:F.
    + cbv zeta in Ej. binds Ej. assert (Eu : va_until (tc_valid j) = va_until v /\ tc_code j = Some g).
      { match type of Ej with Ok ?a = Ok _ => assert (K : j = a) by congruence; rewrite K end. split; reflexivity. }
      destruct Eu as [Eu Ec]. split; [intros _; left; exact Eu|]. left. exists g, m. split; [exact M|]. split; [exact F|]. split; [exact Ec|]. left. exists j. auto.
    + destruct (change_indicator_new (Some m)) as [[c t]|] eqn:Ec; [|discriminate Ej]. cbn [bind fst snd] in Ej.
      match type of Ej with Ok ?a = Ok _ => assert (K : j = a) by congruence; rewrite K; clear K Ej end. pose proof (indicator_code _ _ _ Ec) as Kc. rewrite (re_match_string _ _ _ M) in Kc. subst c.
      split; [intros _; left; reflexivity|]. right. exists g, m. cbn [tc_code tc_trans tc_valid]. auto.
  - assert (K : h = mk_handler r_T_VALID handle_change_valid) by (cbn in N0; congruence). rewrite K in E, M. cbn [h_handle h_regexp] in E, M. clear K.
    pose proof H as (Hv & _). unfold handle_change_valid in E. rewrite Hv in E. destruct (set_valid_period m _ (cf_ind p)) as [j|] eqn:Ej; [|discriminate E]. cbn [bind] in E.
    match type of E with Ok ?a = Ok _ => assert (K : p' = a) by congruence; rewrite K; clear K E end. unfold cf_set_ind, c_at. cbn [cf_ind cf_valid]. cbv zeta. split; [exact Hv|]. clear N0.
    unfold set_valid_period in Ej. destruct (valid_from_taf (Some m) _) as [z|] eqn:Ev; [|discriminate Ej]. cbn [bind] in Ej.
    assert (G : group_of v z) by (exists g, m; auto).
    pose proof (ProofKeptReport.valid_code _ _ _ Ev) as Cv. rewrite (re_match_string _ _ _ M) in Cv. destruct H as (_ & _ & H). cbv zeta in H. set (q := cf_ind p) in *. clearbody q.
    assert (H' : tc_code q = None \/ c_from v q \/ c_bare v q) by (destruct i as [|[|i]]; [left; exact H|right; exact H|lia]). clear H.
    destruct H' as [H|[(w & mw & Mw & F & C & T)|(w & mw & Mw & F & I & C & T)]].
    + rewrite H in Ej. discriminate Ej.
    + rewrite C, F in Ej. match type of Ej with Ok ?a = Ok _ => assert (K : j = a) by congruence; rewrite K; clear K Ej end.
      split; [intros _; right; exists z; auto|]. right. left. exists w, mw. cbn [tc_code tc_trans tc_valid]. split; [exact Mw|]. split; [exact F|]. split; [reflexivity|]. right. exists z. auto.
    + rewrite C, from_blanked, F, Cv in Ej. match type of Ej with Ok ?a = Ok _ => assert (K : j = a) by congruence; rewrite K; clear K Ej end.
      split; [intros _; right; exists z; auto|]. right. right. right. exists w, mw, (tc_trans q), g, m. cbn [tc_code tc_trans tc_valid fmt_opt]. auto 8.
  - apply c_at_held in H.
    assert (K : cf_ind p' = cf_ind p /\ cf_valid p' = cf_valid p).
    { assert (I : In h (skipn 2 change_handlers)).
      { apply (nth_error_In _ k). rewrite nth_skipn. exact N0. }
      cbn [skipn change_handlers In] in I.
      repeat (destruct I as [<-|I]; [cbn [h_handle] in E; unfold cf_lift in E; binds E; match type of E with Ok ?a = Ok _ => assert (K : p' = a) by congruence; rewrite K end; split; reflexivity|]). contradiction. }
    unfold c_at. cbv zeta. rewrite (proj1 K), (proj2 K). exact H.
Qed.
Definition c_kept (v : valid) (p : change_fc) : Prop := c_held v (cf_ind p).
Lemma c_parsed : forall code v p, change_fc_new code v = Ok p -> c_kept v p /\ c_end v (cf_ind p).
Proof.
  intros code v p E. unfold change_fc_new in E. cbv zeta in E.
  destruct (common_new []) as [c|]; [|discriminate E]. cbn [bind] in E. cbn [taf_ind_new bind] in E.
  destruct (parse_section change_handlers _ _) as [[q un]|] eqn:P; [|discriminate E]. cbn [bind] in E. injection E as <-.
  apply (parse_section_placed _ (c_at v)) in P; [|exact (c_step v)|].
  - destruct P as (n & P). apply c_at_held in P. destruct P as (_ & A & B). split; [exact B|exact A].
  - split; [reflexivity|]. split; [|reflexivity]. intros (c0 & K & _). discriminate K.
Qed.

(** ** The list of changes *)

(** [f] after a later change has moved its end, or [f] itself. *)
Definition moved (f f' : change_fc) : Prop :=
  cf_code f' = cf_code f /\ tc_code (cf_ind f') = tc_code (cf_ind f) /\ va_from (tc_valid (cf_ind f')) = va_from (tc_valid (cf_ind f)).

Lemma reset_moved : forall u i j, reset_until_period u i = Ok j -> forall c, tc_code i = Some c -> starts_with (py "FM") c = true ->
  real_time (t_dt u) -> tc_code j = tc_code i /\ va_from (tc_valid j) = va_from (tc_valid i) /\ minutes_later 60 (t_dt (va_until (tc_valid j))) (t_dt u).
Proof.
  intros u i j E c C F R. unfold reset_until_period in E. destruct (dt_add_hours (t_dt u) (-1)) as [t|] eqn:A; [|discriminate E]. cbn [bind] in E.
  rewrite C, F in E. cbv zeta in E. match type of E with Ok ?a = Ok _ => assert (K : j = a) by congruence; rewrite K; clear K E end.
  cbn [tc_code tc_valid valid_new va_from va_until time_at t_dt]. split; [auto|]. split; [reflexivity|].
  pose proof (add_real _ _ _ A) as [Rt Mt]. apply later_of; [apply real_clock_ok; exact Rt|apply real_clock_ok; exact R|lia].
Qed.

Lemma fm_iff : forall c, starts_with (py "FM") c = true <-> SpecTaf.begins "FM" (Some c).
Proof. intro c. apply ProofTaf.begins_iff. Qed.
Lemma passing_iff : forall p c, tc_code (cf_ind p) = Some c -> (starts_with (py "PROB") c || starts_with (py "TEMPO") c = true <-> SpecTaf.passing p).
Proof. intros p c C. unfold SpecTaf.passing, SpecTaf.ind_code. rewrite C, orb_true_iff, !ProofTaf.begins_iff. reflexivity. Qed.

(** What popping the changes does to the list. *)
Lemma pop_shape : forall u rl temp a b, pop_changes u rl temp = Ok (a, b) -> real_time (t_dt u) ->
  (Forall SpecTaf.passing rl /\ rev a ++ b = rev rl ++ temp)
  \/ exists l1 f f' l2, rev rl = l1 ++ f :: l2 /\ rev a ++ b = l1 ++ f' :: l2 ++ temp /\ Forall SpecTaf.passing l2 /\ ~ SpecTaf.passing f /\ moved f f'
       /\ ((~ SpecTaf.is_from f /\ f' = f) \/ (SpecTaf.is_from f /\ minutes_later 60 (t_dt (va_until (tc_valid (cf_ind f')))) (t_dt u))).
Proof.
  intros u rl. induction rl as [|l rl IH]; intros temp a b E R; cbn [pop_changes] in E; [injection E as <- <-; left; split; [constructor|reflexivity]|].
  destruct (tc_code (cf_ind l)) as [c|] eqn:Ec; [|discriminate E].
  destruct (starts_with (py "PROB") c || starts_with (py "TEMPO") c) eqn:B.
  - apply (passing_iff l c Ec) in B. destruct (IH _ _ _ E R) as [[F K]|(l1 & f & f' & l2 & K1 & K2 & K3 & K4)].
    + left. split; [constructor; assumption|]. cbn [rev]. rewrite K, <- app_assoc. reflexivity.
    + right. exists l1, f, f', (l2 ++ [l]). cbn [rev]. rewrite K1, <- app_assoc. split; [reflexivity|]. rewrite K2, <- app_assoc. split; [reflexivity|].
      split; [apply Forall_app; split; [exact K3|constructor; [exact B|constructor]]|exact K4].
  - assert (Np : ~ SpecTaf.passing l) by (intro Q; apply (passing_iff l c Ec) in Q; congruence). right.
    destruct (starts_with (py "FM") c) eqn:F.
    + destruct (reset_until_period u (cf_ind l)) as [j|] eqn:Ej; [|discriminate E]. cbn [bind] in E. injection E as <- <-.
      destruct (reset_moved _ _ _ Ej c Ec F R) as (M1 & M2 & M3).
      exists (rev rl), l, (cf_set_ind j l), []. cbn [rev app]. split; [reflexivity|]. split; [reflexivity|]. split; [constructor|]. split; [exact Np|].
      split; [split; [reflexivity|split; [exact M1|exact M2]]|]. right. split; [|exact M3]. unfold SpecTaf.is_from, SpecTaf.ind_code. rewrite Ec. apply fm_iff. exact F.
    + injection E as <- <-. exists (rev rl), l, l, []. cbn [rev app]. split; [reflexivity|]. split; [reflexivity|]. split; [constructor|]. split; [exact Np|].
      split; [split; [reflexivity|split; reflexivity]|]. left. split; [|reflexivity]. unfold SpecTaf.is_from, SpecTaf.ind_code. rewrite Ec. intro Q. apply fm_iff in Q. congruence.
Qed.

Lemma snoc_cases : forall A (l1 : list A) p l2 l n, l ++ [n] = l1 ++ p :: l2 -> (l1 = l /\ p = n /\ l2 = []) \/ exists y, l2 = y ++ [n] /\ l = l1 ++ p :: y.
Proof.
  intros A l1 p l2 l n E. destruct l2 as [|z l2'] using rev_ind.
  - left. apply app_inj_tail in E. destruct E as [-> ->]. auto.
  - right. clear IHl2'. change (p :: l2' ++ [z]) with ((p :: l2') ++ [z]) in E. rewrite app_assoc in E. apply app_inj_tail in E. destruct E as [-> ->]. exists l2'. auto.
Qed.
Lemma mid_cases : forall A (x y l1 l2 : list A) p f, x ++ p :: y = l1 ++ f :: l2 ->
  (exists z, l1 = x ++ p :: z /\ y = z ++ f :: l2) \/ (x = l1 /\ p = f /\ y = l2) \/ exists z, x = l1 ++ f :: z /\ l2 = z ++ p :: y.
Proof.
  intros A x. induction x as [|a x IH]; intros y l1 l2 p f E; destruct l1 as [|b l1]; cbn [app] in E.
  - injection E as -> ->. right. left. auto.
  - injection E as -> ->. left. exists l1. auto.
  - injection E as -> <-. right. right. exists x. auto.
  - injection E as -> E. destruct (IH _ _ _ _ _ E) as [(z & K1 & K2)|[(K1 & K2 & K3)|(z & K1 & K2)]]; subst; [left; exists z; auto|right; left; auto|right; right; exists z; auto].
Qed.

Definition fend (v : valid) (p : change_fc) : Prop := va_until (tc_valid (cf_ind p)) = va_until v \/ exists z, group_of v z /\ va_until (tc_valid (cf_ind p)) = va_until z.
Definition chain (v : valid) (l : list change_fc) : Prop :=
  forall l1 p l2, l = l1 ++ p :: l2 -> SpecTaf.is_from p ->
    (forall a q b, l2 = a ++ q :: b -> Forall SpecTaf.passing a -> ~ SpecTaf.passing q -> closing q ->
       minutes_later 60 (t_dt (va_until (tc_valid (cf_ind p)))) (t_dt (va_from (tc_valid (cf_ind q)))))
    /\ (Forall (fun q => ~ closing q) l2 -> fend v p).

Lemma from_not_passing : forall p, SpecTaf.is_from p -> ~ SpecTaf.passing p.
Proof.
  intros p (r & E) [(s & F)|(s & F)]; rewrite E in F; discriminate F.
Qed.
Lemma chain_new : forall v p l1 l2, c_end v (cf_ind p) -> l2 = [] -> SpecTaf.is_from p ->
  (forall a q b, l2 = a ++ q :: b -> Forall SpecTaf.passing a -> ~ SpecTaf.passing q -> closing q ->
       minutes_later 60 (t_dt (va_until (tc_valid (cf_ind p)))) (t_dt (va_from (tc_valid (cf_ind q)))))
  /\ (Forall (fun q => ~ closing q) l2 -> fend v p) /\ l1 = l1 :> list change_fc.
Proof.
  intros v p l1 l2 C -> F. split; [intros a q b K; destruct a; discriminate K|]. split; [|reflexivity]. intros _. apply C.
  destruct F as (r & F). unfold SpecTaf.ind_code in F. eexists. split; [exact F|]. apply fm_iff. exists r. reflexivity.
Qed.
Lemma chain_open : forall v l p, chain v l -> c_end v (cf_ind p) -> ~ closing p -> chain v (l ++ [p]).
Proof.
  intros v l p J C N0 l1 f l2 E F. apply snoc_cases in E. destruct E as [(-> & -> & ->)|(y & -> & ->)].
  - destruct (chain_new v p l [] C eq_refl F) as (A & B & _). auto.
  - destruct (J l1 f y eq_refl F) as [A B]. split.
    + intros a q b K Pa Nq Cq. apply snoc_cases in K. destruct K as [(_ & -> & _)|(z & -> & ->)]; [contradiction|]. exact (A a q z eq_refl Pa Nq Cq).
    + intro K. apply Forall_app in K. apply B. apply K.
Qed.
Lemma chain_passing : forall v l p, Forall SpecTaf.passing l -> c_end v (cf_ind p) -> chain v (l ++ [p]).
Proof.
  intros v l p J C l1 f l2 E F. apply snoc_cases in E. destruct E as [(-> & -> & ->)|(y & -> & ->)].
  - destruct (chain_new v p l [] C eq_refl F) as (A & B & _). auto.
  - exfalso. apply Forall_app in J. destruct J as [_ J]. exact (from_not_passing f F (Forall_inv J)).
Qed.
Lemma moved_facts : forall f f', moved f f' -> (SpecTaf.passing f' <-> SpecTaf.passing f) /\ (SpecTaf.is_from f' <-> SpecTaf.is_from f) /\ (closing f' <-> closing f).
Proof. intros f f' (A & B & _). unfold SpecTaf.passing, SpecTaf.is_from, closing, SpecTaf.ind_code. rewrite A, B. split; [reflexivity|]. split; reflexivity. Qed.
Lemma chain_closed : forall v l1 f f' l2 p, chain v (l1 ++ f :: l2) -> c_end v (cf_ind p) -> closing p -> Forall SpecTaf.passing l2 -> ~ SpecTaf.passing f -> moved f f' ->
  ((~ SpecTaf.is_from f /\ f' = f) \/ (SpecTaf.is_from f /\ minutes_later 60 (t_dt (va_until (tc_valid (cf_ind f')))) (t_dt (va_from (tc_valid (cf_ind p)))))) ->
  chain v ((l1 ++ f' :: l2) ++ [p]).
Proof.
  intros v l1 f f' l2 p J C Cp P2 Nf Mv H m1 q m2 E F. destruct (moved_facts f f' Mv) as (M1 & M2 & M3). destruct Mv as (_ & _ & Mf).
  apply snoc_cases in E. destruct E as [(-> & -> & ->)|(y & -> & E)].
  { destruct (chain_new v p [] [] C eq_refl F) as (A & B & _). auto. }
  assert (Open : forall P : Prop, Forall (fun q => ~ closing q) (y ++ [p]) -> P).
  { intros P K. exfalso. apply Forall_app in K. destruct K as [_ K]. exact (Forall_inv K Cp). }
  split; [|intro K; apply (Open _ K)]. intros a r b K Pa Nr Cr. symmetry in E.
  apply mid_cases in E. destruct E as [(z & -> & ->)|[(-> & -> & ->)|(z & -> & ->)]].
  - destruct (J m1 q (z ++ f :: l2)) as [A _]; [rewrite <- app_assoc; reflexivity|exact F|].
    rewrite <- app_assoc in K. cbn [app] in K. symmetry in K. apply mid_cases in K. destruct K as [(s & -> & Kb)|[(-> & -> & Kb)|(s & -> & Kb)]].
    + exact (A a r (s ++ f :: l2) ltac:(rewrite <- app_assoc; reflexivity) Pa Nr Cr).
    + rewrite Mf. apply (A z f l2 eq_refl Pa Nf). apply M3. exact Cr.
    + exfalso. apply Forall_app in Pa. destruct Pa as [_ Pa]. apply Nf. apply M1. exact (Forall_inv Pa).
  - destruct H as [[H _]|[_ H]]; [exfalso; apply H; apply M2; exact F|]. apply snoc_cases in K. destruct K as [(_ & -> & _)|(z & -> & ->)]; [exact H|].
    exfalso. apply Forall_app in P2. destruct P2 as [_ P2]. exact (Nr (Forall_inv P2)).
  - exfalso. apply Forall_app in P2. destruct P2 as [_ P2]. exact (from_not_passing q F (Forall_inv P2)).
Qed.

Lemma closing_iff : forall p, match cf_code p with Some c => starts_with (py "FM") c | None => false end || match cf_code p with Some c => starts_with (py "BECMG") c | None => false end = true <-> closing p.
Proof.
  intro p. unfold closing. destruct (cf_code p) as [c|].
  - rewrite orb_true_iff, !ProofTaf.begins_iff. reflexivity.
  - split; [discriminate|]. intros [(r & K)|(r & K)]; discriminate K.
Qed.
Lemma gl_add_list : forall A (x : A) g g', gl_add x g = Ok g' -> gl_list g' = gl_list g ++ [x].
Proof. intros A x g g' E. unfold gl_add in E. destruct (_ <=? _); [discriminate E|]. injection E as <-. reflexivity. Qed.
Lemma gl_add_all_list : forall A (l : list A) g g', gl_add_all l g = Ok g' -> gl_list g' = gl_list g ++ l.
Proof.
  intros A l. induction l as [|x l IH]; intros g g' E; cbn [gl_add_all] in E; [injection E as <-; rewrite app_nil_r; reflexivity|].
  destruct (gl_add x g) as [g1|] eqn:G; [|discriminate E]. cbn [bind] in E. rewrite (IH _ _ E), (gl_add_list _ _ _ _ G), <- app_assoc. reflexivity.
Qed.
Lemma changes_add_chain : forall v p g g', changes_add p g = Ok g' -> c_end v (cf_ind p) -> real_time (t_dt (va_from (tc_valid (cf_ind p)))) -> chain v (gl_list g) -> chain v (gl_list g').
Proof.
  intros v p g g' E C R J. unfold changes_add in E. cbv zeta in E.
  destruct (Nat.ltb 0 (length (gl_list g))) eqn:Ln; cbn [andb] in E.
  - match type of E with (if ?z then _ else _) = _ => destruct z eqn:B end.
    + apply closing_iff in B. destruct (pop_changes _ (rev (gl_list g)) []) as [[rl temp]|] eqn:P; [|discriminate E]. cbn [bind] in E.
      destruct (gl_add_all temp _) as [g1|] eqn:A; [|discriminate E]. cbn [bind] in E.
      rewrite (gl_add_list _ _ _ _ E), (gl_add_all_list _ _ _ _ A). cbn [gl_list].
      apply pop_shape in P; [|exact R]. destruct P as [[P1 P2]|(l1 & f & f' & l2 & P1 & P2 & P3 & P4 & P5 & P6)].
      * rewrite P2, rev_involutive, app_nil_r. apply chain_passing; [|exact C]. rewrite <- (rev_involutive (gl_list g)). apply Forall_rev. exact P1.
      * rewrite P2, app_nil_r. rewrite rev_involutive in P1. rewrite P1 in J. exact (chain_closed v l1 f f' l2 p J C B P3 P4 P5 P6).
    + rewrite (gl_add_list _ _ _ _ E). apply chain_open; [exact J|exact C|]. intro K. apply closing_iff in K. congruence.
  - rewrite (gl_add_list _ _ _ _ E). destruct (gl_list g) as [|a l]; [|discriminate Ln]. apply chain_passing; [constructor|exact C].
Qed.

(** The change list, and what each change keeps. *)
Lemma reset_kept : forall v u i j, reset_until_period u i = Ok j -> c_held v i -> c_held v j.
Proof.
  intros v u i j E H. unfold reset_until_period in E. destruct (dt_add_hours _ _) as [t|]; [|discriminate E]. cbn [bind] in E.
  destruct H as [H|[(w & m & M & F & C & T)|[(w & m & M & F & I & C & T)|(w & m & t' & z & n & M & F & I & V & C & T)]]].
  - rewrite H in E. discriminate E.
  - rewrite C, F in E. cbv zeta in E. match type of E with Ok ?a = Ok _ => assert (K : j = a) by congruence; rewrite K; clear K E end.
    right. left. exists w, m. cbn [tc_code tc_trans tc_valid valid_new va_from]. auto.
  - rewrite C, from_blanked, F in E. injection E as <-. right. right. left. exists w, m. auto 8.
  - rewrite C, from_appended, from_blanked, F in E. injection E as <-. right. right. right. exists w, m, t', z, n. auto 8.
Qed.
Lemma pop_kept : forall v u rl temp a b, pop_changes u rl temp = Ok (a, b) -> Forall (c_kept v) rl -> Forall (c_kept v) temp -> Forall (c_kept v) a /\ Forall (c_kept v) b.
Proof.
  intros v u rl. induction rl as [|l rl IH]; intros temp a b E H T; cbn [pop_changes] in E; [injection E as <- <-; auto|].
  pose proof (Forall_inv H) as Hl. pose proof (Forall_inv_tail H) as Hr. destruct (tc_code (cf_ind l)) as [c|] eqn:Ec; [|discriminate E].
  destruct (_ || _); [exact (IH _ _ _ E Hr (Forall_cons _ Hl T))|].
  destruct (starts_with (py "FM") c) eqn:F; [|injection E as <- <-; split; [exact Hr|constructor; assumption]].
  destruct (reset_until_period u (cf_ind l)) as [j|] eqn:Ej; [|discriminate E]. cbn [bind] in E. injection E as <- <-. split; [exact Hr|].
  constructor; [exact (reset_kept _ _ _ _ Ej Hl)|exact T].
Qed.
Lemma changes_add_kept : forall v p g g', changes_add p g = Ok g' -> c_kept v p -> Forall (c_kept v) (gl_list g) -> Forall (c_kept v) (gl_list g').
Proof.
  intros v p g g' E Hp Hg. unfold changes_add in E. cbv zeta in E. destruct (_ && _); [|exact (gl_add_forall _ _ _ _ _ E Hp Hg)].
  destruct (pop_changes _ (rev (gl_list g)) []) as [[rl temp]|] eqn:P; [|discriminate E]. cbn [bind] in E.
  apply (pop_kept v) in P; [|apply Forall_rev; exact Hg|constructor]. destruct P as [P1 P2].
  destruct (gl_add_all temp _) as [g1|] eqn:A; [|discriminate E]. cbn [bind] in E.
  apply (add_all_kept _ (c_kept v)) in A; [|exact P2|cbn [gl_list]; apply Forall_rev; exact P1].
  exact (gl_add_forall _ _ _ _ _ E Hp A).
Qed.
Lemma changes_parsed_kept : forall l x x', handle_changes l x = Ok x' -> ProofMomentReport.real_valid (ta_valid x) ->
  Forall (c_kept (ta_valid x)) (gl_list (ta_changes x)) -> chain (ta_valid x) (gl_list (ta_changes x)) ->
  Forall (c_kept (ta_valid x)) (gl_list (ta_changes x')) /\ chain (ta_valid x) (gl_list (ta_changes x')).
Proof.
  intros l. induction l as [|w l IH]; intros x x' E R H J; cbn [handle_changes] in E; [injection E as <-; auto|].
  destruct w as [|c w]; [exact (IH _ _ E R H J)|]. unfold handle_change_forecasted in E.
  destruct (change_fc_new (c :: w) _) as [p|] eqn:C; [|discriminate E]. cbn [bind] in E.
  pose proof (ProofMomentReport.change_parsed_fc _ _ _ R C) as (_ & Rf & _). apply c_parsed in C. destruct C as [C1 C2].
  destruct (changes_add p (ta_changes x)) as [g|] eqn:G; [|discriminate E]. cbn [bind] in E.
  apply (IH _ _ E R); [exact (changes_add_kept _ _ _ _ G C1 H)|exact (changes_add_chain _ _ _ _ G C2 Rf J)].
Qed.

(** ** The body *)

Definition valid_named (t : time) (v : valid) : Prop := explained va_code (validity_named (t_dt t)) [v].
Definition extremes_named (mx : bool) (t : time) (l : list taf_temp) : Prop := explained tt_code (extreme_named mx (t_dt t)) l.
Definition stamp_named (e : env) (y mo : option Z) (t : time) : Prop :=
  (1000 <= opt_default (now_year e) y <= 9999)%Z -> (1 <= opt_default (now_month e) mo <= 12)%Z ->
  explained t_code (time_says (opt_default (now_year e) y) (opt_default (now_month e) mo)) [t].
Definition body_named (e : env) (y mo : option Z) (n : nat) (x : taf) : Prop :=
  stamp_named e y mo (ta_time x) /\ real_time (t_dt (ta_time x)) /\ valid_named (ta_time x) (ta_valid x)
  /\ extremes_named true (ta_time x) (gl_list (ta_max x)) /\ extremes_named false (ta_time x) (gl_list (ta_min x))
  /\ (n <= 3 -> va_code (ta_valid x) = None /\ gl_list (ta_max x) = [] /\ gl_list (ta_min x) = []).
Lemma explained_add : forall A (code : A -> option str) says a g g', gl_add a g = Ok g' -> explained code says [a] -> explained code says (gl_list g) -> explained code says (gl_list g').
Proof. intros A code says a g g' G H1 H2. rewrite (gl_add_list _ _ _ _ G). intros b c I. apply in_app_or in I. destruct I as [I|I]; [apply H2; exact I|apply H1; exact I]. Qed.

Lemma valid_one : forall w m t v, re_match r_T_VALID w = Some m -> real_time (t_dt t) -> valid_from_taf (Some m) (t_dt t) = Ok v -> valid_named t v.
Proof.
  intros w m t v M R E a c [<-|[]] C T. pose proof (ProofKeptReport.valid_code _ _ _ E) as Cv. rewrite (re_match_string _ _ _ M) in Cv.
  assert (K : c = blanked w) by congruence. subst c. apply typed_word in T. rewrite (plain_blank r_T_VALID w m eq_refl T M). exact (validity_sound w m _ v T M R E).
Qed.
Lemma extreme_one : forall w m t v, re_match r_T_TEMPERATURE w = Some m -> real_time (t_dt t) -> taf_temp_new m (t_dt t) = Ok v -> extremes_named (opt_str_eqb (group m "type") (py "X")) t [v].
Proof.
  intros w m t v M R E a c [<-|[]] C T.
  assert (Cv : tt_code v = Some (blanked w)).
  { unfold taf_temp_new in E. binds E. match type of E with Ok ?a = Ok _ => assert (K : v = a) by congruence; rewrite K end. cbn [tt_code]. rewrite (re_match_string _ _ _ M). exact (ProofKeptReport.type_code w). }
  assert (K : c = blanked w) by congruence. subst c. apply typed_word in T. exact (extreme_sound w m _ v T M R E).
Qed.

Lemma stamp_one : forall e y mo w m t, re_match r_TIME w = Some m -> time_from_metar e (Some m) y mo = Ok t -> stamp_named e y mo t.
Proof.
  intros e y mo w m t M E Y Mo a c [<-|[]] C T. pose proof (ProofKeptReport.time_code _ _ _ _ _ E) as Ct. rewrite (re_match_string _ _ _ M) in Ct.
  assert (K : c = blanked w) by congruence. subst c. exact (time_sound e y mo w m t Y Mo (typed_word _ T) M E).
Qed.
Lemma body_named_step : forall e y mo i k h g m x x', i <= k -> nth_error (taf_handlers e y mo) k = Some h -> unspaced g -> re_match (h_regexp h) g = Some m -> h_handle h m x = Ok x' ->
  body_named e y mo i x -> body_named e y mo (S k) x'.
Proof.
  intros e y mo n k h g m x x' N Hn U M E (P & R & V & A & B & Z). unfold taf_handlers in Hn.
  assert (L : forall f, tlift f m x = Ok x' -> ta_time x' = ta_time x /\ ta_valid x' = ta_valid x /\ ta_max x' = ta_max x /\ ta_min x' = ta_min x).
  { intros f Ef. unfold tlift in Ef. destruct (f m (ta_common x)) as [c|]; [|discriminate Ef]. cbn [bind] in Ef. assert (K : x' = tupd_common c x) by congruence. rewrite K. auto. }
  assert (Keep : forall k, n <= k -> ta_time x' = ta_time x /\ ta_valid x' = ta_valid x /\ ta_max x' = ta_max x /\ ta_min x' = ta_min x ->
    body_named e y mo (S k) x').
  { intros k0 Hk (E1 & E2 & E3 & E4). unfold body_named. rewrite E1, E2, E3, E4. split; [exact P|]. split; [exact R|]. split; [exact V|]. split; [exact A|]. split; [exact B|]. intro K. apply Z. lia. }
  assert (T : forall k, 3 < k -> re_match r_T_TEMPERATURE g = Some m -> thandle_temperature m x = Ok x' -> body_named e y mo k x').
  { intros k0 Hk Mt Et. unfold thandle_temperature in Et. destruct (taf_temp_new m _) as [t|] eqn:W; [|discriminate Et]. cbn [bind] in Et.
    pose proof (extreme_one _ _ _ _ Mt R W) as O.
    destruct (opt_str_eqb _ _); (destruct (gl_add t _) as [l|] eqn:G; [|discriminate Et]; cbn [bind] in Et;
      pose proof (explained_add _ _ _ _ _ _ G O) as Q;
      match type of Et with Ok ?a = Ok _ => assert (K : x' = a) by congruence end; rewrite K;
      split; [exact P|]; split; [exact R|]; split; [exact V|]).
    - split; [exact (Q A)|]. split; [exact B|]. intro. lia.
    - split; [exact A|]. split; [exact (Q B)|]. intro. lia. }
  each_slot k Hn ltac:(cbn [h_handle h_regexp] in E, M); try (apply (Keep _ N); exact (L _ E)); try (apply T; [lia|exact M|exact E]);
    try (apply (Keep _ N); unfold thandle_type, thandle_modifier, thandle_station, thandle_missing, thandle_cancelled in E; cbv zeta in E;
      match type of E with Ok ?a = Ok _ => assert (K : x' = a) by congruence end; rewrite K; auto; fail).
  - unfold thandle_time in E. destruct (time_from_metar e (Some m) y mo) as [t|] eqn:W; [|discriminate E]. cbn [bind] in E.
    assert (K : x' = tout_string (time_str t) (tupd_time t x)) by congruence. rewrite K.
    destruct (Z N) as (Z1 & Z2 & Z3). split; [exact (stamp_one _ _ _ _ _ _ M W)|]. split; [exact (from_metar_real _ _ _ _ _ W)|].
    cbn [ta_time ta_valid ta_max ta_min tout_string tupd_common tupd_time].
    split; [apply explained_none; exact Z1|]. rewrite Z2, Z3. split; [intros a c []|]. split; [intros a c []|].
    intro. lia.
  - unfold thandle_valid in E. destruct (valid_from_taf _ _) as [v|] eqn:W; [|discriminate E]. cbn [bind] in E.
    assert (K : x' = tout_string (valid_str v) (tupd_valid v x)) by congruence. rewrite K.
    split; [exact P|]. split; [exact R|]. split; [exact (valid_one _ _ _ _ M R W)|]. split; [exact A|]. split; [exact B|]. intro. lia.
Qed.

(** ** What the code of a change names *)

Lemma group_own : forall v z, real_time (t_dt (va_from v)) -> group_of v z -> own_validity (t_dt (va_from v)) z.
Proof.
  intros v z R (u & n & M & E). exists u. split; [exact (matched _ _ _ M)|]. intro T. exact (validity_sound u n _ z T M R E).
Qed.
Lemma from_worded : forall w m, typed w -> re_match r_T_CHANGE_INDICATOR w = Some m -> starts_with (py "FM") w = true ->
  exists d h mi rest, day d /\ (h <= 23)%N /\ (mi <= 59)%N /\ w = fm_code d h mi ++ rest.
Proof.
  intros w m T M F.
  destruct (proj1 (tchange_words w T) (matched _ _ _ M)) as [(u & ->)|[(u & ->)|[(z & u & (d & h & mi & Hd & Hh & Hm & ->) & Ew)|(q & tempo & [<-|[<-|[]]] & ->)]]]; try discriminate F.
  exists d, h, mi, u. split; [exact Hd|]. split; [exact Hh|]. split; [exact Hm|exact Ew].
Qed.
Lemma held_named : forall v i, real_time (t_dt (va_from v)) -> c_held v i -> explained tc_code (change_named v) [i].
Proof.
  intros v i R H a c [<-|[]] C T. destruct H as [H|[(w & m & M & F & Cw & H)|[(w & m & M & F & I & Cw & V)|(w & m & t & u & n & M & F & I & Mu & Cw & V)]]].
  - congruence.
  - left. assert (K : c = w) by congruence. subst c. destruct H as [(j & Ej & Ef)|(z & G & Ef)].
    + destruct (from_sound w m v j T M F R Ej) as (d & h & mi & rest & b & Hd & Hh & Hm & Ew & B1 & B2 & _).
      exists d, h, mi, rest. split; [exact Hd|]. split; [exact Hh|]. split; [exact Hm|]. split; [exact Ew|]. left. exists b. split; [exact B1|]. rewrite Ef. exact B2.
    + destruct (from_worded w m T M F) as (d & h & mi & rest & Hd & Hh & Hm & Ew).
      exists d, h, mi, rest. split; [exact Hd|]. split; [exact Hh|]. split; [exact Hm|]. split; [exact Ew|]. right. exists z. split; [exact (group_own v z R G)|exact Ef].
  - right. assert (K : c = blanked w) by congruence. subst c. exists (blanked w). split; [exact (proj1 (worded w m _ (typed_word w T) M F I))|]. left. auto.
  - right. assert (K : c = blanked w ++ py " " ++ blanked u) by congruence. subst c. unfold typed in T. apply Forall_app in T. destruct T as [T1 T2]. apply Forall_app in T2. destruct T2 as [_ T2].
    apply typed_word in T1. apply typed_word in T2. exists (blanked w). split; [exact (proj1 (worded w m t T1 M F I))|]. right.
    rewrite (plain_blank r_T_VALID u n eq_refl T2 Mu). exists u. split; [reflexivity|].
    pose proof (ProofKeptReport.valid_code _ _ _ V) as Cv. rewrite (re_match_string _ _ _ Mu), (plain_blank r_T_VALID u n eq_refl T2 Mu) in Cv. split; [exact Cv|].
    exact (validity_sound u n _ _ T2 Mu R V).
Qed.
Lemma chain_named : forall v l, real_time (t_dt (va_from v)) -> chain v l -> ends_chained v l.
Proof.
  intros v l R H l1 p l2 E F. destruct (H l1 p l2 E F) as [A B]. split; [exact A|]. intro K. destruct (B K) as [D|(z & G & D)]; [left; exact D|right].
  exists z. split; [exact (group_own v z R G)|exact D].
Qed.

(** ** The report *)

Lemma time_new_code : forall e c mi h d mo y t, time_new e c mi h d mo y = Ok t -> t_code t = group_code c.
Proof.
  intros e c mi h d mo y t E. unfold time_new in E. binds E. match type of E with Ok ?b = Ok _ => assert (K : t = b) by congruence end. rewrite K. reflexivity.
Qed.

Theorem taf_named : forall e code y mo tr x, taf_parse e code y mo tr = Ok x ->
  stamp_named e y mo (ta_time x) /\ explained va_code (validity_named (t_dt (ta_time x))) [ta_valid x]
  /\ explained tt_code (extreme_named true (t_dt (ta_time x))) (gl_list (ta_max x)) /\ explained tt_code (extreme_named false (t_dt (ta_time x))) (gl_list (ta_min x))
  /\ explained tc_code (change_named (ta_valid x)) (map cf_ind (gl_list (ta_changes x))) /\ ends_chained (ta_valid x) (gl_list (ta_changes x)).
Proof.
  intros e code y mo tr x E. pose proof (ProofMomentReport.taf_moments_ok _ _ _ _ _ _ E) as (_ & Vx & _).
  apply ProofMomentReport.valid_moments_real in Vx. unfold taf_parse in E. destruct (report_raw_code code) as [raw|]; [|discriminate E]. cbn [bind] in E.
  destruct (taf_init e raw) as [x0|] eqn:E0; [|discriminate E]. cbn [bind] in E.
  assert (K0 : body_named e y mo 0 x0 /\ gl_list (ta_changes x0) = []).
  { unfold taf_init in E0. destruct (time_new e None None None None None None) as [t|] eqn:T; [|discriminate E0]. cbn [bind] in E0.
    destruct (taf_split raw) as [body codes]. destruct (common_new []) as [c|]; [|discriminate E0]. cbn [bind] in E0.
    destruct (valid_from_taf None (t_dt t)) as [v|] eqn:V; [|discriminate E0]. cbn [bind] in E0. injection E0 as <-.
    pose proof (time_real _ _ _ _ _ _ _ _ T) as R. destruct (ProofMomentReport.valid_unread _ _ R V) as (V1 & _).
    split; [|reflexivity]. cbn [ta_time ta_valid ta_max ta_min]. split; [intros _ _; apply explained_none; exact (time_new_code _ _ _ _ _ _ _ _ T)|]. split; [exact R|]. cbn [ta_time ta_valid ta_max ta_min]. split; [apply explained_none; exact V1|].
    split; [intros a w []|]. split; [intros a w []|]. intros _. split; [exact V1|]. split; reflexivity. }
  destruct K0 as [K0 L0].
  unfold taf_parse_body in E. destruct (parse_section (taf_handlers e y mo) _ x0) as [[x1 un]|] eqn:E1; [|discriminate E]. cbn [bind] in E.
  assert (K1 : ta_changes x1 = ta_changes x0).
  { apply (parse_section_inv _ (fun x => ta_changes x = ta_changes x0)) in E1; [exact E1| |auto].
    intros h m s s' I Eh K. rewrite <- K. exact (proj1 (taf_frame _ _ _ _ _ _ _ I Eh)). }
  apply (parse_section_placed _ (body_named e y mo)) in E1; [|intros i k h g m s s'; apply body_named_step|exact K0]. destruct E1 as (n & P & R & V & A & B & _).
  unfold parse_changes_forecasted in E. destruct (handle_changes _ _) as [x2|] eqn:E2; [|discriminate E]. cbn [bind] in E.
  assert (T : ta_time x2 = ta_time x1 /\ ta_valid x2 = ta_valid x1 /\ ta_max x2 = ta_max x1 /\ ta_min x2 = ta_min x1).
  { clear - E2. assert (G : forall l s s', handle_changes l s = Ok s' -> ta_time s' = ta_time s /\ ta_valid s' = ta_valid s /\ ta_max s' = ta_max s /\ ta_min s' = ta_min s).
    { intro l. induction l as [|w l IH]; intros s s' E; cbn [handle_changes] in E; [injection E as <-; auto|].
      destruct w as [|c w]; [exact (IH _ _ E)|]. unfold handle_change_forecasted in E. destruct (change_fc_new _ _) as [p|]; [|discriminate E]. cbn [bind] in E.
      destruct (changes_add _ _) as [g|]; [|discriminate E]. cbn [bind] in E. destruct (IH _ _ E) as (I1 & I2 & I3 & I4). rewrite I1, I2, I3, I4. auto. }
    exact (G _ _ _ E2). }
  destruct T as (T1 & T2 & T3 & T4).
  pose proof (collect_list _ (ta_changes x2)) as Cl. destruct (gl_collect (ta_changes x2)) as [l g]. cbn [snd] in Cl. cbv zeta in E.
  assert (X : x = tupd_unparsed (ta_unparsed x2 ++ flat_map cf_unparsed l) (tupd_changes g x2)).
  { destruct (ta_unparsed (tupd_unparsed _ _)) as [|u us] in E; [congruence|]. destruct tr; [discriminate E|congruence]. }
  rewrite X in *. clear X E. cbn [ta_time ta_valid ta_max ta_min ta_changes tupd_unparsed tupd_changes] in *. rewrite Cl, T1, T2, T3, T4 in *.
  apply changes_parsed_kept in E2; cbn [ta_valid ta_changes tupd_unparsed] in *; [|exact Vx|rewrite K1, L0; constructor|rewrite K1, L0; intros [|? ?] ? ? K; discriminate K].
  destruct E2 as [E2 E3]. split; [exact P|]. split; [exact V|]. split; [exact A|]. split; [exact B|]. split; [|exact (chain_named _ _ (proj1 Vx) E3)].
  intros i c I. apply in_map_iff in I. destruct I as (p & <- & I). rewrite Forall_forall in E2. exact (held_named _ _ (proj1 Vx) (E2 p I) _ c (or_introl eq_refl)).
Qed.

Theorem taf_time_named : forall e code y mo tr x, taf_parse e code y mo tr = Ok x ->
  (1000 <= opt_default (now_year e) y <= 9999)%Z -> (1 <= opt_default (now_month e) mo <= 12)%Z ->
  explained t_code (time_says (opt_default (now_year e) y) (opt_default (now_month e) mo)) [ta_time x].
Proof. intros e code y mo tr x E. exact (proj1 (taf_named _ _ _ _ _ _ E)). Qed.
Theorem taf_validity_named : forall e code y mo tr x, taf_parse e code y mo tr = Ok x -> explained va_code (validity_named (t_dt (ta_time x))) [ta_valid x].
Proof. intros e code y mo tr x E. exact (proj1 (proj2 (taf_named _ _ _ _ _ _ E))). Qed.
Theorem taf_extremes_named : forall e code y mo tr x, taf_parse e code y mo tr = Ok x ->
  explained tt_code (extreme_named true (t_dt (ta_time x))) (gl_list (ta_max x)) /\ explained tt_code (extreme_named false (t_dt (ta_time x))) (gl_list (ta_min x)).
Proof. intros e code y mo tr x E. destruct (taf_named _ _ _ _ _ _ E) as (_ & _ & A & B & _). auto. Qed.
Theorem taf_changes_named : forall e code y mo tr x, taf_parse e code y mo tr = Ok x -> explained tc_code (change_named (ta_valid x)) (map cf_ind (gl_list (ta_changes x))).
Proof. intros e code y mo tr x E. destruct (taf_named _ _ _ _ _ _ E) as (_ & _ & _ & _ & A & _). exact A. Qed.
Theorem taf_ends_chained : forall e code y mo tr x, taf_parse e code y mo tr = Ok x -> ends_chained (ta_valid x) (gl_list (ta_changes x)).
Proof. intros e code y mo tr x E. destruct (taf_named _ _ _ _ _ _ E) as (_ & _ & _ & _ & _ & A). exact A. Qed.
