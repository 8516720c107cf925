(** * PROB TEMPO changes of a parsed forecast *)
From Coq Require Import String Ascii.
From Coq Require Import List NArith ZArith Bool Lia.
From Verif Require Import PyBase PyRegex AeroRegex PyTime Utils Base MetarGroups Trend Taf StrFacts SpecText ProofText TextFacts
  RegexPaths MergeFacts SymRegex ProofGroups SymFirst ProofSections ProofMerge ProofTafText SpecTaf ProofLists.
Import ListNotations.
Open Scope list_scope.

(** ** Running the handlers *)

Lemma first_match_in : forall S (hs : list (handler S)) n g k h m, first_match hs n g = Some (k, h, m) ->
  In h hs /\ re_match (h_regexp h) g = Some m /\ n < k.
Proof.
  intros S hs. induction hs as [|h0 hs IH]; intros n g k h m E; [discriminate|]. cbn [first_match] in E.
  destruct (re_match (h_regexp h0) g) as [m0|] eqn:Em.
  - injection E as <- <- <-. split; [left; reflexivity|]. split; [exact Em|lia].
  - apply IH in E. destruct E as (E1 & E2 & E3). split; [right; exact E1|]. split; [exact E2|lia].
Qed.

Lemma skipn_in : forall A n (l : list A) x, In x (skipn n l) -> In x l.
Proof. intros A n l x H. rewrite <- (firstn_skipn n l). apply in_or_app. right. exact H. Qed.

Lemma skipn_more : forall A n k (l : list A) x, In x (skipn (n + k) l) -> In x (skipn n l).
Proof.
  intros A n. induction n as [|n IH]; intros k l x H; [exact (skipn_in _ k l x H)|].
  destruct l as [|y l]; [destruct H|]. apply (IH k l x H).
Qed.

(** What every handler still to come keeps, parsing keeps. *)
Lemma parse_groups_inv : forall S (I : S -> Prop) (hs : list (handler S)) gs index un st st' un',
  (forall h m st st', In h (skipn index hs) -> h_handle h m st = Ok st' -> I st -> I st') ->
  I st -> parse_groups hs gs index un st = Ok (st', un') -> I st'.
Proof.
  intros S I hs gs. induction gs as [|g gs IH]; intros index un st st' un' Hk Hi E; cbn [parse_groups] in E.
  - injection E as <- _. exact Hi.
  - destruct (first_match (skipn index hs) 0 g) as [[[k h] m]|] eqn:F.
    + apply first_match_in in F. destruct F as (F1 & F2 & F3).
      destruct (h_handle h m st) as [st1|x] eqn:H; [|discriminate]. cbn [bind] in E.
      apply (IH (index + k) _ st1 _ _) in E; [exact E| |exact (Hk h m st st1 F1 H Hi)].
      intros h' m' s s' Hin. apply Hk. exact (skipn_more _ index k hs h' Hin).
    + apply (IH index _ st _ _) in E; assumption.
Qed.

Lemma parse_section_inv : forall S (I : S -> Prop) (hs : list (handler S)) sec st st' un',
  (forall h m st st', In h hs -> h_handle h m st = Ok st' -> I st -> I st') ->
  I st -> parse_section hs sec st = Ok (st', un') -> I st'.
Proof. intros S I hs sec st st' un' Hk. apply (parse_groups_inv S I hs _ 0). exact Hk. Qed.

(** ** The first group survives the visibility sanitizer *)

Definition blank_first (t : str) : Prop := t = [] \/ exists t2, t = 32%N :: t2.

Lemma vis_blank : forall x, den r_SAN_VIS x -> exists b x', x = b :: x' /\ is_space b = true.
Proof.
  intros x D. unfold r_SAN_VIS in D. cbn [den] in D. destruct D as (x1 & x2 & -> & (b & -> & Hb) & _). rewrite in_space in Hb.
  exists b, x2. auto.
Qed.

Lemma vis_step_prefix : forall w t s', ink w -> blank_first t -> sanitize_visibility_step (w ++ t) = Some s' ->
  exists t', s' = w ++ t' /\ blank_first t'.
Proof.
  intros w t s' Hw Ht E. unfold sanitize_visibility_step in E.
  destruct (first_hit r_SAN_VIS t eq_refl) as [Q|(a & x & t2 & m & -> & Q & Em & Ee & D)].
  - assert (QW : quiet r_SAN_VIS (w ++ t) []).
    { apply quiet_app; [|exact Q]. intros a1 c a2 Ew. apply mlen_none. intros x t' Ex D.
      destruct (vis_blank x D) as (b & x' & -> & Hb). injection Ex as -> _. subst w.
      unfold ink in Hw. apply Forall_app in Hw. destruct Hw as [_ Hw]. inversion Hw; subst. congruence. }
    rewrite re_search_none in E by (try reflexivity; exact QW). discriminate.
  - assert (QW : quiet r_SAN_VIS (w ++ a) (x ++ t2)).
    { apply quiet_app; [|exact Q]. intros a1 c a2 Ew. apply mlen_none. intros x0 t' Ex D0.
      destruct (vis_blank x0 D0) as (b & x' & -> & Hb). injection Ex as -> _. subst w.
      unfold ink in Hw. apply Forall_app in Hw. destruct Hw as [_ Hw]. inversion Hw; subst. congruence. }
    assert (Hx : x <> []) by (destruct (vis_blank x D) as (b & x' & -> & _); discriminate).
    destruct (re_search_some r_SAN_VIS (w ++ a) (x ++ t2) m eq_refl QW Em) as (m' & Es & Eg & _).
    rewrite app_assoc in E. rewrite Es in E. rewrite !Eg in E.
    destruct (group m "int") as [i|]; [|discriminate]. destruct (group m "frac") as [f|]; [|discriminate].
    injection E as <-.
    destruct (step_at r_SAN_VIS (py " " ++ i ++ py "_" ++ f ++ py " ") (w ++ a) x t2 m
                eq_refl eq_refl QW Hx Em Ee) as (S1 & _).
    exists (a ++ (py " " ++ i ++ py "_" ++ f ++ py " ") ++ t2). split.
    + transitivity ((w ++ a) ++ (py " " ++ i ++ py "_" ++ f ++ py " ") ++ t2); [exact S1|].
      rewrite <- !app_assoc. reflexivity.
    + right. destruct a as [|c a]; [eexists; reflexivity|].
      destruct Ht as [Ht|(t3 & Ht)]; [discriminate|]. injection Ht as -> _. eexists; reflexivity.
Qed.

Lemma vis_prefix : forall k w t, ink w -> blank_first t ->
  exists t', sanitize_visibility_n k (w ++ t) = w ++ t' /\ blank_first t'.
Proof.
  induction k as [|k IH]; intros w t Hw Ht; [exists t; auto|]. cbn [sanitize_visibility_n].
  destruct (sanitize_visibility_step (w ++ t)) as [s'|] eqn:E; [|exists t; auto].
  destruct (vis_step_prefix w t s' Hw Ht E) as (t' & -> & Ht'). apply IH; assumption.
Qed.

Lemma split_first : forall w t, ~ In 32%N w -> blank_first t -> exists gs, split_on 32 (w ++ t) = w :: gs.
Proof.
  intros w t Hw [-> |(t2 & ->)].
  - exists []. rewrite app_nil_r. apply split_on_nosep. exact Hw.
  - exists (split_on 32 t2). apply split_on_app. exact Hw.
Qed.

(** ** One change *)

Lemma cf_lift_ind : forall f m p p', cf_lift f m p = Ok p' -> cf_ind p' = cf_ind p /\ cf_code p' = cf_code p.
Proof. intros f m p p' E. unfold cf_lift in E. destruct (f m (cf_common p)); [|discriminate]. injection E as <-. auto. Qed.

Definition handler_ok (h : handler change_fc) : Prop := exists f, h_handle h = cf_lift f.

Lemma later_handlers : Forall handler_ok (skipn 2 change_handlers).
Proof. cbn. repeat (constructor; [eexists; reflexivity|]). constructor. Qed.

Lemma later_keep : forall h m st st', In h (skipn 2 change_handlers) -> h_handle h m st = Ok st' -> cf_ind st' = cf_ind st.
Proof.
  intros h m st st' Hin E. assert (F := later_handlers). rewrite Forall_forall in F.
  destruct (F h Hin) as (f & Ef). rewrite Ef in E. apply cf_lift_ind in E. apply E.
Qed.

Lemma change_tail : forall gs un base st st' un', tc_code (cf_ind st) = Some base ->
  starts_with (py "FM") base = false ->
  parse_groups change_handlers gs 1 un st = Ok (st', un') ->
  exists tail, tc_code (cf_ind st') = Some (base ++ tail)
    /\ (tail = [] \/ exists g, In g gs /\ re_match r_T_VALID g <> None /\ tail = py " " ++ replace (py "_") (py " ") g).
Proof.
  induction gs as [|g gs IH]; intros un base st st' un' Hb Hfm E.
  - injection E as <- _. exists []. rewrite app_nil_r. auto.
  - cbn [parse_groups] in E.
    change (skipn 1 change_handlers) with (mk_handler r_T_VALID handle_change_valid :: skipn 2 change_handlers) in E.
    cbn [first_match h_regexp] in E. destruct (re_match r_T_VALID g) as [m|] eqn:Em.
    + cbn [h_handle] in E. destruct (handle_change_valid m st) as [st1|x] eqn:H; [|discriminate]. cbn [bind] in E.
      unfold handle_change_valid, set_valid_period in H.
      destruct (valid_from_taf (Some m) (t_dt (va_from (cf_valid st)))) as [v|x] eqn:V; [|discriminate].
      cbn [bind] in H. rewrite Hb, Hfm in H. injection H as <-.
      assert (Hc : va_code v = Some (replace (py "_") (py " ") g)).
      { unfold valid_from_taf in V. destruct (dt_replace_minute (t_dt (va_from (cf_valid st))) 0) as [t0|]; [|discriminate].
        cbn [bind] in V.
        repeat match type of V with bind ?x _ = Ok _ => destruct x; [cbn [bind] in V|discriminate] end.
        injection V as <-. cbn [va_code valid_new group_code option_map]. f_equal. f_equal.
        unfold re_match in Em. destruct (run r_T_VALID 0 g) as [|[[e t] sp] l]; [discriminate|]. injection Em as <-. reflexivity. }
      assert (K : cf_ind st' = mk_tci (Some (base ++ py " " ++ fmt_opt (va_code v)))
                      (Some (fmt_opt (tc_trans (cf_ind st)) ++ py " " ++ valid_str v)) v).
      { refine (parse_groups_inv _ (fun s => cf_ind s = _) change_handlers gs 2 _ _ st' un' _ _ E).
        - intros h m0 s s' Hin Hh Hs. rewrite (later_keep h m0 s s' Hin Hh). exact Hs.
        - reflexivity. }
      exists (py " " ++ replace (py "_") (py " ") g). rewrite K. cbn [tc_code]. rewrite Hc. cbn [fmt_opt].
      split; [reflexivity|]. right. exists g. split; [left; reflexivity|]. split; [congruence|reflexivity].
    + destruct (first_match (skipn 2 change_handlers) 1 g) as [[[k h] m]|] eqn:F.
      * apply first_match_in in F. destruct F as (F1 & F2 & F3).
        destruct (h_handle h m st) as [st1|x] eqn:H; [|discriminate]. cbn [bind] in E.
        assert (K : cf_ind st' = cf_ind st).
        { refine (parse_groups_inv _ (fun s => cf_ind s = cf_ind st) change_handlers gs (1 + k) _ _ st' un' _ _ E).
          - intros h0 m0 s s' Hin Hh Hs. rewrite (later_keep h0 m0 s s' ltac:(replace (1 + k) with (2 + (k - 1)) in Hin by lia; exact (skipn_more _ 2 (k - 1) _ h0 Hin)) Hh). exact Hs.
          - exact (later_keep h m st st1 F1 H). }
        exists []. rewrite K, app_nil_r. auto.
      * destruct (IH _ base st st' un' Hb Hfm E) as (tail & T1 & [T2|(g0 & T2 & T3)]).
        -- exists tail. auto.
        -- exists tail. split; [exact T1|]. right. exists g0. split; [right; exact T2|exact T3].
Qed.

Lemma chunk_no_stray : forall A c B, no_stray_pair (A ++ c ++ B) -> no_stray_pair c.
Proof.
  intros A c B [H1 H2]. split.
  - apply Forall_app in H1. destruct H1 as [_ H1]. apply Forall_app in H1. apply H1.
  - intros A0 u v B0 E. apply (H2 (A ++ A0) u v (B0 ++ B)). rewrite E, <- !app_assoc. reflexivity.
Qed.

Lemma closed_pairs : forall r, Forall (fun t => opens t = false) r -> filter is_pair r = [].
Proof. induction 1 as [|t r Ht H IH]; [reflexivity|]. destruct t; [exact IH|discriminate]. Qed.

(** The change of a chunk that starts with a pair. *)
Lemma prob_change : forall n r v p, no_stray_pair (ProbTempo n :: r) -> Forall plain_tok r ->
  Forall (fun t => opens t = false) r ->
  change_fc_new (sentence (map ct_joined (ProbTempo n :: r))) v = Ok p ->
  exists tail, ind_code p = Some (prob_code n ++ py " TEMPO" ++ tail)
    /\ (tail = [] \/ exists g, re_match r_T_VALID g <> None /\ tail = py " " ++ replace (py "_") (py " ") g).
Proof.
  intros n r v p Hs Hp Hr E. unfold change_fc_new in E.
  rewrite (replace_joined (ProbTempo n :: r)) in E by (constructor; [exact I|exact Hp]).
  destruct (common_new []) as [c|x]; [|discriminate]. cbn [bind taf_ind_new] in E.
  unfold sanitize_change_indicator in E. rewrite sanitize_prob in E.
  2: exact Hs.
  2:{ unfold pairs. cbn [filter is_pair length]. rewrite closed_pairs by exact Hr. cbn [length]. lia. }
  assert (T : exists t, sentence (map ct_joined (ProbTempo n :: r)) = (prob_code n ++ py "_TEMPO") ++ t /\ blank_first t).
  { destruct r as [|t2 r].
    - exists []. split; [|left; reflexivity]. rewrite app_nil_r. reflexivity.
    - exists (32%N :: sentence (map ct_joined (t2 :: r))). split; [reflexivity|]. right. eexists. reflexivity. }
  destruct T as (t & Et & Ht). rewrite Et in E.
  assert (Hi : ink (prob_code n ++ py "_TEMPO")) by (destruct n; repeat constructor).
  destruct (vis_prefix 3 _ t Hi Ht) as (t' & Ev & Ht'). unfold sanitize_visibility in E. rewrite Ev in E.
  unfold parse_section in E.
  destruct (split_first (prob_code n ++ py "_TEMPO") t') as (gs & Eg); [destruct n; cbn; intuition discriminate|exact Ht'|].
  rewrite Eg in E. clear Eg Ev Et.
  cbn [parse_groups] in E. change (skipn 0 change_handlers) with change_handlers in E.
  assert (F : exists m, first_match change_handlers 0 (prob_code n ++ py "_TEMPO")
     = Some (1, mk_handler r_T_CHANGE_INDICATOR handle_change_indicator, m) /\ m_string m = prob_code n ++ py "_TEMPO").
  { assert (M : exists m, re_match r_T_CHANGE_INDICATOR (prob_code n ++ py "_TEMPO") = Some m
        /\ m_string m = prob_code n ++ py "_TEMPO") by (destruct n; eexists; split; vm_compute; reflexivity).
    destruct M as (m & M & Ms). exists m. split; [|exact Ms]. unfold change_handlers. cbn [first_match h_regexp].
    rewrite M. reflexivity. }
  destruct F as (m & F & Fs). rewrite F in E. cbn [h_handle] in E.
  unfold handle_change_indicator in E.
  assert (C : exists tr, taf_ind_new (Some m) v = Ok (mk_tci (Some (prob_code n ++ py " TEMPO")) tr v)).
  { assert (D : exists tr, change_indicator_new (Some m) = Ok (Some (prob_code n ++ py " TEMPO"), tr)).
    { unfold change_indicator_new. rewrite Fs. destruct n; eexists; vm_compute; reflexivity. }
    destruct D as (tr & D). exists tr. unfold taf_ind_new. rewrite Fs, D.
    replace (starts_with (py "FM") (prob_code n ++ py "_TEMPO")) with false by (destruct n; reflexivity). reflexivity. }
  destruct C as (tr & C). cbn [cf_valid] in E. rewrite C in E. cbn [bind] in E.
  match type of E with bind ?e0 _ = _ => destruct e0 as [[p1 un1]|x] eqn:PG; [|discriminate] end.
  cbn [bind] in E. injection E as <-.
  apply (change_tail gs _ (prob_code n ++ py " TEMPO")) in PG; [|reflexivity|destruct n; reflexivity].
  destruct PG as (tail & T1 & T2). exists tail. unfold ind_code. cbn [cf_ind]. rewrite T1, <- app_assoc.
  split; [reflexivity|]. destruct T2 as [T2|(g & _ & T2)]; [auto|]. right. exists g. exact T2.
Qed.

(** ** The changes of the report *)

Lemma change_code : forall code v p, change_fc_new code v = Ok p ->
  cf_code p = Some (replace (py "_") (py " ") code).
Proof.
  intros code v p E. unfold change_fc_new in E. destruct (common_new []) as [c|x]; [|discriminate].
  cbn [bind taf_ind_new] in E.
  match type of E with bind ?e0 _ = _ => destruct e0 as [[p1 un1]|x] eqn:PG; [|discriminate] end.
  cbn [bind] in E. injection E as <-. cbn [cf_code].
  refine (parse_section_inv _ (fun s => cf_code s = _) _ _ _ _ _ _ _ PG); [|reflexivity].
  intros h m s s' Hin Hh Hs. rewrite <- Hs. clear Hs PG.
  destruct Hin as [<-|[<-|Hin]].
  - cbn [h_handle] in Hh. unfold handle_change_indicator in Hh. destruct (taf_ind_new (Some m) (cf_valid s)); [|discriminate].
    injection Hh as <-. reflexivity.
  - cbn [h_handle] in Hh. unfold handle_change_valid in Hh.
    destruct (set_valid_period m (va_from (cf_valid s)) (cf_ind s)); [|discriminate]. injection Hh as <-. reflexivity.
  - change (In h (skipn 2 change_handlers)) in Hin. assert (F := later_handlers). rewrite Forall_forall in F.
    destruct (F h Hin) as (f & Ef). rewrite Ef in Hh. apply cf_lift_ind in Hh. apply Hh.
Qed.

Definition same_codes (a b : change_fc) : Prop := cf_code a = cf_code b /\ ind_code a = ind_code b.

Lemma same_codes_refl : forall a, same_codes a a.
Proof. intro a. split; reflexivity. Qed.

Lemma same_all_refl : forall l, Forall2 same_codes l l.
Proof. induction l; constructor; auto using same_codes_refl. Qed.

Lemma pop_same : forall until rl temp rl' temp', pop_changes until rl temp = Ok (rl', temp') ->
  Forall2 same_codes (rev rl ++ temp) (rev rl' ++ temp').
Proof.
  intros until rl. induction rl as [|c rl IH]; intros temp rl' temp' E; cbn [pop_changes] in E.
  - injection E as <- <-. apply same_all_refl.
  - destruct (tc_code (cf_ind c)) as [k|] eqn:Ek; [|discriminate].
    destruct (starts_with (py "PROB") k || starts_with (py "TEMPO") k).
    + apply IH in E. cbn [rev]. rewrite <- app_assoc. exact E.
    + destruct (starts_with (py "FM") k) eqn:Ef.
      * destruct (reset_until_period until (cf_ind c)) as [i|x] eqn:R; [|discriminate]. cbn [bind] in E.
        injection E as <- <-. cbn [rev]. rewrite <- app_assoc. cbn [app].
        apply Forall2_app; [apply same_all_refl|]. constructor; [|apply same_all_refl].
        split; [reflexivity|]. unfold ind_code, cf_set_ind. cbn [cf_ind].
        unfold reset_until_period in R. destruct (dt_add_hours (t_dt until) (-1)); [|discriminate]. cbn [bind] in R.
        rewrite Ek, Ef in R. injection R as <-. rewrite Ek. reflexivity.
      * injection E as <- <-. cbn [rev]. rewrite <- app_assoc. apply same_all_refl.
Qed.

Lemma gl_add_list : forall A (x : A) g g', gl_add x g = Ok g' -> gl_list g' = gl_list g ++ [x].
Proof.
  intros A x g g' E. unfold gl_add in E. destruct (Nat.leb (gl_max g) (length (gl_list g))); [discriminate|].
  injection E as <-. reflexivity.
Qed.

Lemma gl_add_all_list : forall A (l : list A) g g', gl_add_all l g = Ok g' -> gl_list g' = gl_list g ++ l.
Proof.
  intros A l. induction l as [|x l IH]; intros g g' E; cbn [gl_add_all] in E.
  - injection E as <-. rewrite app_nil_r. reflexivity.
  - destruct (gl_add x g) as [g1|e] eqn:E1; [|discriminate]. cbn [bind] in E. apply IH in E.
    rewrite E, (gl_add_list _ _ _ _ E1), <- app_assoc. reflexivity.
Qed.

Lemma changes_add_same : forall new g g', changes_add new g = Ok g' ->
  Forall2 same_codes (gl_list g ++ [new]) (gl_list g').
Proof.
  intros new g g' E. unfold changes_add in E.
  match type of E with (if ?b then _ else _) = _ => destruct b end.
  - match type of E with bind ?e0 _ = _ => destruct e0 as [[rl temp]|x] eqn:P; [|discriminate] end. cbn [bind] in E.
    match type of E with bind ?e0 _ = _ => destruct e0 as [g1|x] eqn:G; [|discriminate] end. cbn [bind] in E.
    apply pop_same in P. rewrite rev_involutive, app_nil_r in P.
    apply gl_add_all_list in G. cbn [gl_list] in G. apply gl_add_list in E. rewrite E, G.
    apply Forall2_app; [exact P|apply same_all_refl].
  - apply gl_add_list in E. rewrite E. apply same_all_refl.
Qed.

Definition change_made (code : str) (ch : change_fc) : Prop :=
  exists v p, change_fc_new code v = Ok p /\ same_codes p ch.

Lemma same_trans : forall a b c, same_codes a b -> same_codes b c -> same_codes a c.
Proof. intros a b c [H1 H2] [H3 H4]. split; congruence. Qed.

Lemma made_same : forall codes l l', Forall2 change_made codes l -> Forall2 same_codes l l' -> Forall2 change_made codes l'.
Proof.
  intros codes l l' H. revert l'. induction H as [|c x codes l (v & p & H1 & H2) H IH]; intros l' S; inversion S; subst; constructor.
  - exists v, p. split; [exact H1|]. eapply same_trans; eassumption.
  - apply IH. assumption.
Qed.

Lemma handle_changes_made : forall codes x x' done, Forall (fun c => c <> []) codes ->
  Forall2 change_made done (gl_list (ta_changes x)) -> handle_changes codes x = Ok x' ->
  Forall2 change_made (done ++ codes) (gl_list (ta_changes x')).
Proof.
  induction codes as [|c codes IH]; intros x x' done Hne H E; cbn [handle_changes] in E.
  - injection E as <-. rewrite app_nil_r. exact H.
  - inversion Hne as [|c0 l Hc Hl]; subst. destruct c as [|k c]; [congruence|].
    destruct (handle_change_forecasted (k :: c) x) as [x1|e] eqn:E1; [|discriminate]. cbn [bind] in E.
    unfold handle_change_forecasted in E1.
    destruct (change_fc_new (k :: c) (ta_valid x)) as [p|e] eqn:Ep; [|discriminate]. cbn [bind] in E1.
    destruct (changes_add p (ta_changes x)) as [l'|e] eqn:El; [|discriminate]. cbn [bind] in E1.
    injection E1 as <-.
    replace (done ++ (k :: c) :: codes) with ((done ++ [k :: c]) ++ codes) by (rewrite <- app_assoc; reflexivity).
    apply (IH _ x' (done ++ [k :: c])) in E; [exact E|exact Hl|].
    cbn [ta_changes tout_string tupd_common tupd_changes].
    apply changes_add_same in El. eapply made_same; [|exact El]. apply Forall2_app; [exact H|].
    constructor; [|constructor]. exists (ta_valid x), p. split; [exact Ep|apply same_codes_refl].
Qed.

Lemma body_keeps : forall e y mo x x', taf_parse_body e y mo x = Ok x' ->
  ta_codes x' = ta_codes x /\ ta_changes x' = ta_changes x.
Proof.
  intros e y mo x x' E. unfold taf_parse_body in E.
  match type of E with bind ?e0 _ = _ => destruct e0 as [[x1 un1]|k] eqn:P; [|discriminate] end. cbn [bind] in E.
  injection E as <-. cbn [ta_codes ta_changes tupd_unparsed].
  refine (parse_section_inv _ (fun s => ta_codes s = ta_codes x /\ ta_changes s = ta_changes x) _ _ _ _ _ _ _ P); [|auto].
  assert (L : forall f m s s', tlift f m s = Ok s' -> ta_codes s' = ta_codes s /\ ta_changes s' = ta_changes s).
  { intros f m s s' H. unfold tlift in H. destruct (f m (ta_common s)); [|discriminate]. injection H as <-. auto. }
  intros h m s s' Hin Hh [Hs1 Hs2]. rewrite <- Hs1, <- Hs2. clear Hs1 Hs2 P.
  unfold taf_handlers in Hin. cbn [In] in Hin.
  repeat match type of Hin with _ \/ _ => destruct Hin as [Hin|Hin] end;
    try (subst h; cbn [h_handle] in Hh; first [exact (L _ _ _ _ Hh)|idtac]); try contradiction.
  - unfold thandle_type in Hh. injection Hh as <-. auto.
  - unfold thandle_modifier in Hh. injection Hh as <-. auto.
  - unfold thandle_station in Hh. injection Hh as <-. auto.
  - unfold thandle_time in Hh. destruct (time_from_metar e (Some m) y mo); [|discriminate]. injection Hh as <-. auto.
  - unfold thandle_missing in Hh. injection Hh as <-. auto.
  - unfold thandle_valid in Hh. destruct (valid_from_taf (Some m) (t_dt (ta_time s))); [|discriminate]. injection Hh as <-. auto.
  - unfold thandle_cancelled in Hh. injection Hh as <-. auto.
  - unfold thandle_temperature in Hh. destruct (taf_temp_new m (t_dt (ta_time s))) as [t|]; [|discriminate]. cbn [bind] in Hh.
    destruct (opt_str_eqb (group m "type") (py "X")).
    + destruct (gl_add t (ta_max s)); [|discriminate]. injection Hh as <-. auto.
    + destruct (gl_add t (ta_min s)); [|discriminate]. injection Hh as <-. auto.
  - unfold thandle_temperature in Hh. destruct (taf_temp_new m (t_dt (ta_time s))) as [t|]; [|discriminate]. cbn [bind] in Hh.
    destruct (opt_str_eqb (group m "type") (py "X")).
    + destruct (gl_add t (ta_max s)); [|discriminate]. injection Hh as <-. auto.
    + destruct (gl_add t (ta_min s)); [|discriminate]. injection Hh as <-. auto.
  - unfold thandle_temperature in Hh. destruct (taf_temp_new m (t_dt (ta_time s))) as [t|]; [|discriminate]. cbn [bind] in Hh.
    destruct (opt_str_eqb (group m "type") (py "X")).
    + destruct (gl_add t (ta_max s)); [|discriminate]. injection Hh as <-. auto.
    + destruct (gl_add t (ta_min s)); [|discriminate]. injection Hh as <-. auto.
  - unfold thandle_temperature in Hh. destruct (taf_temp_new m (t_dt (ta_time s))) as [t|]; [|discriminate]. cbn [bind] in Hh.
    destruct (opt_str_eqb (group m "type") (py "X")).
    + destruct (gl_add t (ta_max s)); [|discriminate]. injection Hh as <-. auto.
    + destruct (gl_add t (ta_min s)); [|discriminate]. injection Hh as <-. auto.
Qed.

Lemma taf_changes_made : forall e code y mo tr x raw, report_raw_code code = Ok raw ->
  Forall (fun c => c <> []) (snd (taf_split raw)) -> taf_parse e code y mo tr = Ok x ->
  ta_body x = ta_body x /\ Forall2 change_made (snd (taf_split raw)) (gl_list (ta_changes x)).
Proof.
  intros e code y mo tr x raw Hraw Hne E. split; [reflexivity|].
  unfold taf_parse in E. rewrite Hraw in E. cbn [bind] in E.
  destruct (taf_init e raw) as [x0|k] eqn:E0; [|discriminate]. cbn [bind] in E.
  assert (I0 : ta_codes x0 = snd (taf_split raw) /\ gl_list (ta_changes x0) = []).
  { unfold taf_init in E0. destruct (time_new e None None None None None None) as [t|]; [|discriminate]. cbn [bind] in E0.
    destruct (taf_split raw) as [body codes]. destruct (common_new []) as [c|]; [|discriminate]. cbn [bind] in E0.
    destruct (valid_from_taf None (t_dt t)) as [v|]; [|discriminate]. cbn [bind] in E0. injection E0 as <-. auto. }
  destruct (taf_parse_body e y mo x0) as [x1|k] eqn:E1; [|discriminate]. cbn [bind] in E.
  apply body_keeps in E1. destruct E1 as [B1 B2], I0 as [I1 I2].
  unfold parse_changes_forecasted in E.
  destruct (handle_changes (ta_codes x1) x1) as [x2|k] eqn:E2; [|discriminate]. cbn [bind] in E.
  rewrite B1, I1 in E2.
  apply (handle_changes_made _ x1 x2 []) in E2; [|exact Hne|rewrite B2, I2; constructor].
  cbn [app] in E2. destruct (gl_collect (ta_changes x2)) as [l g] eqn:G.
  assert (Gl : gl_list g = gl_list (ta_changes x2)).
  { rewrite gl_collect_spec in G. injection G as _ <-. reflexivity. }
  match type of E with match ?u with _ => _ end = _ => destruct u end.
  - injection E as <-. cbn [ta_changes tupd_unparsed tupd_changes]. rewrite Gl. exact E2.
  - destruct tr; [discriminate|]. injection E as <-. cbn [ta_changes tupd_unparsed tupd_changes]. rewrite Gl. exact E2.
Qed.

Lemma taf_changes : forall e code y mo tr x w l b cs,
  no_stray_pair (Plain (py "TAF") :: Plain w :: l) ->
  length (filter is_pair l) <= 5 -> Forall plain_tok (Plain w :: l) -> chunks l = (b, cs) -> taf_apart w b cs ->
  report_raw_code code = Ok (sentence (py "TAF" :: w :: flat_map ct_words l)) ->
  taf_parse e code y mo tr = Ok x ->
  Forall2 change_of cs (gl_list (ta_changes x)).
Proof.
  intros e code y mo tr x w l b cs Hs Hp Hw Ec Ha Hraw E.
  assert (S := taf_split_words w l b cs Hs Hp Hw Ec Ha).
  destruct (chunks_facts l b cs Ec) as (El & Hb & Hcs).
  assert (NE : Forall (fun c => c <> []) (map (fun c => sentence (map ct_joined c)) cs)).
  { apply Forall_map. rewrite Forall_forall in *. intros c Hc. destruct (Hcs c Hc) as (t & r & -> & Ht & _).
    assert (Hj : ct_joined t <> []).
    { destruct t as [w0|[|]]; [|discriminate|discriminate]. intros Z. cbn [ct_joined] in Z. subst w0. discriminate. }
    cbn [map]. unfold sentence. destruct (map ct_joined r); cbn [join]; [exact Hj|]. destruct (ct_joined t); [congruence|discriminate]. }
  destruct (taf_changes_made e code y mo tr x _ Hraw) with (2 := E) as [_ F]; [rewrite S; exact NE|].
  rewrite S in F. cbn [snd] in F. clear - F Hcs Hw Hs El. inversion Hw as [|x0 y0 _ Hl]; subst. clear Hw.
  assert (HS : forall c, In c cs -> no_stray_pair c /\ Forall plain_tok c).
  { intros c Hc. apply in_split in Hc. destruct Hc as (c1 & c2 & ->). split.
    - rewrite concat_app in Hs. cbn [concat] in Hs.
      apply (chunk_no_stray (Plain (py "TAF") :: Plain w :: b ++ concat c1) c (concat c2)).
      cbn [app]. rewrite <- !app_assoc. exact Hs.
    - apply Forall_app in Hl. destruct Hl as [_ Hl]. rewrite concat_app in Hl. apply Forall_app in Hl.
      destruct Hl as [_ Hl]. cbn [concat] in Hl. apply Forall_app in Hl. apply Hl. }
  clear Hs Hl b. revert F. generalize (gl_list (ta_changes x)). induction cs as [|c cs IH]; intros chs F; inversion F; subst; constructor.
  - match goal with H : change_made _ _ |- _ => destruct H as (v & p & M1 & M2 & M3) end.
    destruct (HS c (or_introl eq_refl)) as [Sc Pc]. split.
    + rewrite <- M2. rewrite (change_code _ _ _ M1). f_equal. apply replace_joined. exact Pc.
    + intros n r ->. rewrite <- M3. inversion Hcs as [|c0 l0 (t & r0 & Et & _ & Hr) _]; subst. injection Et as <- <-.
      inversion Pc; subst. apply (prob_change n r v p); assumption.
  - inversion Hcs; subst. apply IH; [assumption| |assumption]. intros c0 Hc0. apply HS. right. exact Hc0.
Qed.
