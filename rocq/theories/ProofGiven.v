(** * Proofs: which field gets which word (C85) *)
From Coq Require Import String Ascii.
From Coq Require Import List NArith ZArith Bool Lia Sorted.
From Verif Require Import PyBase PyRegex AeroRegex PyTime Utils Base MetarGroups Trend Metar Taf StrFacts
  SpecLists ProofLists ProofValues ProofProb ProofFailures ProofAbsent OutTafBody SpecText SpecKept ProofKeptText ProofKept ProofKeptReport
  ProofKeptMetar ProofKeptTaf SpecRefused SpecRefusedTaf SpecGiven.
Import ListNotations.
Local Open Scope string_scope.
Local Open Scope nat_scope.
Local Open Scope list_scope.

(** ** Sections *)

Lemma dispatch_takes : forall T (hs : list (handler T)) lo gs a, dispatch hs lo gs a ->
  takes (map (@h_regexp T) hs) lo gs (trace gs a) (left_over gs a).
Proof.
  intros T hs lo gs a H.
  assert (Q : forall j q, nth_error (map (@h_regexp T) hs) j = Some q -> exists h, nth_error hs j = Some h /\ h_regexp h = q).
  { intros j q E. rewrite nth_error_map in E. destruct (nth_error hs j) as [h|]; [|discriminate E]. exists h. split; [reflexivity|]. cbn in E. congruence. }
  induction H as [lo|lo g gs a i h Hlo Hn Ha Hno H IH|lo g gs a Hno H IH]; cbn [trace left_over].
  - apply takes_end.
  - apply (takes_word _ _ _ (h_regexp h)); [exact Hlo|rewrite nth_error_map, Hn; reflexivity|exact Ha| |exact IH].
    intros j q L E. destruct (Q j q E) as (h' & E' & <-). exact (Hno j h' L E').
  - apply takes_not; [|exact IH]. intros j q L E. destruct (Q j q E) as (h' & E' & <-). exact (Hno j h' L E').
Qed.

Lemma section_given : forall T (hs : list (handler T)) sec s s' un, parse_section hs sec s = Ok (s', un) ->
  exists tr, takes (map (@h_regexp T) hs) 0 (split_on 32 sec) tr un /\ rising tr /\ below (length hs) tr
    /\ Forall (fun p => match nth_error hs (fst p) with Some h => accepts h (snd p) | None => False end) tr
    /\ forall accs nf fld upd, faithful_step hs accs fld upd -> (forall s, length (accs s) = nf) ->
         forall f, f < nf -> nth f (accs s') [] = folded fld upd f (nth f (accs s) []) tr.
Proof.
  intros T hs sec s s' un E.
  destruct (parse_section_spec hs sec s) as (a & D & P). rewrite P in E.
  destruct (effect hs (split_on 32 sec) a s) as [s1|] eqn:Ee; [|discriminate E].
  destruct (dispatch_increasing hs 0 _ _ D) as (L & I & B).
  assert (K1 : s1 = s') by congruence. assert (K2 : left_over (split_on 32 sec) a = un) by congruence. subst s1 un.
  exists (trace (split_on 32 sec) a). split; [apply dispatch_takes, D|].
  split; [unfold rising; rewrite trace_fired by exact L; exact I|].
  split. { unfold below. rewrite <- (trace_fired _ _ L) in B. rewrite Forall_map in B. eapply Forall_impl; [|exact B]. intros p H. cbn beta in H. lia. }
  split; [exact (dispatch_accepts _ _ _ _ _ D)|].
  intros accs nf fld upd Hs Hl f Hf.
  apply (effect_fields hs accs nf fld upd Hs Hl (split_on 32 sec) a s s'); [|exact L| |exact Ee|exact Hf].
  - intros i Hi. rewrite Forall_forall in B. apply B in Hi. lia.
  - exact (dispatch_accepts _ _ _ _ _ D).
Qed.

(** The words of a field are those of its patterns. *)
Definition table_exact (l : list nat) (f lo k : nat) : bool :=
  forallb (fun i => Bool.eqb (Nat.eqb (nth i l 0) f) (Nat.leb lo i && Nat.ltb i (lo + k))) (seq 0 (length l)).
Lemma field_given : forall l d f lo k tr, table_exact l f lo k = true -> below (length l) tr ->
  spelled (of_field (fun i _ => nth i l d) f tr) = given lo k tr.
Proof.
  intros l d f lo k tr H B. unfold spelled, of_field, given. f_equal. apply filter_ext_in. intros [i g] I. cbn [fst snd].
  unfold below in B. rewrite Forall_forall in B. specialize (B _ I). cbn [fst] in B.
  unfold table_exact in H. rewrite forallb_forall in H. assert (J : In i (seq 0 (length l))) by (apply in_seq; lia). specialize (H i J).
  apply eqb_prop in H. rewrite (nth_indep l d 0) by lia. exact H.
Qed.

(** ** METAR bodies *)

Lemma body_words_given : forall e y mo x0 x1 un,
  metar_accs x0 = [py "METAR"] :: repeat [] 16 ->
  parse_section (metar_handlers e y mo) (sanitize_body (nth 0 (me_sections x0) [])) x0 = Ok (x1, un) ->
  exists t, takes metar_order 0 (split_on 32 (sanitize_body (nth 0 (me_sections x0) []))) t un /\ body_given x1 t.
Proof.
  intros e y mo x0 x1 un F E. destruct (section_given _ _ _ _ _ _ E) as (tr & W & R & B & _ & K).
  specialize (K metar_accs 17 metar_fld metar_upd (metar_slots e y mo) (fun s => eq_refl)).
  assert (Bn : below 27 tr) by exact B.
  exists tr. split; [exact W|].
  assert (G : forall f lo k, table_exact metar_table f lo k = true -> spelled (of_field metar_fld f tr) = given lo k tr)
    by (intros f lo k H; exact (field_given metar_table 17 f lo k tr H Bn)).
  assert (O : forall f lo, table_field metar_table f lo 1 = true -> length (of_field metar_fld f tr) <= 1).
  { intros f lo H. apply (field_most metar_fld 27 f lo 1 tr); [|exact R|exact Bn]. intros i g L. exact (table_field_ok metar_table 17 f lo 1 H i L). }
  assert (One : forall f lo, f < 17 -> f <> 0 -> several [8; 9; 10; 14] f = false -> table_field metar_table f lo 1 = true -> table_exact metar_table f lo 1 = true ->
            nth f (metar_accs x1) [] = given lo 1 tr).
  { intros f lo L N S H Hx. rewrite (K f L), F, <- (G f lo 1 Hx). destruct f as [|f]; [congruence|]. cbn [nth].
    rewrite nth_repeat. apply folded_one; [|exact (O _ lo H)].
    intros i g o Hf. unfold metar_upd, take_upd. rewrite Hf, S. reflexivity. }
  assert (All : forall f lo k, f < 17 -> f <> 0 -> several [8; 9; 10; 14] f = true -> table_exact metar_table f lo k = true -> nth f (metar_accs x1) [] = given lo k tr).
  { intros f lo k L N S Hx. rewrite (K f L), F, <- (G f lo k Hx). destruct f as [|f]; [congruence|]. cbn [nth]. rewrite nth_repeat. rewrite folded_all; [reflexivity|].
    intros i g o Hf. unfold metar_upd, take_upd. rewrite Hf, S. reflexivity. }
  assert (Ty : code_of_field (ty_code (me_type x1)) = or_else (py "METAR") (given 0 1 tr)).
  { pose proof (K 0 ltac:(lia)) as K0. rewrite F in K0. cbn [nth] in K0. rewrite folded_last in K0.
    2:{ intros i g o Hf. unfold metar_upd, take_upd. rewrite Hf. reflexivity. }
    pose proof (O 0 0 eq_refl) as L. rewrite <- (G 0 0 1 eq_refl). cbn [metar_accs nth] in K0. rewrite K0.
    destruct (of_field metar_fld 0 tr) as [|p [|q l]]; [reflexivity|reflexivity|cbn in L; lia]. }
  assert (Pr : code_of_field (pr_code (me_press x1)) = last_of (given 19 2 tr)).
  { pose proof (K 12 ltac:(lia)) as K0. rewrite F in K0. cbn [nth repeat] in K0. rewrite folded_last in K0.
    2:{ intros i g o Hf. unfold metar_upd, take_upd. rewrite Hf. reflexivity. }
    rewrite (G 12 19 2 eq_refl) in K0. exact K0. }
  split; [exact Ty|]. split; [exact (One 1 1 ltac:(lia) ltac:(lia) eq_refl eq_refl eq_refl)|].
  split; [exact (One 2 2 ltac:(lia) ltac:(lia) eq_refl eq_refl eq_refl)|].
  split; [exact (One 3 3 ltac:(lia) ltac:(lia) eq_refl eq_refl eq_refl)|].
  split; [exact (One 4 4 ltac:(lia) ltac:(lia) eq_refl eq_refl eq_refl)|].
  split; [exact (One 5 5 ltac:(lia) ltac:(lia) eq_refl eq_refl eq_refl)|].
  split; [exact (One 6 6 ltac:(lia) ltac:(lia) eq_refl eq_refl eq_refl)|].
  split; [exact (One 7 7 ltac:(lia) ltac:(lia) eq_refl eq_refl eq_refl)|].
  split; [exact (All 8 8 3 ltac:(lia) ltac:(lia) eq_refl eq_refl)|].
  split; [exact (All 9 11 3 ltac:(lia) ltac:(lia) eq_refl eq_refl)|].
  split; [exact (All 10 14 4 ltac:(lia) ltac:(lia) eq_refl eq_refl)|].
  split; [exact (One 11 18 ltac:(lia) ltac:(lia) eq_refl eq_refl eq_refl)|].
  split; [exact Pr|].
  split; [exact (One 13 21 ltac:(lia) ltac:(lia) eq_refl eq_refl eq_refl)|].
  split; [exact (All 14 22 3 ltac:(lia) ltac:(lia) eq_refl eq_refl)|].
  split; [exact (One 15 25 ltac:(lia) ltac:(lia) eq_refl eq_refl eq_refl)|].
  exact (One 16 26 ltac:(lia) ltac:(lia) eq_refl eq_refl eq_refl).
Qed.

(** ** Trends *)

Lemma trend_words_given : forall code t p, change_period_new code t = Ok p -> trend_given p code.
Proof.
  intros code t p E. unfold change_period_new in E. cbv zeta in E. unfold trend_given, words_of_trend. rewrite replace_blanked in E |- *.
  assert (C : exists c, common_new [] = Ok c /\ w_code (c_wind c) = None /\ v_code (c_vis c) = None
            /\ c_weathers c = gl_new 3 /\ gl_list (c_clouds c) = []).
  { eexists. split; [vm_compute; reflexivity|]. vm_compute. auto. }
  destruct C as (c & Ec & C1 & C2 & C3 & C4). rewrite Ec in E. cbn [bind] in E.
  destruct (trend_ind_new None t) as [i|] eqn:Ei; [|discriminate E]. cbn [bind] in E.
  assert (I1 : ti_code i = None).
  { unfold trend_ind_new in Ei. cbn [change_indicator_new bind] in Ei. cbv zeta in Ei. binds Ei. injection Ei as <-. reflexivity. }
  set (p0 := mk_cp (Some (blanked code)) (time_at t) c i [] []) in *.
  destruct (parse_section trend_handlers (sanitize_visibility (blanked code)) p0) as [[p1 un]|] eqn:E1; [|discriminate E]. cbn [bind] in E.
  ending E.
  assert (Fr : cp_code p1 = cp_code p0 /\ cp_unparsed p1 = []).
  { apply (parse_section_inv _ (fun p => cp_code p = cp_code p0 /\ cp_unparsed p = [])) in E1; [exact E1| |auto].
    intros h m s s' I Eh [K1 K2]. unfold trend_handlers in I. cbn [In] in I.
    repeat (destruct I as [<-|I]; [cbn [h_handle] in Eh|]); try contradiction;
      unfold handle_trend_indicator, handle_time_period, cp_lift in Eh; cbv zeta in Eh; binds Eh; ending Eh; cbn; auto. }
  destruct Fr as [Fr1 Fr2].
  destruct (section_given _ _ _ _ _ _ E1) as (tr & W & R & B & _ & K).
  specialize (K trend_accs 5 trend_fld trend_upd trend_slots (fun s => eq_refl)). cbn [length trend_handlers] in B.
  assert (Z : forall f, nth f (trend_accs p0) [] = []).
  { intro f. unfold trend_accs, p0, code_of_list. cbn [cp_ind cp_common]. rewrite I1, C1, C2, C3, C4. do 6 (destruct f as [|f]; [reflexivity|]). reflexivity. }
  assert (G : forall f lo k, table_exact trend_table f lo k = true -> spelled (of_field trend_fld f tr) = given lo k tr)
    by (intros f lo k H; exact (field_given trend_table 5 f lo k tr H B)).
  assert (One : forall f lo, f < 5 -> f = 1 \/ f = 2 -> table_field trend_table f lo 1 = true -> table_exact trend_table f lo 1 = true ->
            nth f (trend_accs p1) [] = given lo 1 tr).
  { intros f lo L N H Hx. rewrite (K f L), Z, <- (G f lo 1 Hx). apply folded_one.
    - intros j g o Hf. unfold trend_fld in Hf.
      do 12 (destruct j as [|j]; [cbn [trend_table nth] in Hf; first [reflexivity|lia]|]).
      assert (f = 5); [|lia]. rewrite <- Hf. destruct j; reflexivity.
    - apply (field_most trend_fld 12 f lo 1 tr); [|exact R|exact B]. intros j g L1. exact (table_field_ok trend_table 5 f lo 1 H j L1). }
  assert (All : forall f lo k, f < 5 -> f = 3 \/ f = 4 -> table_exact trend_table f lo k = true -> nth f (trend_accs p1) [] = given lo k tr).
  { intros f lo k L N Hx. rewrite (K f L), Z, <- (G f lo k Hx). rewrite folded_all; [reflexivity|]. intros j g o Hf. unfold trend_fld in Hf.
    do 12 (destruct j as [|j]; [cbn [trend_table nth] in Hf; first [reflexivity|lia]|]).
    assert (f = 5); [|lia]. rewrite <- Hf. destruct j; reflexivity. }
  assert (In0 : Forall (fun p => 0 <= fst p < 3) (of_field trend_fld 0 tr)).
  { unfold of_field. rewrite Forall_forall. intros q Hq. apply filter_In in Hq. destruct Hq as [Hq Hf]. apply Nat.eqb_eq in Hf.
    unfold below in B. rewrite Forall_forall in B. exact (table_field_ok trend_table 5 0 0 3 eq_refl _ (B q Hq) Hf). }
  pose proof (K 0 ltac:(lia)) as K0. rewrite Z in K0. unfold folded in K0.
  rewrite trend_ind_words in K0 by first [apply rising_filter, R|exact In0]. cbn [trend_accs nth] in K0.
  split; [exact Fr1|]. exists tr. cbn [cp_code cp_ind cp_common cp_unparsed]. rewrite Fr2. cbn [app].
  split; [exact W|].
  split. { rewrite <- (G 0 0 3 eq_refl), K0. destruct (of_field trend_fld 0 tr); reflexivity. }
  split; [exact (One 1 3 ltac:(lia) ltac:(lia) eq_refl eq_refl)|]. split; [exact (One 2 4 ltac:(lia) ltac:(lia) eq_refl eq_refl)|].
  split; [exact (All 3 5 3 ltac:(lia) ltac:(lia) eq_refl)|exact (All 4 8 4 ltac:(lia) ltac:(lia) eq_refl)].
Qed.

Lemma trends_given : forall l x x', handle_trends l x = Ok x' ->
  (forall t, body_given x t -> body_given x' t) /\ me_unparsed x' = me_unparsed x
  /\ gl_n (me_trends x') = gl_n (me_trends x)
  /\ exists ps, gl_list (me_trends x') = gl_list (me_trends x) ++ ps /\ Forall2 trend_given ps (filter nonempty_part l).
Proof.
  induction l as [|w l IH]; intros x x' E; cbn [handle_trends] in E.
  - injection E as <-. split; [auto|]. split; [reflexivity|]. split; [reflexivity|].
    exists []. split; [symmetry; apply app_nil_r|constructor].
  - destruct w as [|c w]; [exact (IH _ _ E)|]. unfold handle_weather_trend in E.
    destruct (change_period_new (c :: w) _) as [p|] eqn:C; [|discriminate E]. cbn [bind] in E. apply trend_words_given in C.
    destruct (gl_add p (me_trends x)) as [g|] eqn:G; [|discriminate E]. cbn [bind] in E.
    destruct (IH _ _ E) as (B & U & N & ps & L & K).
    split; [intros t H; apply B; exact H|]. split; [exact U|].
    split; [rewrite N; exact (gl_add_place _ _ _ _ G)|].
    exists (p :: ps). split; [rewrite L; cbn -[app]; rewrite (gl_add_list _ _ _ _ G), <- app_assoc; reflexivity|].
    cbn [filter nonempty_part]. constructor; [exact C|exact K].
Qed.

Theorem metar_words_given : forall e code y mo tr x, metar_parse e code y mo tr = Ok x -> metar_given code x.
Proof.
  intros e code y mo tr x E. unfold metar_parse in E. destruct (report_raw_code code) as [raw|] eqn:Er; [|discriminate E]. cbn [bind] in E.
  assert (Rw : raw = normalise code) by (unfold report_raw_code in Er; destruct code; [discriminate Er|congruence]). subst raw.
  destruct (metar_init e (normalise code) y mo) as [x0|] eqn:E0; [|discriminate E]. cbn [bind] in E.
  destruct (metar_fresh _ _ _ _ _ E0) as (F1 & F2 & F3).
  assert (F4 : me_sections x0 = metar_sections (normalise code)).
  { unfold metar_init in E0. binds E0. ending E0. reflexivity. }
  clear E0.
  unfold parse_body in E. destruct (parse_section (metar_handlers e y mo) _ x0) as [[x1 un]|] eqn:E1; [|discriminate E]. cbn [bind] in E.
  destruct (body_words_given _ _ _ _ _ _ F1 E1) as (t & T & Bd).
  assert (K : me_trends x1 = me_trends x0 /\ me_sections x1 = me_sections x0 /\ me_unparsed x1 = me_unparsed x0).
  { apply (parse_section_inv _ (fun x => me_trends x = me_trends x0 /\ me_sections x = me_sections x0 /\ me_unparsed x = me_unparsed x0)) in E1;
      [exact E1| |auto].
    intros h m s s' I Eh (K1 & K2 & K3). destruct (metar_frame _ _ _ _ _ _ _ I Eh) as (L1 & L2 & L3).
    rewrite L1, L2, L3. auto. }
  destruct K as (K1 & K2 & K3). rewrite K3, F2 in E. cbn [app] in E.
  unfold parse_weather_trend in E. destruct (handle_trends _ _) as [x2|] eqn:E2; [|discriminate E]. cbn [bind] in E.
  destruct (trends_given _ _ _ E2) as (B & U & N & ps & L & P). cbn [me_trends upd_unparsed me_sections me_unparsed] in N, L, U, P.
  rewrite K1, F3 in N, L. cbn in N, L.
  rewrite (gl_collect_fresh _ N) in E. cbv zeta in E.
  set (x3 := upd_unparsed _ _) in E.
  assert (X : x = x3) by (destruct (me_unparsed x3); [congruence|]; destruct tr; [discriminate E|congruence]).
  rewrite X. unfold x3. clear X x3 E E1 E2.
  exists t, un. split; [unfold words_of_body, section; rewrite <- F4; exact T|].
  split; [apply (B t); exact Bd|].
  cbn [me_unparsed me_trends upd_unparsed upd_trends]. rewrite L, U. split; [|reflexivity].
  rewrite K2, F4 in P. exact P.
Qed.

(** ** TAF bodies *)

Lemma forecast_words_given : forall e y mo x0 x1 un,
  taf_accs x0 = [py "TAF"] :: repeat [] 11 -> temp_accs x0 = repeat [] 3 ->
  parse_section (taf_handlers e y mo) (sanitize_visibility (ta_body x0)) x0 = Ok (x1, un) ->
  exists t, takes taf_order 0 (split_on 32 (sanitize_visibility (ta_body x0))) t un /\ forecast_given x1 t.
Proof.
  intros e y mo x0 x1 un F F2 E. destruct (section_given _ _ _ _ _ _ E) as (tr & W & R & B & Ac & K).
  pose proof (K temp_accs 3 temp_fld temp_upd (temp_slots e y mo) (fun s => eq_refl)) as K2.
  specialize (K taf_accs 12 taf_fld taf_upd (taf_slots e y mo) (fun s => eq_refl)).
  assert (Bn : below 20 tr) by exact B. exists tr. split; [exact W|].
  assert (Low : forall i g f, taf_fld i g = f -> f <> 11 -> f <> 12 -> Nat.leb 16 i = false).
  { intros i g f Hf N1 N2. unfold taf_fld in Hf. do 16 (destruct i as [|i]; [reflexivity|]).
    do 4 (destruct i as [|i]; [cbn in Hf; congruence|]). destruct i; cbn in Hf; congruence. }
  assert (G : forall f lo k, table_exact taf_table f lo k = true -> spelled (of_field taf_fld f tr) = given lo k tr)
    by (intros f lo k H; exact (field_given taf_table 12 f lo k tr H Bn)).
  assert (O : forall f lo, table_field taf_table f lo 1 = true -> length (of_field taf_fld f tr) <= 1).
  { intros f lo H. apply (field_most taf_fld 20 f lo 1 tr); [|exact R|exact Bn]. intros i g L. exact (table_field_ok taf_table 12 f lo 1 H i L). }
  assert (One : forall f lo, f < 11 -> f <> 0 -> several [9; 10] f = false -> table_field taf_table f lo 1 = true -> table_exact taf_table f lo 1 = true ->
            nth f (taf_accs x1) [] = given lo 1 tr).
  { intros f lo L N S H Hx. rewrite (K f), F, <- (G f lo 1 Hx) by lia. destruct f as [|f]; [congruence|]. cbn [nth].
    rewrite nth_repeat. apply folded_one; [|exact (O _ lo H)].
    intros i g o Hf. unfold taf_upd, take_upd. rewrite (Low i g _ Hf) by lia. rewrite Hf, S. reflexivity. }
  assert (All : forall f lo k, f < 11 -> f <> 0 -> several [9; 10] f = true -> table_exact taf_table f lo k = true -> nth f (taf_accs x1) [] = given lo k tr).
  { intros f lo k L N S Hx. rewrite (K f), F, <- (G f lo k Hx) by lia. destruct f as [|f]; [congruence|]. cbn [nth]. rewrite nth_repeat. rewrite folded_all; [reflexivity|].
    intros i g o Hf. unfold taf_upd, take_upd. rewrite (Low i g _ Hf) by lia. rewrite Hf, S. reflexivity. }
  assert (Ty : code_of_field (ty_code (ta_type x1)) = or_else (py "TAF") (given 0 1 tr)).
  { pose proof (K 0 ltac:(lia)) as K0. rewrite F in K0. cbn [nth] in K0. rewrite folded_last in K0.
    2:{ intros i g o Hf. unfold taf_upd, take_upd. rewrite (Low i g _ Hf) by lia. rewrite Hf. reflexivity. }
    pose proof (O 0 0 eq_refl) as L. rewrite <- (G 0 0 1 eq_refl). cbn [taf_accs nth] in K0. rewrite K0.
    destruct (of_field taf_fld 0 tr) as [|p [|q l]]; [reflexivity|reflexivity|cbn in L; lia]. }
  assert (Hot : forall i g, In (i, g) tr -> Nat.leb 16 i = true ->
            (temp_fld i g = 1 /\ starts_with (py "TX") g = true /\ starts_with (py "TN") g = false)
            \/ (temp_fld i g = 2 /\ starts_with (py "TX") g = false /\ starts_with (py "TN") g = true)).
  { intros i g I L. rewrite Forall_forall in Ac. specialize (Ac _ I). cbn [fst snd] in Ac.
    assert (A : re_match r_T_TEMPERATURE g <> None).
    { apply Nat.leb_le in L. unfold taf_handlers in Ac. do 16 (destruct i as [|i]; [lia|]).
      do 4 (destruct i as [|i]; [exact Ac|]). cbn [nth_error] in Ac. destruct i; contradiction. }
    unfold temp_fld. rewrite L. destruct (re_match r_T_TEMPERATURE g) as [m|] eqn:M; [|congruence].
    destruct (type_match g m M) as [[-> Sg]|[-> Sg]]; [left|right]; apply starts_with_app in Sg; destruct Sg as (t & ->); conjs; reflexivity. }
  assert (Te : forall f p, f < 3 -> f = 1 /\ p = py "TX" \/ f = 2 /\ p = py "TN" -> nth f (temp_accs x1) [] = given_temps p tr).
  { intros f p L N. rewrite (K2 f L), F2, nth_repeat. rewrite folded_all.
    2:{ intros i g o Hf. unfold temp_fld in Hf. unfold temp_upd. destruct (Nat.leb 16 i); [reflexivity|lia]. }
    cbn [app]. unfold spelled, of_field, given_temps. f_equal. apply filter_ext_in. intros [i g] I. cbn [fst snd].
    destruct (Nat.leb 16 i) eqn:L16.
    - destruct (Hot i g I L16) as [(A1 & A2 & A3)|(A1 & A2 & A3)]; rewrite A1; destruct N as [[-> ->]|[-> ->]]; cbn [Nat.eqb andb]; congruence.
    - unfold temp_fld. rewrite L16. destruct N as [[-> _]|[-> _]]; reflexivity. }
  split; [exact Ty|]. split; [exact (One 1 1 ltac:(lia) ltac:(lia) eq_refl eq_refl eq_refl)|].
  split; [exact (One 2 2 ltac:(lia) ltac:(lia) eq_refl eq_refl eq_refl)|].
  split; [exact (One 3 3 ltac:(lia) ltac:(lia) eq_refl eq_refl eq_refl)|].
  split; [exact (One 4 4 ltac:(lia) ltac:(lia) eq_refl eq_refl eq_refl)|].
  split; [exact (One 5 5 ltac:(lia) ltac:(lia) eq_refl eq_refl eq_refl)|].
  split; [exact (One 6 6 ltac:(lia) ltac:(lia) eq_refl eq_refl eq_refl)|].
  split; [exact (One 7 7 ltac:(lia) ltac:(lia) eq_refl eq_refl eq_refl)|].
  split; [exact (One 8 8 ltac:(lia) ltac:(lia) eq_refl eq_refl eq_refl)|].
  split; [exact (All 9 9 3 ltac:(lia) ltac:(lia) eq_refl eq_refl)|].
  split; [exact (All 10 12 4 ltac:(lia) ltac:(lia) eq_refl eq_refl)|].
  split; [exact (Te 1 _ ltac:(lia) (or_introl (conj eq_refl eq_refl)))|exact (Te 2 _ ltac:(lia) (or_intror (conj eq_refl eq_refl)))].
Qed.

(** ** Changes *)

Definition mark_upd (i : nat) (old : list str) (g : str) : list str :=
  match i, old with 1, [] => [] | _, _ => change_upd i old g end.
Lemma mark_slots : faithful_step change_handlers change_accs change_fld mark_upd.
Proof.
  intros i h g m x x' N M E. rewrite (change_slots i h g m x x' N M E). f_equal.
  destruct i as [|[|i]]; [reflexivity| |reflexivity]. cbn [change_fld change_table nth mark_upd change_accs].
  destruct (code_of_field (tc_code (cf_ind x))) eqn:Ec; [|reflexivity]. exfalso.
  injection N as <-. cbn [h_handle] in E. unfold handle_change_valid, set_valid_period in E.
  destruct (valid_from_taf _ _); [|discriminate E]. cbn [bind] in E. destruct (tc_code (cf_ind x)); discriminate.
Qed.

Lemma fm_blanked : forall g, starts_with (py "FM") (blanked g) = starts_with (py "FM") g.
Proof.
  assert (H : forall c d, d <> 32%N -> d <> 95%N -> N.eqb d (if N.eqb c 95 then 32%N else c) = N.eqb d c).
  { intros c d N1 N2. destruct (N.eqb_spec c 95) as [->|N3]; [|reflexivity].
    destruct (N.eqb_spec d 32); [congruence|]. destruct (N.eqb_spec d 95); congruence. }
  intros [|a [|b g]]; [reflexivity| |]; change (py "FM") with [70%N; 77%N]; unfold blanked; cbn [map starts_with]; rewrite !H by discriminate; reflexivity.
Qed.

Lemma change_mark_words : forall tr, rising tr -> below 11 tr ->
  fold_left (fun o p => mark_upd (fst p) o (snd p)) (of_field change_fld 0 tr) [] = change_mark tr.
Proof.
  intros tr R B. assert (G : spelled (of_field change_fld 0 tr) = given 0 2 tr) by exact (field_given change_table 5 0 0 2 tr eq_refl B).
  assert (Low : Forall (fun p => fst p < 2) (of_field change_fld 0 tr)).
  { unfold of_field. rewrite Forall_forall. intros q Hq. apply filter_In in Hq. destruct Hq as [Hq Hf]. apply Nat.eqb_eq in Hf.
    unfold below in B. rewrite Forall_forall in B. pose proof (table_field_ok change_table 5 0 0 2 eq_refl _ (B q Hq) Hf). lia. }
  destruct tr as [|[k g] tr]; [reflexivity|]. destruct (rising_tail _ _ R) as [R' L]. cbn [fst] in L. destruct k as [|k].
  - unfold change_mark. rewrite <- G. assert (Q : of_field change_fld 0 ((0, g) :: tr) = (0, g) :: of_field change_fld 0 tr) by reflexivity. rewrite Q in Low |- *. clear Q. cbn [fold_left fst snd mark_upd change_upd].
    assert (Lo : Forall (fun p => 1 <= fst p < 1 + 1) (of_field change_fld 0 tr)).
    { rewrite Forall_forall. intros q Hq. rewrite Forall_forall in Low. assert (fst q < 2) by exact (Low q (or_intror Hq)). unfold of_field in Hq. apply filter_In in Hq.
      rewrite Forall_forall in L. assert (0 < fst q) by exact (L q (proj1 Hq)). lia. }
    assert (Len : length (of_field change_fld 0 tr) <= 1) by exact (field_slots _ 1 1 (rising_filter _ tr R') Lo). clear G Low.
    destruct (of_field change_fld 0 tr) as [|[j h] [|q l]]; [| |cbn in Len; lia].
    + cbn [fold_left spelled map snd in_one join]. destruct (starts_with (py "FM") g); reflexivity.
    + inversion Lo as [|p0 l0 Lp _ E0]; subst. cbn [fst] in Lp. assert (j = 1) by lia. subst j.
      cbn [fold_left fst snd mark_upd change_upd spelled map in_one].
      destruct (starts_with (py "FM") g) eqn:S; [rewrite S; reflexivity|]. rewrite fm_blanked, S. rewrite join_cons by discriminate. reflexivity.
  - unfold change_mark.
    assert (Z : forall l, Forall (fun p => 1 <= fst p < 2) l -> fold_left (fun o p => mark_upd (fst p) o (snd p)) l [] = []).
    { induction l as [|[j h] l IH]; intro F; [reflexivity|]. inversion F as [|p0 l0 Fp F' E0]; subst. cbn [fst] in Fp. assert (j = 1) by lia. subst j.
      cbn [fold_left fst snd mark_upd]. exact (IH F'). }
    apply Z. rewrite Forall_forall in Low |- *. intros q Hq. assert (fst q < 2) by exact (Low q Hq). unfold of_field in Hq. apply filter_In in Hq. destruct Hq as [[<-|Hq] _].
    + cbn [fst] in *. lia.
    + rewrite Forall_forall in L. assert (S k < fst q) by exact (L q Hq). lia.
Qed.

Lemma change_words_given : forall code v p, change_fc_new code v = Ok p -> change_given p code.
Proof.
  intros code t p E. unfold change_fc_new in E. cbv zeta in E. unfold change_given, words_of_change, change_text. rewrite replace_blanked in E |- *.
  assert (C : exists c, common_new [] = Ok c /\ w_code (c_wind c) = None /\ v_code (c_vis c) = None
            /\ c_weathers c = gl_new 3 /\ gl_list (c_clouds c) = []).
  { eexists. split; [vm_compute; reflexivity|]. vm_compute. auto. }
  destruct C as (c & Ec & C1 & C2 & C3 & C4). rewrite Ec in E. cbn [bind taf_ind_new] in E.
  set (i := mk_tci (group_code None) None t) in E.
  assert (I1 : tc_code i = None) by reflexivity.
  set (p0 := mk_cf (Some (blanked code)) t c i []) in *.
  destruct (parse_section change_handlers _ p0) as [[p1 un]|] eqn:E1; [|discriminate E]. cbn [bind] in E.
  ending E.
  assert (Fr : cf_code p1 = cf_code p0 /\ cf_unparsed p1 = []).
  { apply (parse_section_inv _ (fun p => cf_code p = cf_code p0 /\ cf_unparsed p = [])) in E1; [exact E1| |auto].
    intros h m s s' I Eh [K1 K2]. unfold change_handlers in I. cbn [In] in I.
    repeat (destruct I as [<-|I]; [cbn [h_handle] in Eh|]); try contradiction;
      unfold handle_change_indicator, handle_change_valid, cf_lift in Eh; cbv zeta in Eh; binds Eh; ending Eh; cbn; auto. }
  destruct Fr as [Fr1 Fr2].
  destruct (section_given _ _ _ _ _ _ E1) as (tr & W & R & B & _ & K).
  specialize (K change_accs 5 change_fld mark_upd mark_slots (fun s => eq_refl)). cbn [length change_handlers] in B.
  assert (Z : forall f, nth f (change_accs p0) [] = []).
  { intro f. unfold change_accs, p0, code_of_list. cbn [cf_ind cf_common]. rewrite I1, C1, C2, C3, C4. do 6 (destruct f as [|f]; [reflexivity|]). reflexivity. }
  assert (G : forall f lo k, table_exact change_table f lo k = true -> spelled (of_field change_fld f tr) = given lo k tr)
    by (intros f lo k H; exact (field_given change_table 5 f lo k tr H B)).
  assert (One : forall f lo, f < 5 -> f = 1 \/ f = 2 -> table_field change_table f lo 1 = true -> table_exact change_table f lo 1 = true ->
            nth f (change_accs p1) [] = given lo 1 tr).
  { intros f lo L N H Hx. rewrite (K f L), Z, <- (G f lo 1 Hx). apply folded_one.
    - intros j g o Hf. unfold change_fld in Hf.
      do 11 (destruct j as [|j]; [cbn [change_table nth] in Hf; first [reflexivity|lia]|]).
      assert (f = 5); [|lia]. rewrite <- Hf. destruct j; reflexivity.
    - apply (field_most change_fld 11 f lo 1 tr); [|exact R|exact B]. intros j g L1. exact (table_field_ok change_table 5 f lo 1 H j L1). }
  assert (All : forall f lo k, f < 5 -> f = 3 \/ f = 4 -> table_exact change_table f lo k = true -> nth f (change_accs p1) [] = given lo k tr).
  { intros f lo k L N Hx. rewrite (K f L), Z, <- (G f lo k Hx). rewrite folded_all; [reflexivity|]. intros j g o Hf. unfold change_fld in Hf.
    do 11 (destruct j as [|j]; [cbn [change_table nth] in Hf; first [reflexivity|lia]|]).
    assert (f = 5); [|lia]. rewrite <- Hf. destruct j; reflexivity. }
  pose proof (K 0 ltac:(lia)) as K0. rewrite Z in K0. unfold folded in K0. rewrite (change_mark_words tr R B) in K0.
  split; [exact Fr1|]. exists tr. cbn [cf_code cf_ind cf_common cf_unparsed]. rewrite Fr2. cbn [app].
  split; [exact W|]. split; [exact K0|].
  split; [exact (One 1 2 ltac:(lia) ltac:(lia) eq_refl eq_refl)|]. split; [exact (One 2 3 ltac:(lia) ltac:(lia) eq_refl eq_refl)|].
  split; [exact (All 3 4 3 ltac:(lia) ltac:(lia) eq_refl)|exact (All 4 7 4 ltac:(lia) ltac:(lia) eq_refl)].
Qed.

Lemma same_given : forall l l' ws, Forall2 same_words l l' -> Forall2 change_given l' ws -> Forall2 change_given l ws.
Proof.
  intros l l' ws H. revert ws. induction H as [|p q l l' S H IH]; intros ws F; inversion F as [|q0 w l0 ws0 Fp F' E0 E1]; subst; [constructor|].
  constructor; [|exact (IH _ F')]. destruct S as (A & B & C & D). unfold change_given in *. rewrite A, B, C, D. exact Fp.
Qed.

Lemma changes_given : forall l x x' ws, handle_changes l x = Ok x' -> Forall2 change_given (gl_list (ta_changes x)) ws ->
  (forall t, forecast_given x t -> forecast_given x' t) /\ ta_unparsed x' = ta_unparsed x
  /\ gl_n (ta_changes x') = gl_n (ta_changes x)
  /\ Forall2 change_given (gl_list (ta_changes x')) (ws ++ filter nonempty_part l).
Proof.
  induction l as [|w l IH]; intros x x' ws E F; cbn [handle_changes] in E.
  - injection E as <-. cbn [filter]. rewrite app_nil_r. conjs; auto.
  - destruct w as [|c w]; [exact (IH _ _ _ E F)|]. unfold handle_change_forecasted in E.
    destruct (change_fc_new (c :: w) _) as [p|] eqn:C; [|discriminate E]. cbn [bind] in E. apply change_words_given in C.
    destruct (changes_add p (ta_changes x)) as [g|] eqn:G; [|discriminate E]. cbn [bind] in E.
    destruct (changes_same _ _ _ G) as (Gn & l0 & Gl & Gs).
    destruct (IH _ _ (ws ++ [c :: w]) E) as (B & U & N & K).
    { cbn [tout_string tupd_common tupd_changes ta_changes]. rewrite Gl. apply Forall2_app; [exact (same_given _ _ _ Gs F)|]. constructor; [exact C|constructor]. }
    cbn [tout_string tupd_common tupd_changes ta_changes ta_unparsed] in B, U, N, K.
    split; [intros t H; apply B; exact H|]. split; [exact U|].
    split; [rewrite N; exact Gn|]. rewrite <- app_assoc in K. exact K.
Qed.

Theorem taf_words_given : forall e code y mo tr x, taf_parse e code y mo tr = Ok x -> taf_given code x.
Proof.
  intros e code y mo tr x E. unfold taf_parse in E. destruct (report_raw_code code) as [raw|] eqn:Er; [|discriminate E]. cbn [bind] in E.
  assert (Rw : raw = normalise code) by (unfold report_raw_code in Er; destruct code; [discriminate Er|congruence]). subst raw.
  destruct (taf_init e (normalise code)) as [x0|] eqn:E0; [|discriminate E]. cbn [bind] in E.
  destruct (taf_fresh _ _ _ E0) as (F1 & F2 & F3 & F4 & _).
  assert (F5 : ta_body x0 = fst (taf_split (normalise code)) /\ ta_codes x0 = snd (taf_split (normalise code))).
  { unfold taf_init in E0. destruct (taf_split (normalise code)) as [bd cs]. binds E0. ending E0. split; reflexivity. }
  destruct F5 as [F5 F6]. clear E0.
  unfold taf_parse_body in E. destruct (parse_section (taf_handlers e y mo) _ x0) as [[x1 un]|] eqn:E1; [|discriminate E]. cbn [bind] in E.
  destruct (forecast_words_given _ _ _ _ _ _ F1 F2 E1) as (t & T & Bd).
  assert (K : ta_changes x1 = ta_changes x0 /\ ta_sections x1 = ta_sections x0 /\ ta_unparsed x1 = ta_unparsed x0 /\ ta_codes x1 = ta_codes x0).
  { apply (parse_section_inv _ (fun x => ta_changes x = ta_changes x0 /\ ta_sections x = ta_sections x0 /\ ta_unparsed x = ta_unparsed x0
      /\ ta_codes x = ta_codes x0)) in E1; [exact E1| |auto].
    intros h m s s' I Eh (K1 & K2 & K3 & K4). destruct (taf_frame _ _ _ _ _ _ _ I Eh) as (L1 & L2 & L3 & L4).
    rewrite L1, L2, L3, L4. auto. }
  destruct K as (K1 & K2 & K3 & K4). rewrite K3, F3 in E. cbn [app] in E.
  unfold parse_changes_forecasted in E. destruct (handle_changes _ _) as [x2|] eqn:E2; [|discriminate E]. cbn [bind] in E.
  destruct (changes_given _ _ _ [] E2) as (B & U & N & P). { cbn [ta_changes tupd_unparsed]. rewrite K1, F4. constructor. }
  cbn [ta_changes tupd_unparsed ta_sections ta_unparsed ta_codes app] in N, U, P.
  rewrite K1, F4 in N. cbn in N. rewrite (gl_collect_fresh _ N) in E. cbv zeta in E.
  set (x3 := tupd_unparsed _ _) in E.
  assert (X : x = x3) by (destruct (ta_unparsed x3); [congruence|]; destruct tr; [discriminate E|congruence]).
  rewrite X. unfold x3. clear X x3 E E1 E2.
  exists t, un. split; [unfold words_of_taf; rewrite <- F5; exact T|].
  split; [apply (B t); exact Bd|].
  cbn [ta_unparsed ta_changes tupd_unparsed tupd_changes]. rewrite U. split; [|reflexivity].
  rewrite K4, F6 in P. exact P.
Qed.
