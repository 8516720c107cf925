(** * Sections of METAR reports *)
From Coq Require Import String Ascii.
From Coq Require Import List NArith ZArith Bool Lia Permutation.
From Verif Require Import PyBase PyRegex AeroRegex Utils Base MetarGroups Trend Metar
  StrFacts SpecText ProofText TextFacts.
Import ListNotations.
Open Scope list_scope.

Definition keyword_b (kw : str) : bool :=
  match kw with
  | [] => false
  | c :: _ => negb (is_space c) && forallb (fun c => negb (N.eqb c 32 || N.eqb c 124)) kw
  end.

Lemma keyword_b_ok : forall kw, keyword_b kw = true ->
  keyword kw /\ match kw with c :: _ => is_space c = false | [] => False end.
Proof.
  intros [|c kw] H; [discriminate|]. cbn [keyword_b] in H. apply andb_true_iff in H. destruct H as [H1 H2].
  rewrite forallb_forall in H2. split; [|apply negb_true_iff; exact H1]. split; [discriminate|].
  split; intro K; apply H2 in K; discriminate.
Qed.

Lemma keywords_ok : forall kws, forallb keyword_b kws = true ->
  Forall keyword kws /\ Forall (fun kw => keyword kw /\ match kw with c :: _ => is_space c = false | [] => False end) kws.
Proof.
  intros kws H. rewrite forallb_forall in H. split; apply Forall_forall; intros kw HI; apply keyword_b_ok; auto.
Qed.

Lemma section_words_ok : Forall keyword section_words.
Proof. apply keywords_ok. reflexivity. Qed.

Lemma metar_kws : [py "NOSIG"; py "TEMPO"; py "BECMG"; py "RMK"] = section_words.
Proof. reflexivity. Qed.

Lemma rmk_not_trend : forall p, starts_with (py "RMK") p = true -> is_trend_section p = false.
Proof.
  intros p H. apply starts_with_app in H. destruct H as (t & ->). reflexivity.
Qed.

Lemma is_trend_eq : forall p, is_trend_section p = begins_any trend_words p.
Proof.
  intro p. unfold is_trend_section, begins_any, trend_words. cbn [existsb].
  destruct (starts_with (py "NOSIG") p), (starts_with (py "TEMPO") p), (starts_with (py "BECMG") p); reflexivity.
Qed.

Lemma section_begins : forall p, begins_any section_words p = begins_any trend_words p || starts_with (py "RMK") p.
Proof.
  intro p. unfold section_words, begins_any. rewrite existsb_app. cbn [existsb]. rewrite orb_false_r. reflexivity.
Qed.

Lemma last_default : forall A (l : list A) x d d', last (l ++ [x]) d = last (l ++ [x]) d'.
Proof. intros A l x d d'. rewrite !last_last. reflexivity. Qed.

Lemma sort_sections_spec : forall l b t r, Forall (fun p => begins_any section_words p = true) l ->
  sort_sections l b t r
  = (b, t ++ flat_map (fun p => p ++ py " ") (trends_of l),
     last (filter (starts_with (py "RMK")) l) r).
Proof.
  intros l. induction l as [|p l IH]; intros b t r H.
  - cbn. rewrite app_nil_r. reflexivity.
  - inversion H as [|p0 l0 Hp Hl]; subst. cbn [sort_sections]. rewrite is_trend_eq.
    rewrite section_begins in Hp. unfold trends_of in *. cbn [filter].
    destruct (begins_any trend_words p) eqn:E.
    + rewrite IH by exact Hl. cbn [flat_map].
      destruct (starts_with (py "RMK") p) eqn:Er.
      * apply rmk_not_trend in Er. rewrite is_trend_eq in Er. congruence.
      * rewrite <- !app_assoc. reflexivity.
    + cbn [orb] in Hp. rewrite Hp. rewrite IH by exact Hl. f_equal.
      remember (filter (starts_with (py "RMK")) l) as m eqn:Em. clear.
      destruct m as [|q m]; [reflexivity|]. change (last (p :: q :: m) r) with (last (q :: m) r).
      revert q. induction m as [|y m IH]; intro q; [reflexivity|]. exact (IH y).
Qed.

Lemma strip_app_blanks : forall s b, blanks b -> strip (s ++ b) = strip s.
Proof.
  intros s b Hb. destruct (strip_split s) as (x & y & Hx & Hy & E & Ht).
  rewrite E at 1. rewrite <- !app_assoc. apply strip_pad; [exact Hx| |exact Ht].
  apply Forall_app. auto.
Qed.

Lemma flat_sentence : forall l, strip (flat_map (fun p => p ++ py " ") l) = strip (sentence l).
Proof.
  intros l. destruct l as [|p l]; [reflexivity|].
  assert (E : flat_map (fun p => p ++ py " ") (p :: l) = sentence (p :: l) ++ py " ").
  { revert p. induction l as [|q l IH]; intro p; [cbn; rewrite app_nil_r; reflexivity|].
    change (sentence (p :: q :: l)) with (p ++ py " " ++ sentence (q :: l)).
    rewrite <- !app_assoc, <- IH. cbn [flat_map]. rewrite <- !app_assoc. reflexivity. }
  rewrite E. apply strip_app_blanks. repeat constructor.
Qed.

Lemma trend_filter_hd : forall p ps, begins_any section_words p = false -> trends_of (p :: ps) = trends_of ps
  /\ filter (starts_with (py "RMK")) (p :: ps) = filter (starts_with (py "RMK")) ps.
Proof.
  intros p ps H. rewrite section_begins in H. apply orb_false_iff in H. destruct H as [H1 H2].
  unfold trends_of. cbn [filter]. rewrite H1, H2. auto.
Qed.

Lemma metar_sections_pieces : forall raw ps, ~ In 124%N raw -> pieces section_words raw ps ->
  metar_sections raw = [body_of ps; strip (sentence (trends_of ps)); last_remark ps].
Proof.
  intros raw ps Hn Hp. unfold metar_sections. rewrite metar_kws, split_left by (apply keywords_ok; reflexivity).
  rewrite (pieces_unique section_words raw ps section_words_ok Hn Hp).
  destruct Hp as (_ & Hne & _ & Hb). destruct ps as [|p ps]; [congruence|]. cbn [tl] in Hb.
  unfold last_remark, body_of. destruct (begins_any section_words p) eqn:E.
  - rewrite sort_sections_spec by (constructor; assumption). cbn [app]. rewrite flat_sentence. reflexivity.
  - assert (E2 := E). rewrite section_begins in E2. apply orb_false_iff in E2. destruct E2 as [E2 E3].
    cbn [sort_sections]. rewrite is_trend_eq, E2, E3. rewrite sort_sections_spec by exact Hb. cbn [app].
    rewrite flat_sentence. destruct (trend_filter_hd p ps E) as [-> ->]. reflexivity.
Qed.

Lemma metar_sections_spec : forall raw, ~ In 124%N raw ->
  exists ps, pieces section_words raw ps /\ (forall qs, pieces section_words raw qs -> qs = ps)
    /\ metar_sections raw = [body_of ps; strip (sentence (trends_of ps)); last_remark ps].
Proof.
  intros raw H. assert (P := mark_pieces section_words raw section_words_ok H).
  eexists. split; [exact P|]. split.
  - intros qs Q. symmetry. apply pieces_unique; auto using section_words_ok.
  - apply metar_sections_pieces; assumption.
Qed.

(** Reports written in order. *)
Lemma filter_all : forall A (f : A -> bool) l, Forall (fun x => f x = true) l -> filter f l = l.
Proof. intros A f l H. induction H as [|x l Hx H IH]; [reflexivity|]. cbn [filter]. rewrite Hx, IH. reflexivity. Qed.
Lemma filter_none : forall A (f : A -> bool) l, Forall (fun x => f x = false) l -> filter f l = [].
Proof. intros A f l H. induction H as [|x l Hx H IH]; [reflexivity|]. cbn [filter]. rewrite Hx, IH. reflexivity. Qed.

Lemma Forall_tl : forall A (P : A -> Prop) l, Forall P l -> Forall P (tl l).
Proof. intros A P l H. destruct H; [constructor|assumption]. Qed.

Lemma trend_starts : forall p, begins_any trend_words p = true -> starts_with (py "RMK") p = false.
Proof.
  intros p H. destruct (starts_with (py "RMK") p) eqn:E; [|reflexivity].
  apply rmk_not_trend in E. rewrite is_trend_eq in E. congruence.
Qed.

Lemma metar_sections_ordered : forall body trends rmk,
  length body <= 1 -> length rmk <= 1 -> body ++ trends ++ rmk <> [] ->
  Forall (uncut section_words) (body ++ trends ++ rmk) ->
  ~ In 124%N (sentence (body ++ trends ++ rmk)) ->
  Forall (fun p => begins_any section_words p = false) body ->
  Forall (fun p => begins_any trend_words p = true) trends ->
  Forall (fun p => starts_with (py "RMK") p = true) rmk ->
  ~ blank (last (sentence trends) 0%N) ->
  metar_sections (sentence (body ++ trends ++ rmk)) = [sentence body; sentence trends; sentence rmk].
Proof.
  intros body trends rmk L1 L2 Hne Hu Hbar Hb Ht Hr Hlast.
  assert (Ht' : Forall (fun p => begins_any section_words p = true) trends).
  { eapply Forall_impl; [|exact Ht]. intros p E. rewrite section_begins, E. reflexivity. }
  assert (Hr' : Forall (fun p => begins_any section_words p = true) rmk).
  { eapply Forall_impl; [|exact Hr]. intros p E. rewrite section_begins, E. apply orb_true_r. }
  assert (Hr'' : Forall (fun p => begins_any trend_words p = false) rmk).
  { eapply Forall_impl; [|exact Hr]. intros p E. cbv beta in *. apply rmk_not_trend in E. rewrite is_trend_eq in E. exact E. }
  assert (P : pieces section_words (sentence (body ++ trends ++ rmk)) (body ++ trends ++ rmk)).
  { split; [reflexivity|]. split; [exact Hne|]. split; [exact Hu|].
    destruct body as [|b [|b2 body]]; [|cbn [app tl]; apply Forall_app; auto|cbn [length] in L1; lia].
    cbn [app]. apply Forall_tl. apply Forall_app. auto. }
  rewrite (metar_sections_pieces _ _ Hbar P).
  assert (E1 : body_of (body ++ trends ++ rmk) = sentence body).
  { destruct body as [|b [|b2 body]]; [| |cbn [length] in L1; lia].
    - cbn [app]. assert (A : Forall (fun p => begins_any section_words p = true) (trends ++ rmk)) by (apply Forall_app; auto).
      destruct A as [|p l Hp A]; [reflexivity|]. cbn [body_of]. rewrite Hp. reflexivity.
    - cbn [app body_of]. inversion Hb as [|b0 l0 Hb0 _]; subst. rewrite Hb0. reflexivity. }
  assert (E2 : trends_of (body ++ trends ++ rmk) = trends).
  { unfold trends_of. rewrite !filter_app. rewrite (filter_none _ _ body).
    - rewrite (filter_all _ _ trends) by exact Ht. rewrite (filter_none _ _ rmk) by exact Hr''. apply app_nil_r.
    - eapply Forall_impl; [|exact Hb]. intros p E. cbv beta in *. rewrite section_begins in E. apply orb_false_iff in E. apply E. }
  assert (E3 : last_remark (body ++ trends ++ rmk) = sentence rmk).
  { unfold last_remark. rewrite !filter_app. rewrite (filter_none _ _ body), (filter_none _ _ trends), (filter_all _ _ rmk).
    - cbn [app]. destruct rmk as [|r [|r2 rmk]]; [reflexivity|reflexivity|cbn [length] in L2; lia].
    - exact Hr.
    - eapply Forall_impl; [|exact Ht]. exact trend_starts.
    - eapply Forall_impl; [|exact Hb]. intros p E. cbv beta in *. rewrite section_begins in E. apply orb_false_iff in E. apply E. }
  rewrite E1, E2, E3. do 2 f_equal. apply strip_trimmed. destruct (sentence trends) as [|c s] eqn:Es; [exact I|].
  split; [|apply not_blank; exact Hlast].
  destruct trends as [|t trends]; [discriminate|]. inversion Ht as [|t0 l0 Ht0 _]; subst.
  assert (B : exists kw u, In kw trend_words /\ t = kw ++ u).
  { unfold begins_any in Ht0. apply existsb_exists in Ht0. destruct Ht0 as (kw & HI & Hs).
    apply starts_with_app in Hs. destruct Hs as (u & ->). exists kw, u. auto. }
  destruct B as (kw & u & HI & ->).
  assert (Eh : hd 0%N (c :: s) = hd 0%N kw).
  { rewrite <- Es. destruct HI as [<-|[<-|[<-|[]]]]; destruct trends; reflexivity. }
  cbn [hd] in Eh. subst c. destruct HI as [<-|[<-|[<-|[]]]]; reflexivity.
Qed.

(** Nothing is lost when there is at most one remark. *)

Lemma trend_not_rmk : forall p, begins_any trend_words p = true -> starts_with (py "RMK") p = false.
Proof.
  intros p H. destruct p as [|c p]; [reflexivity|].
  destruct (N.eq_dec c 82) as [-> | E].
  - discriminate H.
  - cbn [starts_with py]. change (py "RMK") with [82; 77; 75]%N. cbn [starts_with].
    destruct (N.eqb_spec 82 c) as [F|F]; [congruence|reflexivity].
Qed.

Lemma sections_permuted : forall l, Forall (fun p => begins_any section_words p = true) l ->
  Permutation l (trends_of l ++ filter (starts_with (py "RMK")) l).
Proof.
  induction 1 as [|p l Hp H IH]; [constructor|].
  unfold trends_of in *. cbn [filter]. rewrite section_begins in Hp.
  destruct (begins_any trend_words p) eqn:E.
  - rewrite (trend_not_rmk p E). cbn [app]. constructor. exact IH.
  - cbn [orb] in Hp. rewrite Hp. apply Permutation_cons_app. exact IH.
Qed.

Lemma metar_sections_all : forall raw ps, ~ In 124%N raw -> pieces section_words raw ps ->
  length (filter (starts_with (py "RMK")) ps) <= 1 ->
  exists body rmk, length body <= 1 /\ length rmk <= 1 /\ Permutation ps (body ++ trends_of ps ++ rmk)
    /\ metar_sections raw = [sentence body; strip (sentence (trends_of ps)); sentence rmk].
Proof.
  intros raw ps Hb HP L. assert (E := metar_sections_pieces raw ps Hb HP).
  destruct HP as (_ & Hne & _ & Ht). destruct ps as [|p ps]; [congruence|]. cbn [tl] in Ht.
  assert (R : last_remark (p :: ps) = sentence (filter (starts_with (py "RMK")) (p :: ps))).
  { unfold last_remark. revert L. generalize (filter (starts_with (py "RMK")) (p :: ps)). intros [|a [|b l]] L.
    - reflexivity. - reflexivity. - cbn [length] in L. lia. }
  exists (if begins_any section_words p then [] else [p]), (filter (starts_with (py "RMK")) (p :: ps)).
  split; [destruct (begins_any section_words p); cbn [length]; lia|]. split; [exact L|]. split.
  - destruct (begins_any section_words p) eqn:K.
    + apply (sections_permuted (p :: ps)). constructor; assumption.
    + unfold trends_of. cbn [filter app]. rewrite section_begins in K. apply orb_false_iff in K. destruct K as [-> ->].
      constructor. apply sections_permuted. exact Ht.
  - rewrite E, R. unfold body_of. destruct (begins_any section_words p); reflexivity.
Qed.
