(** * Proofs: the trend section of a METAR is cut into its trends (C56) *)
From Coq Require Import String Ascii.
From Coq Require Import List NArith ZArith Bool Lia.
From Verif Require Import PyBase PyRegex AeroRegex PyFloat PyTime Utils Base MetarGroups Trend Metar Taf SpecNum SpecGroups SpecTime
  SpecText SpecTaf SpecWords SpecMetar SpecTafReport SpecTrend SymRegex TimeFacts StrFacts ProofGroups ProofGroups2 ProofValues
  ProofTime ProofText TextFacts ProofSections ProofTafText ProofWords GroupShapes ProofSlots Dispatch ProofFields ProofMetar
  ProofMetarText ProofWx TafShapes ProofTafChange ProofTrend.
Import ListNotations.
Local Open Scope string_scope.
Local Open Scope nat_scope.
Local Open Scope list_scope.

(** ** One cut *)

Lemma starts_stop : forall p b c t, ~ In c p -> starts_with p (b ++ c :: t) = starts_with p b.
Proof.
  intros p. induction p as [|d p IH]; intros b c t H; [reflexivity|]. destruct b as [|x b]; cbn [app starts_with].
  - destruct (N.eqb_spec d c) as [->|E]; [destruct H; left; reflexivity|reflexivity].
  - rewrite IH by (intro K; apply H; right; exact K). reflexivity.
Qed.

(** No word after a space begins with [kw]. *)
Definition clear_of (kw s : str) : Prop := forall a b, s = a ++ 32%N :: b -> starts_with kw b = false.

Lemma clear_join : forall kw A c B, ~ In c kw -> clear_of kw A -> clear_of kw B -> (c = 32%N -> starts_with kw B = false) ->
  clear_of kw (A ++ c :: B).
Proof.
  intros kw A c B Hc HA HB H1 a b E.
  assert (S : (exists b1, A = a ++ 32%N :: b1 /\ b = b1 ++ c :: B) \/ (c = 32%N /\ b = B) \/ exists a1, B = a1 ++ 32%N :: b).
  { clear - E. revert A E. induction a as [|x a IH]; intros A E.
    - destruct A as [|y A]; cbn [app] in E; injection E as E1 E2; [right; left; auto|].
      left. exists A. subst. auto.
    - destruct A as [|y A]; cbn [app] in E; injection E as E1 E2.
      + right. right. exists a. exact E2.
      + destruct (IH A E2) as [(b1 & -> & ->)|[K|K]]; [left; exists b1; subst; auto|right; left; exact K|right; right; exact K]. }
  destruct S as [(b1 & S1 & ->)|[[S1 ->]|(a1 & S1)]].
  - rewrite starts_stop by exact Hc. exact (HA a b1 S1).
  - exact (H1 S1).
  - exact (HB a1 b S1).
Qed.

Definition cut_at (kw s : str) : str :=
  re_sub (literal (add_space SpBoth kw)) (py "|" ++ lstrip (add_space SpBoth kw)) s (Some 1).

Lemma starts_more : forall p q b, starts_with p b = false -> starts_with (p ++ q) b = false.
Proof.
  intros p q b H. destruct (starts_with (p ++ q) b) eqn:E; [|reflexivity]. apply starts_with_app in E.
  destruct E as (t & E). rewrite E, <- app_assoc, starts_with_self in H. discriminate.
Qed.

Lemma clear_quiet : forall kw s t, clear_of kw (s ++ t) -> quiet (literal (add_space SpBoth kw)) s t.
Proof.
  intros kw s t H a c b E. rewrite mlen_literal by discriminate. unfold add_space. change (py " " ++ kw ++ py " ") with (32%N :: kw ++ [32%N]).
  cbn [starts_with]. destruct (N.eqb_spec 32 c) as [E1|E1]; [|reflexivity]. cbn [andb]. subst c.
  rewrite starts_more; [reflexivity|]. apply (H a). rewrite E, <- app_assoc. reflexivity.
Qed.

Lemma cut_none : forall kw s, clear_of kw s -> cut_at kw s = s.
Proof.
  intros kw s H. unfold cut_at. apply re_sub_id; [apply nobos_literal|rewrite mlen_literal by discriminate; reflexivity|].
  apply clear_quiet. rewrite app_nil_r. exact H.
Qed.

Lemma cut_here : forall kw A t, ~ In 32%N kw -> match kw with c :: _ => is_space c = false | [] => False end ->
  clear_of kw A -> cut_at kw (A ++ 32%N :: kw ++ 32%N :: t) = A ++ 124%N :: kw ++ 32%N :: t.
Proof.
  intros kw A t Hk Hs H. unfold cut_at.
  assert (L : lstrip (add_space SpBoth kw) = kw ++ [32%N]).
  { unfold add_space. change (py " " ++ kw ++ py " ") with (32%N :: kw ++ [32%N]). cbn [lstrip].
    change (is_space 32) with true. cbv iota. destruct kw as [|c kw]; [destruct Hs|]. apply lstrip_nospace. exact Hs. }
  rewrite L. replace (32%N :: kw ++ 32%N :: t) with (add_space SpBoth kw ++ t)
    by (unfold add_space; cbn [app]; change (py " ") with [32%N]; cbn [app]; rewrite <- app_assoc; reflexivity).
  rewrite re_sub_quiet; [|apply nobos_literal|].
  - rewrite re_sub_hit; [|apply nobos_literal|rewrite mlen_literal by discriminate; reflexivity|discriminate|discriminate|].
    + cbn [cnt_pred Nat.sub]. rewrite re_sub_zero. change (py "|") with [124%N]. cbn [app]. rewrite <- app_assoc. reflexivity.
    + rewrite mlen_literal by discriminate. rewrite starts_with_self. reflexivity.
  - intros a c b E. rewrite mlen_literal by discriminate. unfold add_space. change (py " " ++ kw ++ py " ") with (32%N :: kw ++ [32%N]).
    cbn [starts_with]. destruct (N.eqb_spec 32 c) as [E1|E1]; [|reflexivity]. cbn [andb]. subst c.
    rewrite starts_more; [reflexivity|]. cbn [app]. rewrite starts_stop by exact Hk. exact (H a b E).
Qed.

(** ** The trends *)

Lemma codes_eq : forall s, trend_codes s = split_on 124%N (cut_at (py "BECMG") (cut_at (py "TEMPO") s)).
Proof. reflexivity. Qed.

Definition marks (k : trend_kind) : list str := match k with TNosig => [] | TBecmg => [py "BECMG"] | TTempo => [py "TEMPO"] end.

Lemma clear_words : forall kw w ws, ~ In 32%N kw -> kw <> [] -> Forall (fun w => ~ In 32%N w) (w :: ws) ->
  Forall (fun w => starts_with kw w = false) ws -> clear_of kw (sentence (w :: ws)).
Proof.
  intros kw w ws Hk Hn H1 H2 a b E.
  assert (K : uncut [kw] (sentence (w :: ws))).
  { clear E. revert w H1. induction H2 as [|v ws Hv H2 IH]; intros w H1 a' b' E.
    - exfalso. apply (Forall_inv H1). change (sentence [w]) with w in E. rewrite E. apply in_or_app. right. left. reflexivity.
    - change (sentence (w :: v :: ws)) with (w ++ 32%N :: sentence (v :: ws)) in E.
      assert (C : clear_of kw (w ++ 32%N :: sentence (v :: ws))).
      { apply clear_join; [exact Hk| | |].
        - intros a2 b2 E2. exfalso. apply (Forall_inv H1). rewrite E2. apply in_or_app. right. left. reflexivity.
        - intros a2 b2 E2. pose proof (IH v (Forall_inv_tail H1) a2 b2 E2) as Q. unfold begins_any in Q. cbn [existsb] in Q.
          apply orb_false_iff in Q. apply Q.
        - intros _. destruct ws as [|v2 ws]; [exact Hv|]. change (sentence (v :: v2 :: ws)) with (v ++ 32%N :: sentence (v2 :: ws)).
          rewrite starts_stop by exact Hk. exact Hv. }
      unfold begins_any. cbn [existsb]. rewrite (C a' b' E). reflexivity. }
  specialize (K a b E). unfold begins_any in K. cbn [existsb] in K. apply orb_false_iff in K. apply K.
Qed.

Lemma trend_clear : forall t e g kw, In kw [py "TEMPO"; py "BECMG"] -> real_time t -> two_hours t e -> trend_wf t g ->
  clear_of kw (sentence (trend_text g)).
Proof.
  intros t e g kw Hk R Te H. rewrite text_eq.
  assert (K : ~ In 32%N kw /\ kw <> [] /\ In kw section_words).
  { destruct Hk as [<-|[<-|[]]]; (split; [cbn; intuition discriminate|split; [discriminate|cbn; auto]]). }
  destruct K as (K1 & K2 & K3). apply clear_words; [exact K1|exact K2| |].
  - constructor; [apply kind_facts|]. eapply Forall_impl; [|exact (rest_ok t e g R Te H)]. intros w [W _].
    apply inner_no32. exact W.
  - eapply Forall_impl; [|exact (rest_ok t e g R Te H)]. intros w [(_ & _ & _ & W) _]. unfold begins_any in W.
    destruct (starts_with kw w) eqn:E; [|reflexivity]. rewrite <- not_true_iff_false in W. destruct W.
    apply existsb_exists. exists kw. auto.
Qed.

Lemma trend_no124 : forall t e g, real_time t -> two_hours t e -> trend_wf t g -> ~ In 124%N (sentence (trend_text g)).
Proof.
  intros t e g R Te H. apply sentence_no; [discriminate|]. eapply Forall_impl; [|exact (text_words t e g R Te H)].
  intros w K. apply K.
Qed.

(** A trend that is not NOSIG shows its indicator and more words. *)
Lemma trend_open : forall t g, trend_wf t g -> n_kind g <> TNosig ->
  exists s, sentence (trend_text g) = kind_word g ++ 32%N :: s.
Proof.
  intros t g (_ & _ & _ & H) Hk. rewrite text_eq.
  assert (N : trend_toks g <> []) by (destruct (n_kind g); [congruence|exact H|exact H]).
  unfold rest_words. destruct (trend_toks g) as [|[v|two n a b|wy w] l]; [congruence| | |]; cbn [flat_map m_words app].
  - eexists. reflexivity.
  - eexists. reflexivity.
  - destruct w; eexists; reflexivity.
Qed.

Lemma codes_two : forall t e g1 g2, real_time t -> two_hours t e -> trend_wf t g1 -> trend_wf t g2 -> n_kind g2 <> TNosig ->
  trend_codes (sentence [sentence (trend_text g1); sentence (trend_text g2)])
  = [sentence (trend_text g1); sentence (trend_text g2)].
Proof.
  intros t e g1 g2 R Te H1 H2 Hk. set (A := sentence (trend_text g1)). set (B := sentence (trend_text g2)).
  assert (A1 : clear_of (py "TEMPO") A) by (apply (trend_clear t e); [left; reflexivity|assumption..]).
  assert (A2 : clear_of (py "BECMG") A) by (apply (trend_clear t e); [right; left; reflexivity|assumption..]).
  assert (B1 : clear_of (py "TEMPO") B) by (apply (trend_clear t e); [left; reflexivity|assumption..]).
  assert (B2 : clear_of (py "BECMG") B) by (apply (trend_clear t e); [right; left; reflexivity|assumption..]).
  assert (NA : ~ In 124%N A) by (apply (trend_no124 t e); assumption).
  assert (NB : ~ In 124%N B) by (apply (trend_no124 t e); assumption).
  destruct (trend_open t g2 H2 Hk) as (s & Es). fold B in Es.
  assert (G : cut_at (py "BECMG") (cut_at (py "TEMPO") (sentence [A; B])) = A ++ 124%N :: B).
  { change (sentence [A; B]) with (A ++ 32%N :: B). rewrite Es in *. unfold kind_word in *. clear Es.
    destruct (n_kind g2); [congruence| |].
    - rewrite (cut_none (py "TEMPO")).
      + apply cut_here; [cbn; intuition discriminate|reflexivity|exact A2].
      + apply clear_join; [cbn; intuition discriminate|exact A1|exact B1|]. intros _. reflexivity.
    - change (code_of (trend_name TTempo)) with (py "TEMPO") in *. rewrite cut_here; [|cbn; intuition discriminate|reflexivity|exact A1].
      apply cut_none. apply clear_join; [cbn; intuition discriminate|exact A2|exact B2|]. intro K. discriminate K. }
  rewrite codes_eq, G, split_on_app by exact NA. rewrite split_on_nosep by exact NB. reflexivity.
Qed.

Lemma codes_one : forall t e g, real_time t -> two_hours t e -> trend_wf t g ->
  trend_codes (sentence (trend_text g)) = [sentence (trend_text g)].
Proof.
  intros t e g R Te H. rewrite codes_eq, (cut_none (py "TEMPO")) by (apply (trend_clear t e); [left; reflexivity|assumption..]).
  rewrite cut_none by (apply (trend_clear t e); [right; left; reflexivity|assumption..]).
  apply split_on_nosep. apply (trend_no124 t e); assumption.
Qed.

(** The trends of a list, each as one text. *)
Definition texts (ts : list trend_g) : list str := map (fun g => sentence (trend_text g)) ts.

Lemma codes_all : forall t e ts, real_time t -> two_hours t e -> trends_wf t ts -> ts <> [] ->
  trend_codes (sentence (texts ts)) = texts ts.
Proof.
  intros t e ts R Te (H & L & K) Hn. destruct ts as [|g1 [|g2 [|]]]; [congruence| | |cbn [length] in L; lia]; cbn [texts map].
  - change (sentence [sentence (trend_text g1)]) with (sentence (trend_text g1)).
    apply (codes_one t e); [exact R|exact Te|exact (Forall_inv H)].
  - apply (codes_two t e); [exact R|exact Te|exact (Forall_inv H)|exact (Forall_inv (Forall_inv_tail H))|exact (Forall_inv K)].
Qed.

(** ** The sections of the report *)

Lemma trend_section_ok : forall t e ts, real_time t -> two_hours t e -> Forall (trend_wf t) ts ->
  Forall (uncut section_words) (texts ts) /\ Forall (fun p => begins_any trend_words p = true) (texts ts)
  /\ ~ In 124%N (sentence (texts ts)) /\ ~ blank (last (sentence (texts ts)) 0%N).
Proof.
  intros t e ts R Te H. conjs.
  - apply Forall_map. eapply Forall_impl; [|exact H]. intros g Hg. rewrite text_eq. apply uncut_sentence.
    + exact section_words_ok.
    + constructor; [apply kind_facts|]. eapply Forall_impl; [|exact (rest_ok t e g R Te Hg)]. intros w [W _].
      apply inner_no32. exact W.
    + eapply Forall_impl; [|exact (rest_ok t e g R Te Hg)]. intros w [W _]. apply W.
  - apply Forall_map. eapply Forall_impl; [|exact H]. intros g Hg. rewrite text_eq, begins_sentence by (apply keywords_ok; reflexivity).
    apply kind_facts.
  - apply sentence_no; [discriminate|]. apply Forall_map. eapply Forall_impl; [|exact H]. intros g Hg. exact (trend_no124 t e g R Te Hg).
  - destruct ts as [|g0 ts0] eqn:Et; [cbn; discriminate|]. rewrite <- Et in *.
    assert (En : texts ts = map sentence (map trend_text ts)) by (unfold texts; rewrite map_map; reflexivity).
    rewrite En, sentence_concat.
    2:{ apply Forall_map. apply Forall_forall. intros g _. rewrite text_eq. discriminate. }
    assert (W : Forall word (concat (map trend_text ts))).
    { apply Forall_concat. apply Forall_map. eapply Forall_impl; [|exact H]. intros g Hg.
      eapply Forall_impl; [|exact (text_words t e g R Te Hg)]. intros w K. apply K. }
    destruct (rev (concat (map trend_text ts))) as [|w l] eqn:Er.
    + exfalso. apply (f_equal (@rev str)) in Er. rewrite rev_involutive in Er. rewrite Et in Er. cbn [map concat] in Er.
      rewrite text_eq in Er. discriminate Er.
    + apply (f_equal (@rev str)) in Er. rewrite rev_involutive in Er. cbn [rev] in Er. rewrite Er in W |- *.
      apply Forall_app in W. destruct W as [_ W]. apply Forall_inv in W. destruct W as [Wn W].
      rewrite MergeFacts.sentence_pre. cbn [sentence join].
      destruct (rev w) as [|c u] eqn:Eu.
      * exfalso. apply Wn. apply (f_equal (@rev N)) in Eu. rewrite rev_involutive in Eu. exact Eu.
      * apply (f_equal (@rev N)) in Eu. rewrite rev_involutive in Eu. cbn [rev] in Eu. rewrite Eu, app_assoc, last_last.
        rewrite Eu in W. apply Forall_app in W. exact (Forall_inv (proj2 W)).
Qed.

Lemma trend_cut : forall t e w ws ts rmk, real_time t -> two_hours t e -> Forall inner (w :: ws) -> Forall (trend_wf t) ts ->
  remark_wf rmk ->
  metar_sections (sentence ((w :: ws) ++ flat_map trend_text ts ++ rmk))
  = [sentence (w :: ws); sentence (texts ts); sentence rmk].
Proof.
  intros t e w ws ts rmk R Te Hw Ht Hr. set (W := w :: ws) in *.
  assert (N32 : Forall (fun w => ~ In 32%N w) W) by (eapply Forall_impl; [|exact Hw]; intros v K; apply inner_no32; exact K).
  assert (U : uncut section_words (sentence W)).
  { apply uncut_sentence; [exact section_words_ok|exact N32|]. eapply Forall_impl; [|exact (Forall_inv_tail Hw)]. intros v K. apply K. }
  assert (B : begins_any section_words (sentence W) = false).
  { unfold W. rewrite begins_sentence by exact section_words_ok. apply (Forall_inv Hw). }
  assert (N124 : ~ In 124%N (sentence W)).
  { apply sentence_no; [discriminate|]. eapply Forall_impl; [|exact Hw]. intros v K. apply K. }
  destruct (trend_section_ok t e ts R Te Ht) as (T1 & T2 & T3 & T4).
  set (r := match rmk with [] => [] | _ => [sentence rmk] end).
  assert (Er : sentence rmk = sentence r) by (unfold r; destruct rmk; reflexivity).
  assert (Hr' : Forall (uncut section_words) r /\ Forall (fun p => starts_with (py "RMK") p = true) r
    /\ ~ In 124%N (sentence r) /\ length r <= 1).
  { rewrite <- Er. unfold r. destruct Hr as [->|(us & -> & Hu)].
    - conjs; [constructor|constructor|intros []|cbn; lia].
    - conjs.
      + constructor; [|constructor]. apply uncut_sentence; [exact section_words_ok| |].
        * constructor; [cbn; intuition discriminate|]. eapply Forall_impl; [|exact Hu]. intros v K. apply words_no32. apply K.
        * eapply Forall_impl; [|exact Hu]. intros v K. apply K.
      + constructor; [|constructor]. destruct us; reflexivity.
      + apply sentence_no; [discriminate|]. constructor; [cbn; intuition discriminate|]. eapply Forall_impl; [|exact Hu].
        intros v K. apply K.
      + cbn. lia. }
  destruct Hr' as (R1 & R2 & R3 & R4).
  assert (Es : sentence (W ++ flat_map trend_text ts ++ rmk) = sentence ([sentence W] ++ texts ts ++ r)).
  { assert (Q : [sentence W] ++ texts ts ++ r = map sentence ([W] ++ map trend_text ts ++ match rmk with [] => [] | _ => [rmk] end)).
    { unfold texts, r. rewrite !map_app, map_map. cbn [map]. destruct rmk; reflexivity. }
    rewrite Q, sentence_concat.
    - rewrite !concat_app. cbn [concat]. rewrite app_nil_r, <- flat_map_concat_map. destruct rmk; cbn [concat]; rewrite ?app_nil_r; reflexivity.
    - apply Forall_app. split; [constructor; [discriminate|constructor]|]. apply Forall_app. split.
      + apply Forall_map. apply Forall_forall. intros g _. rewrite text_eq. discriminate.
      + destruct rmk; constructor; [discriminate|constructor]. }
  rewrite Es, Er. change (sentence W) with (sentence [sentence W]) at 2. apply metar_sections_ordered.
  - cbn; lia.
  - exact R4.
  - discriminate.
  - apply Forall_app. split; [constructor; [exact U|constructor]|]. apply Forall_app. auto.
  - apply sentence_no; [discriminate|]. apply Forall_app. split; [constructor; [exact N124|constructor]|]. apply Forall_app. split.
    + apply Forall_map. eapply Forall_impl; [|exact Ht]. intros g Hg. exact (trend_no124 t e g R Te Hg).
    + rewrite <- Er in R3. unfold r. destruct rmk; constructor; [exact R3|constructor].
  - constructor; [exact B|constructor].
  - exact T2.
  - exact R2.
  - exact T4.
Qed.
