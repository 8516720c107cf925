(** * The round trip of well-formed TAFs (C48) *)
From Coq Require Import String Ascii.
From Coq Require Import List NArith ZArith Bool Lia.
From Verif Require Import PyBase PyRegex AeroRegex PyFloat PyTime Utils Base MetarGroups Trend Metar Taf SpecNum SpecGroups SpecTime
  SpecText SpecTaf SpecWords SpecMetar SpecTafReport SymRegex TimeFacts StrFacts ProofLists ProofGroups ProofGroups2 ProofValues ProofTime
  TextFacts ProofText ProofSections ProofMerge ProofTafText ProofWords GroupShapes ProofSlots ProofMetar ProofMetarText
  ProofWx TafShapes ProofTafBody ProofTafChange ProofTafChain ProofClock.
Import ListNotations.
Local Open Scope string_scope.
Local Open Scope nat_scope.
Local Open Scope list_scope.

(** ** The words of the body *)

(** The groups after the time. *)
Definition taf_tail (g : taf_g) : list mtok :=
  MWord (stamp_code (h_day g) (h_hour g) (h_minute g))
  :: (if h_nil g then [MWord (py "NIL")] else [])
  ++ of_option (fun x => MWord (span_code x)) (h_valid g)
  ++ (if h_cnl g then [MWord (py "CNL")] else [])
  ++ wx_toks (h_body g)
  ++ map (fun x => MWord (ftemp_text x)) (h_temps g).

Lemma taf_toks_eq : forall g, taf_toks g = of_option (fun x => MWord (code_of x)) (h_modifier g) ++ MWord (h_station g) :: taf_tail g.
Proof. reflexivity. Qed.

Lemma stamp_facts : forall y mo g, taf_wf y mo g ->
  plain_word (stamp_code (h_day g) (h_hour g) (h_minute g)) /\ forallb is_digit (stamp_code (h_day g) (h_hour g) (h_minute g)) = false.
Proof.
  intros y mo g (_ & _ & _ & R & Hh & Hm & _). apply real_date_range in R. destruct R as (_ & R1 & R2).
  pose proof (days_in_month_range y mo R1). apply stamp_plain; lia.
Qed.

Lemma const_ordinary : forall w, ordinary_b (map (fun c => [c]) w) = true -> ordinary w.
Proof.
  intros w H. apply (ordinary_inst _ (map (fun c => [c]) w)); [|exact H].
  clear H. induction w as [|c w IH]; constructor; [left; reflexivity|exact IH].
Qed.
Lemma nil_ordinary : ordinary (py "NIL"). Proof. apply const_ordinary. vm_compute. reflexivity. Qed.
Lemma cnl_ordinary : ordinary (py "CNL"). Proof. apply const_ordinary. vm_compute. reflexivity. Qed.

Lemma tail_ordinary : forall y mo g, taf_wf y mo g -> Forall ordinary_tok_words (taf_tail g).
Proof.
  intros y mo g H. pose proof (stamp_facts y mo g H) as [S _].
  destruct H as (_ & _ & _ & _ & _ & _ & Hva & (Hwx & _) & (Hte & _) & _). unfold taf_tail.
  constructor; [apply ordinary_word_tok; apply S|].
  apply Forall_app. split; [|apply Forall_app; split; [|apply Forall_app; split; [|apply Forall_app; split]]].
  - destruct (h_nil g); constructor; [|constructor]. apply ordinary_word_tok. exact nil_ordinary.
  - apply (of_opt _ _ _ _ _ _ Hva). intros p Hp. apply ordinary_word_tok. apply (period_plain _ p Hp).
  - destruct (h_cnl g); constructor; [|constructor]. apply ordinary_word_tok. exact cnl_ordinary.
  - apply wx_ordinary. exact Hwx.
  - apply (of_list _ _ _ _ _ _ Hte). intros p Hp. apply ordinary_word_tok. apply (ftemp_plain _ p Hp).
Qed.

(** Words of the header: stations and AMD or COR. *)
Definition head_word (w : str) : Prop :=
  word w /\ ~ In 61%N w /\ ~ In 124%N w /\ ~ In 95%N w /\ forallb is_digit w = false /\ length w < 5.

Lemma station_head : forall s, station_wf s -> head_word s.
Proof.
  intros s H. destruct H as (a & b & c & d & E & Ha & Hb & Hc & Hd).
  assert (P : forall k, In k s -> In k alnum_sym).
  { intros k Hk. subst s. cbn [In] in Hk.
    destruct Hk as [<-|[<-|[<-|[<-|[]]]]]; apply alnum_in; [left; exact Ha|assumption|assumption|assumption]. }
  assert (F : forall f : N -> bool, forallb f alnum_sym = true -> Forall (fun k => f k = true) s).
  { intros f Hf. apply Forall_forall. intros k Hk. rewrite forallb_forall in Hf. apply Hf. apply P. exact Hk. }
  assert (N0 : forall k, has k alnum_sym = false -> ~ In k s).
  { intros k Hk K. apply P in K. rewrite has_in in Hk by exact K. discriminate. }
  unfold head_word, word. conjs.
  - subst s. discriminate.
  - eapply Forall_impl; [|apply (F (fun k => negb (is_space k))); vm_compute; reflexivity].
    intros k K1 K2. cbv beta in K1. unfold blank in K2. rewrite K2 in K1. discriminate.
  - apply N0. vm_compute. reflexivity.
  - apply N0. vm_compute. reflexivity.
  - apply N0. vm_compute. reflexivity.
  - subst s. cbn [forallb]. assert (K : is_digit a = false); [|rewrite K; reflexivity].
    destruct (is_digit a) eqn:K; [|reflexivity]. apply upper_in in Ha.
    assert (Q : forallb (fun k => negb (is_digit k)) upper_sym = true) by (vm_compute; reflexivity).
    rewrite forallb_forall in Q. apply Q in Ha. rewrite K in Ha. discriminate.
  - subst s. cbn. lia.
Qed.

Lemma modifier_head : forall w, In w taf_modifiers -> head_word (code_of w) /\ begins_any change_words (code_of w) = false.
Proof.
  intros w H. cbn in H. repeat (destruct H as [<-|H];
    [split; [unfold head_word, word; conjs; try discriminate; try reflexivity;
             try (repeat constructor; discriminate); try (cbn; lia); cbn; intuition discriminate|reflexivity]|]).
  destruct H.
Qed.

Lemma head_short : forall w p, head_word w -> 5 <= length p -> ends_with p w = false /\ starts_with p w = false.
Proof.
  intros w p (_ & _ & _ & _ & _ & L) Hp.
  assert (K : forall q v : str, length v < length q -> starts_with q v = false).
  { intros q v Lq. destruct (starts_with q v) eqn:E; [|reflexivity]. apply starts_with_app in E. destruct E as (u & ->).
    rewrite app_length in Lq. lia. }
  split; [unfold ends_with|]; apply K; rewrite ?rev_length; lia.
Qed.

(** ** The sections *)

Lemma stray_app : forall A B, no_stray_pair A -> no_stray_pair B ->
  (forall A' u, A = A' ++ [Plain u] -> ends_with (py "PROB30") u || ends_with (py "PROB40") u = false) -> no_stray_pair (A ++ B).
Proof.
  intros A B [A1 A2] [B1 B2] H. split; [apply Forall_app; auto|].
  intros X u v Y E. destruct (app_eq_app _ _ _ _ E) as (l & [[E1 E2]|[E1 E2]]).
  - destruct l as [|t l].
    + cbn [app] in E2. exact (B2 [] u v Y (eq_sym E2)).
    + cbn [app] in E2. injection E2 as <- E2. destruct l as [|t2 l].
      * rewrite (H X u E1). reflexivity.
      * injection E2 as <- E2. exact (A2 X u v l E1).
  - subst B. exact (B2 l u v Y eq_refl).
Qed.

Lemma stray_nil : no_stray_pair [].
Proof. split; [constructor|]. intros A u v B E. destruct A; discriminate. Qed.

Lemma change_last : forall s g A u, change_wf s g -> change_toks g = A ++ [Plain u] ->
  ends_with (py "PROB30") u || ends_with (py "PROB40") u = false.
Proof.
  intros s g A u H E. rewrite change_toks_eq in E. pose proof (after_words s g H) as W.
  assert (O : ordinary u -> ends_with (py "PROB30") u || ends_with (py "PROB40") u = false).
  { intros (_ & _ & _ & _ & _ & _ & _ & K1 & K2). rewrite K1, K2. reflexivity. }
  destruct A as [|t A].
  - cbn [app] in E. injection E as E1 E2. destruct H as (Hi & _). destruct (h_ind g) as [d h mi|k p] eqn:Ei.
    + cbn [ind_tok] in E1. injection E1 as <-. destruct Hi as (H1 & H2 & H3 & _).
      destruct (fm_quiet d h mi H1 H2 H3) as (_ & K1 & K2 & _). rewrite K1, K2. reflexivity.
    + exfalso. unfold after_ind in E2. rewrite Ei in E2. discriminate E2.
  - injection E as _ E. apply O. rewrite Forall_forall in W. apply W.
    assert (I : In (Plain u) (map Plain (flat_map m_words (after_ind g)))).
    { rewrite E. apply in_or_app. right. left. reflexivity. }
    apply in_map_iff in I. destruct I as (v & Ev & I). injection Ev as ->. exact I.
Qed.

Lemma changes_stray : forall s gs, Forall (change_wf s) gs -> no_stray_pair (concat (map change_toks gs)).
Proof.
  intros s gs H. induction H as [|g gs Hg H IH]; [apply stray_nil|]. cbn [map concat].
  apply stray_app; [exact (change_stray s g Hg)|exact IH|]. intros A u E. exact (change_last s g A u Hg E).
Qed.

Lemma chunks_open : forall t b l b' cs', opens t = true -> Forall (fun t => opens t = false) b -> chunks l = (b', cs') ->
  b' = [] -> chunks (t :: b ++ l) = ([], (t :: b) :: cs').
Proof.
  intros t b l b' cs' Ht Hb E ->. cbn [chunks].
  assert (K : chunks (b ++ l) = (b, cs')).
  { clear Ht. induction Hb as [|c b Hc Hb IH]; [exact E|]. cbn [app chunks]. rewrite IH, Hc. reflexivity. }
  rewrite K, Ht. reflexivity.
Qed.

Lemma ind_opens : forall i, opens (ind_tok i) = true.
Proof.
  intros [d h mi|[| |[|]|[|]] p]; try reflexivity.
Qed.

Lemma changes_chunks : forall s gs, Forall (change_wf s) gs -> chunks (concat (map change_toks gs)) = ([], map change_toks gs).
Proof.
  intros s gs H. induction H as [|g gs Hg H IH]; [reflexivity|]. cbn [map concat]. rewrite change_toks_eq. cbn [app].
  apply (chunks_open _ _ _ [] _); [apply ind_opens| |exact IH|reflexivity].
  apply Forall_map. eapply Forall_impl; [|exact (after_words s g Hg)]. intros w K. exact (ordinary_not_change w K).
Qed.

Lemma chunks_body : forall b l cs, Forall (fun t => opens t = false) b -> chunks l = ([], cs) -> chunks (b ++ l) = (b, cs).
Proof.
  intros b l cs Hb E. induction Hb as [|c b Hc Hb IH]; [exact E|]. cbn [app chunks]. rewrite IH, Hc. reflexivity.
Qed.

Lemma change_pairs : forall gs, length (filter is_pair (concat (map change_toks gs))) = length (filter is_joint gs).
Proof.
  assert (Z : forall ws, filter is_pair (map Plain ws) = []) by (intro ws; induction ws as [|w ws IH]; [reflexivity|exact IH]).
  induction gs as [|g gs IH]; [reflexivity|]. cbn [map concat]. rewrite change_toks_eq. cbn [app filter].
  rewrite filter_app, Z. cbn [app]. unfold is_joint at 1. destruct (h_ind g) as [d h mi|[| |n|n] p]; cbn [ind_tok kind_tok is_pair length];
    rewrite IH; reflexivity.
Qed.

Lemma plain_ct_words : forall ws, flat_map ct_words (map Plain ws) = ws.
Proof. induction ws as [|w ws IH]; [reflexivity|]. cbn [map flat_map ct_words app]. rewrite IH. reflexivity. Qed.

(** The first word after TAF and the others of the body. *)
Lemma body_first : forall y mo g, taf_wf y mo g ->
  exists w ws, flat_map m_words (taf_toks g) = w :: ws /\ head_word w /\ ws <> []
    /\ Forall (fun v => word v /\ ~ In 61%N v /\ ~ In 124%N v /\ ~ In 95%N v /\ begins_any change_words v = false
                 /\ ends_with (py "PROB30") v = false /\ ends_with (py "PROB40") v = false) ws
    /\ ordinary (last ws []).
Proof.
  intros y mo g H. pose proof (tail_ordinary y mo g H) as T.
  assert (W : Forall ordinary (flat_map m_words (taf_tail g))).
  { apply Forall_flat_map. eapply Forall_impl; [|exact T]. intros t K. apply K. }
  assert (Ne : flat_map m_words (taf_tail g) <> []) by discriminate.
  assert (L : ordinary (last (flat_map m_words (taf_tail g)) [])).
  { rewrite Forall_forall in W. apply W. destruct (exists_last Ne) as (l & x & ->). rewrite last_last. apply in_or_app. right. left. reflexivity. }
  assert (O : forall v, ordinary v -> word v /\ ~ In 61%N v /\ ~ In 124%N v /\ ~ In 95%N v /\ begins_any change_words v = false
                 /\ ends_with (py "PROB30") v = false /\ ends_with (py "PROB40") v = false).
  { intros v K. pose proof (ordinary_not_change v K) as K5. destruct K as (K1 & K2 & K3 & K4 & _ & _ & _ & K6 & K7). auto 9. }
  destruct H as (Hm & (Hs & Hc) & _). rewrite taf_toks_eq. destruct (h_modifier g) as [m|]; cbn [of_option app flat_map m_words].
  - cbn [opt_all] in Hm. exists (code_of m), (h_station g :: flat_map m_words (taf_tail g)).
    split; [reflexivity|]. split; [apply modifier_head; exact Hm|]. split; [discriminate|]. split.
    + constructor.
      * pose proof (station_head _ Hs) as K. destruct (head_short _ (py "PROB30") K) as [E1 _]; [cbn; lia|].
        destruct (head_short _ (py "PROB40") K) as [E2 _]; [cbn; lia|].
        destruct K as (K1 & K2 & K3 & K4 & _). specialize (Hc ltac:(discriminate)). auto 9.
      * eapply Forall_impl; [|exact W]. exact O.
    + destruct (flat_map m_words (taf_tail g)) as [|x l]; [congruence|]. rewrite last_cons2. exact L.
  - exists (h_station g), (flat_map m_words (taf_tail g)). split; [reflexivity|]. split; [apply station_head; exact Hs|].
    split; [exact Ne|]. split; [eapply Forall_impl; [exact O|exact W]|exact L].
Qed.

Lemma taf_wf_changes : forall y mo g, taf_wf y mo g -> exists s, Forall (change_wf s) (h_changes g).
Proof.
  intros y mo g (_ & _ & _ & _ & _ & _ & _ & _ & _ & _ & (_ & _ & K)). destruct (h_valid g) as [p|].
  - destruct K as (s & _ & K). eauto.
  - rewrite K. exists (issued y mo g). constructor.
Qed.

Lemma flat_concat : forall gs, flat_map change_text gs = flat_map ct_words (concat (map change_toks gs)).
Proof.
  induction gs as [|g gs IH]; [reflexivity|]. cbn [flat_map map concat]. rewrite flat_map_app, IH. reflexivity.
Qed.

Lemma last_map_joined : forall ws d, map ct_joined (map Plain ws) = ws -> ws <> [] -> last (map ct_joined (map Plain ws)) d = last ws [].
Proof.
  intros ws d -> H. destruct ws as [|x ws]; [congruence|]. apply last_default.
Qed.

Lemma taf_cut : forall y mo g, taf_wf y mo g ->
  taf_split (sentence (taf_words g))
  = (sentence (taf_body_words g), map (fun g => sentence (map ct_joined (change_toks g))) (h_changes g))
  /\ taf_sections (sentence (taf_body_words g)) (map (fun g => sentence (map ct_joined (change_toks g))) (h_changes g))
     = [sentence (taf_body_words g); sentence (flat_map change_text (h_changes g))].
Proof.
  intros y mo g H. destruct (body_first y mo g H) as (w & ws & E & Hw & Ne & Hws & Hl).
  destruct (taf_wf_changes y mo g H) as (s & Hc).
  assert (Lp : length (filter is_joint (h_changes g)) <= 5) by apply H.
  set (l := map Plain ws ++ concat (map change_toks (h_changes g))).
  assert (Eb : taf_body_words g = py "TAF" :: w :: flat_map ct_words (map Plain ws)).
  { unfold taf_body_words. cbn [flat_map m_words app]. rewrite E, plain_ct_words. reflexivity. }
  assert (Ew : taf_words g = py "TAF" :: w :: flat_map ct_words l).
  { unfold taf_words, l. rewrite Eb, flat_map_app, flat_concat. reflexivity. }
  destruct (taf_split_sections w l (map Plain ws) (map change_toks (h_changes g))) as (S1 & S2 & S3).
  - change (no_stray_pair ((Plain (py "TAF") :: Plain w :: map Plain ws) ++ concat (map change_toks (h_changes g)))).
    apply stray_app; [|exact (changes_stray s _ Hc)|].
    + change (no_stray_pair (Plain (py "TAF") :: map Plain (w :: ws))). apply stray_free.
      * split; [discriminate|repeat constructor; discriminate].
      * constructor; [apply Hw|]. eapply Forall_impl; [|exact Hws]. intros v K. apply K.
      * constructor; [apply head_short; [exact Hw|cbn; lia]|]. eapply Forall_impl; [|exact Hws].
        intros v (_ & _ & _ & _ & K & _). unfold begins_any, change_words in K. cbn [existsb] in K.
        apply orb_false_iff in K. destruct K as [_ K]. apply orb_false_iff in K. apply K.
    + intros A u Eu. assert (I : last ws [] = u).
      { assert (K : last (Plain (py "TAF") :: map Plain (w :: ws)) (Plain []) = Plain u).
        { change (Plain (py "TAF") :: map Plain (w :: ws)) with (Plain (py "TAF") :: Plain w :: map Plain ws). rewrite Eu. apply last_last. }
        change (Plain (py "TAF") :: map Plain (w :: ws)) with (map Plain ([py "TAF"; w] ++ ws)) in K.
        rewrite map_app, ProofWords.last_app in K by (destruct ws; [congruence|discriminate]).
        assert (Q : forall l, last (map Plain l) (Plain []) = Plain (last l [])).
        { clear. induction l as [|x l IH]; [reflexivity|]. destruct l; [reflexivity|]. cbn [map] in *. rewrite !last_cons2. exact IH. }
        rewrite Q in K. injection K as K. exact K. }
      subst u. destruct Hl as (_ & _ & _ & _ & _ & _ & _ & K1 & K2). rewrite K1, K2. reflexivity.
  - unfold l. rewrite filter_app, app_length, change_pairs.
    assert (Z : filter is_pair (map Plain ws) = []) by (clear; induction ws as [|w ws IH]; [reflexivity|exact IH]).
    rewrite Z. cbn [length]. lia.
  - constructor; [split; apply Hw|]. apply Forall_app. split.
    + apply Forall_map. eapply Forall_impl; [|exact Hws]. intros v K. split; apply K.
    + apply Forall_concat. apply Forall_map. eapply Forall_impl; [|exact Hc]. intros c K. apply (change_tok_facts s c K).
  - apply chunks_body; [|exact (changes_chunks s _ Hc)]. apply Forall_map. eapply Forall_impl; [|exact Hws]. intros v K. apply K.
  - intros _. split.
    + rewrite last_map_joined; [|apply plain_ct_joined|exact Ne]. apply Hl.
    + apply Forall_map. apply Forall_concat. apply Forall_map. eapply Forall_impl; [|exact Hc]. intros c K.
      eapply Forall_impl; [|apply (change_tok_facts s c K)]. intros [v|[|]] Kv; [apply Kv|reflexivity|reflexivity].
  - rewrite Ew. rewrite map_map in S2. split.
    + rewrite Eb. destruct (taf_split (sentence (py "TAF" :: w :: flat_map ct_words l))) as [a b]. cbn [fst snd] in *. congruence.
    + rewrite S1, S2 in S3. rewrite Eb, S3. f_equal. f_equal. rewrite flat_concat. reflexivity.
Qed.

(** ** The whole report *)

Lemma taf_body_groups : forall y mo g, taf_wf y mo g ->
  split_on 32%N (sanitize_visibility (sentence (taf_body_words g))) = taf_groups g.
Proof.
  intros y mo g H. unfold taf_body_words.
  pose proof (tail_ordinary y mo g H) as T. pose proof (stamp_facts y mo g H) as [S1 S2].
  destruct H as (Hm & (Hs & _) & _ & _ & _ & _ & Hva & (Hwx & _) & (Hte & _) & Hl & _).
  assert (F : Forall flat_tok (taf_toks g)).
  { rewrite taf_toks_eq. apply Forall_app. split.
    - apply (of_opt _ _ _ _ _ _ Hm). intros x Hx. apply modifier_head. exact Hx.
    - constructor; [apply station_head; exact Hs|]. eapply Forall_impl; [|exact T]. intros t K. apply K. }
  assert (W0 : word (py "TAF")) by (split; [discriminate|repeat constructor; discriminate]).
  set (P := of_option (fun x => MWord (code_of x)) (h_modifier g) ++ MWord (h_station g)
     :: MWord (stamp_code (h_day g) (h_hour g) (h_minute g)) :: (if h_nil g then [MWord (py "NIL")] else [])
     ++ of_option (fun x => MWord (span_code x)) (h_valid g) ++ (if h_cnl g then [MWord (py "CNL")] else [])).
  assert (Et : taf_toks g = P ++ wx_toks (h_body g) ++ map (fun x => MWord (ftemp_text x)) (h_temps g)).
  { unfold P. rewrite taf_toks_eq. unfold taf_tail. rewrite <- !app_assoc. cbn [app]. rewrite <- !app_assoc. reflexivity. }
  rewrite (vis_joined (py "TAF") (taf_toks g)).
  - rewrite split_sentence_ink; [|discriminate|].
    + cbn [map m_joined]. unfold taf_groups. f_equal. rewrite Et. unfold P. rewrite !map_app. cbn [map m_joined]. rewrite !map_app, map_map.
      assert (Z2 : forall A (f : A -> str) o, map m_joined (of_option (fun x => MWord (f x)) o) = of_option f o)
        by (intros A f [x|]; reflexivity).
      rewrite !Z2, (wx_joined _ Hwx), app_nil_r. rewrite <- !app_assoc. cbn [app]. rewrite <- !app_assoc.
      destruct (h_nil g), (h_cnl g); reflexivity.
    + apply joined_ink. constructor; [exact W0|]. eapply Forall_impl; [|exact F]. intros [v|two n a b|wy t] K; [exact K|exact I|destruct K].
  - exact W0.
  - exact F.
  - rewrite Et. apply wx_unmixed; [exact Hwx| |].
    + unfold P. apply Forall_app. split.
      * apply (of_opt _ _ _ _ _ _ Hm). intros x Hx. apply modifier_head. exact Hx.
      * constructor; [apply station_head; exact Hs|]. constructor; [exact S2|]. apply Forall_app.
        split; [destruct (h_nil g); repeat constructor|]. apply Forall_app. split; [|destruct (h_cnl g); repeat constructor].
        apply (of_opt _ _ _ _ _ _ Hva). intros p Hp. apply (period_plain _ p Hp).
    + apply (of_list _ _ _ _ _ _ Hte). intros p Hp. apply (ftemp_plain _ p Hp).
  - rewrite taf_toks_eq in Hl |- *. unfold taf_tail in *. destruct (h_modifier g); cbn [of_option app] in *;
      rewrite (last_default _ _ _ (MWord [])); exact Hl.
  - rewrite Et, !filter_app, !app_length. pose proof (wx_mixed (h_body g)).
    assert (Z : length (filter is_mixed (map (fun x => MWord (ftemp_text x)) (h_temps g))) = 0)
      by (clear; induction (h_temps g) as [|x l IH]; [reflexivity|exact IH]).
    assert (ZP : length (filter is_mixed P) = 0)
      by (unfold P; destruct (h_modifier g), (h_nil g), (h_valid g), (h_cnl g); reflexivity).
    lia.
Qed.

Lemma taf_init_fresh : forall e raw body codes, clock_wf e -> taf_split raw = (body, codes) ->
  exists x, taf_init e raw = Ok x /\ fresh_taf x /\ ta_unparsed x = [] /\ ta_changes x = gl_new 8 /\ ta_raw x = raw
    /\ ta_body x = body /\ ta_codes x = codes /\ ta_sections x = taf_sections body codes.
Proof.
  intros e raw body codes [C1 C2] E. unfold taf_init. rewrite E.
  destruct (OutReport.default_first e None None C1 C2) as (t & -> & Et). cbn [opt_default bind] in *. rewrite Et.
  destruct (common_calm []) as (c & -> & Hc). cbn [bind].
  destruct (first_valid (now_year e) (now_month e)) as (v & -> & Ev); [lia|lia|]. cbn [bind].
  eexists. split; [reflexivity|].
  unfold fresh_taf, no_modifier, nil_is, cnl_is. cbn [ta_modifier ta_missing ta_cancelled ta_valid ta_common ta_max ta_min ta_unparsed
    ta_changes ta_raw ta_body ta_codes ta_sections]. conjs; try reflexivity; try assumption. split; reflexivity.
Qed.

Lemma all_words : forall y mo g, taf_wf y mo g -> Forall (fun w => word w /\ ~ In 61%N w) (taf_words g).
Proof.
  intros y mo g H. destruct (body_first y mo g H) as (w & ws & E & Hw & _ & Hws & _).
  destruct (taf_wf_changes y mo g H) as (s & Hc). unfold taf_words, taf_body_words. cbn [flat_map m_words app]. rewrite E.
  constructor; [split; [split; [discriminate|repeat constructor; discriminate]|cbn; intuition discriminate]|].
  cbn [app]. constructor; [split; apply Hw|]. apply Forall_app. split.
  - eapply Forall_impl; [|exact Hws]. intros v K. split; apply K.
  - apply Forall_flat_map. eapply Forall_impl; [|exact Hc]. intros c K. unfold change_text. apply Forall_flat_map.
    eapply Forall_impl; [|apply (change_tok_facts s c K)]. intros [v|[|]] Kv; cbn [ct_words].
    + constructor; [split; apply Kv|constructor].
    + repeat constructor; try discriminate; cbn; intuition discriminate.
    + repeat constructor; try discriminate; cbn; intuition discriminate.
Qed.

Lemma changes_unparsed : forall s u gs cs, changes_are s u gs cs -> flat_map cf_unparsed cs = [].
Proof.
  intros s u. induction gs as [|g gs IH]; intros [|c cs] H; cbn [changes_are flat_map] in *; try (destruct H; fail); [reflexivity|].
  destruct H as ((_ & H1 & _) & _ & H3). rewrite H1, (IH cs H3). reflexivity.
Qed.

Lemma taf_round_trip : forall e y mo g tr code, clock_wf e -> taf_wf y mo g -> shows (taf_words g) code ->
  exists x, taf_parse e code (Some y) (Some mo) tr = Ok x
    /\ taf_holds y mo g x /\ ta_unparsed x = []
    /\ ta_raw x = sentence (taf_words g)
    /\ ta_sections x = [sentence (taf_body_words g); sentence (flat_map change_text (h_changes g))].
Proof.
  intros e y mo g tr code Hc Hg (a & t & q & b & -> & Ht & Ha & Hb & Hq).
  pose proof (all_words y mo g Hg) as AW.
  unfold taf_parse. rewrite (raw_layout (taf_words g)); [|exact Ht| | |exact Ha|exact Hb|exact Hq].
  2:{ eapply Forall_impl; [|exact AW]. intros w K. apply K. }
  2:{ eapply Forall_impl; [|exact AW]. intros w K. apply K. }
  cbn [bind]. destruct (taf_cut y mo g Hg) as [C1 C2].
  destruct (taf_init_fresh e _ _ _ Hc C1) as (x0 & E0 & F0 & U0 & G0 & R0 & B0 & K0 & S0). rewrite E0. cbn [bind].
  unfold taf_parse_body, parse_section. rewrite B0, (taf_body_groups y mo g Hg).
  destruct (taf_body e y mo g x0 Hg F0) as (x1 & E1 & H1 & U1 & G1 & K1 & S1 & R1 & _). rewrite E1. cbn [bind]. rewrite app_nil_r.
  set (x2 := tupd_unparsed (ta_unparsed x1) x1).
  unfold parse_changes_forecasted. change (ta_codes x2) with (ta_codes x1). rewrite K1, K0.
  assert (CH : exists x3, handle_changes (map (fun g => sentence (map ct_joined (change_toks g))) (h_changes g)) x2 = Ok x3
    /\ changes_are (t_dt (va_from (ta_valid x1))) (t_dt (va_until (ta_valid x1))) (h_changes g) (gl_list (ta_changes x3))
    /\ exists l, tupd_changes l (tbare x2) = tbare x3).
  { destruct H1 as (_ & _ & _ & _ & _ & Hv & _).
    pose proof Hg as (_ & _ & Y & Rd & Rh & Rm & Hpv & _ & _ & _ & (L1 & L2 & L3)).
    destruct (h_valid g) as [p|].
    - destruct Hv as (_ & V1 & V2). destruct L3 as (s & Fs & L3).
      assert (Es : t_dt (va_from (ta_valid x1)) = s) by exact (falls_fun _ _ _ _ _ V1 Fs).
      destruct Hpv as (_ & P2 & _ & _ & P5 & _).
      destruct (handle_changes_ok (ta_valid x1) (h_changes g) [] x2) as (x3 & X1 & X2 & X3).
      + eapply falls_real; [exact P5| |exact V1]. lia.
      + pose proof (falls_year _ _ _ _ V1) as K. unfold issued in K. cbn [dt_year] in K. lia.
      + reflexivity.
      + cbn [length]. lia.
      + change (ta_changes x2) with (ta_changes x1). rewrite G1, G0. reflexivity.
      + change (ta_changes x2) with (ta_changes x1). rewrite G1, G0. exact I.
      + rewrite Es. exact L3.
      + exists x3. auto.
    - rewrite L3. exists x2. split; [reflexivity|]. split.
      + change (ta_changes x2) with (ta_changes x1). rewrite G1, G0. exact I.
      + exists (ta_changes x2). unfold x2. destruct x1; reflexivity. }
  destruct CH as (x3 & E3 & H3 & l3 & B3). rewrite E3. cbn [bind].
  rewrite gl_collect_spec.
  assert (Un : flat_map cf_unparsed (skipn (gl_n (ta_changes x3)) (gl_list (ta_changes x3))) = []).
  { pose proof (changes_unparsed _ _ _ _ H3) as K. rewrite <- (firstn_skipn (gl_n (ta_changes x3)) (gl_list (ta_changes x3))) in K.
    rewrite flat_map_app in K. apply app_eq_nil in K. apply K. }
  rewrite Un, app_nil_r. cbn [ta_unparsed tupd_unparsed tupd_changes].
  assert (U3 : ta_unparsed x3 = []).
  { change (ta_unparsed x3) with (ta_unparsed (tbare x3)). rewrite <- B3. change (ta_unparsed x1 = []). rewrite U1. exact U0. }
  rewrite U3. cbn [ta_unparsed tupd_unparsed tupd_changes].
  eexists. split; [reflexivity|].
  match goal with |- taf_holds y mo g ?z /\ _ => set (x4 := z) end.
  assert (B4 : tbare x4 = tupd_changes (mk_gl 0 (gl_max (ta_changes x3)) (gl_list (ta_changes x3))) (tupd_unparsed [] (tbare x1))).
  { transitivity (tupd_unparsed [] (tupd_changes (mk_gl 0 (gl_max (ta_changes x3)) (gl_list (ta_changes x3))) (tbare x3))); [reflexivity|].
    rewrite <- B3. reflexivity. }
  change (taf_holds y mo g (tbare x4) /\ ta_unparsed (tbare x4) = [] /\ ta_raw (tbare x4) = sentence (taf_words g)
    /\ ta_sections (tbare x4) = [sentence (taf_body_words g); sentence (flat_map change_text (h_changes g))]).
  rewrite B4. conjs; [|reflexivity| |].
  - destruct H1 as (A1 & A2 & A3 & A4 & A5 & A6 & A7 & A8 & A9 & A10). unfold taf_holds.
    split; [exact A1|]. split; [exact A2|]. split; [exact A3|]. split; [exact A4|]. split; [exact A5|]. split; [exact A6|].
    split; [exact A7|]. split; [exact A8|]. split; [exact A9|]. split; [exact A10|exact H3].
  - change (ta_raw x1 = sentence (taf_words g)). rewrite R1. exact R0.
  - change (ta_sections x1 = [sentence (taf_body_words g); sentence (flat_map change_text (h_changes g))]).
    rewrite S1, S0. exact C2.
Qed.

Definition mistaken (s : string) (f : taf -> bool) : bool :=
  match taf_parse (mk_env 2024 1 [] []) (py s) (Some 2024%Z) (Some 1%Z) false with Ok x => f x | Raise _ => false end.
Lemma mistaken_at : forall s f, mistaken s f = true ->
  exists x, taf_parse (mk_env 2024 1 [] []) (py s) (Some 2024%Z) (Some 1%Z) false = Ok x /\ f x = true.
Proof.
  intros s f H. unfold mistaken in H. destruct (taf_parse (mk_env 2024 1 [] []) (py s) (Some 2024%Z) (Some 1%Z) false) as [x|]; [|discriminate].
  exists x. auto.
Qed.

Lemma taf_mistakes :
  (exists x, taf_parse (mk_env 2024 1 [] []) (py "TAF MROC 071130Z 0712/0812 18005KT MIFG") (Some 2024%Z) (Some 1%Z) false = Ok x
     /\ v_code (c_vis (ta_common x)) = Some (py "MIFG") /\ gl_list (c_weathers (ta_common x)) = [])
  /\ (exists x, taf_parse (mk_env 2024 1 [] []) (py "TAF MROC 071130Z 0712/0812 18005KT 2 1/2SM") (Some 2024%Z) (Some 1%Z) false = Ok x
     /\ map we_code (gl_list (c_weathers (ta_common x))) = [Some []])
  /\ taf_parse (mk_env 2024 1 [] []) (py "TAF AMD FMCH 071130Z 0712/0812 18005KT") (Some 2024%Z) (Some 1%Z) false = Raise AttributeError.
Proof.
  split; [|split].
  - destruct (mistaken_at "TAF MROC 071130Z 0712/0812 18005KT MIFG" (fun x =>
      match v_code (c_vis (ta_common x)), gl_list (c_weathers (ta_common x)) with Some v, [] => str_eqb v (py "MIFG") | _, _ => false end))
      as (x & E & H); [vm_compute; reflexivity|].
    exists x. split; [exact E|]. destruct (v_code (c_vis (ta_common x))) as [v|]; [|discriminate H].
    destruct (gl_list (c_weathers (ta_common x))); [|discriminate H]. apply str_eqb_eq in H. rewrite H. auto.
  - destruct (mistaken_at "TAF MROC 071130Z 0712/0812 18005KT 2 1/2SM" (fun x =>
      match map we_code (gl_list (c_weathers (ta_common x))) with [Some []] => true | _ => false end)) as (x & E & H); [vm_compute; reflexivity|].
    exists x. split; [exact E|]. destruct (map we_code (gl_list (c_weathers (ta_common x)))) as [|[[|c w]|] [|o l]]; try discriminate H. reflexivity.
  - vm_compute. reflexivity.
Qed.
