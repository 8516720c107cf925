(** * Proofs: how many trends and changes a report has (C45, C46) *)
From Coq Require Import String Ascii.
From Coq Require Import List NArith ZArith Bool Lia.
From Verif Require Import PyBase PyRegex AeroRegex PyFloat PyTime Utils Base MetarGroups Trend Metar Taf SpecText SpecApart SpecCounts SpecKept
  StrFacts TextFacts ProofText ProofLists ProofValues ProofProb ProofSections ProofMerge ProofMetarText ProofTafText ProofTrendCut ProofAbsent ProofKeptText
  ProofKept ProofKeptReport ProofKeptMetar ProofKeptTaf ProofApart.
Import ListNotations.
Local Open Scope string_scope.
Local Open Scope nat_scope.
Local Open Scope list_scope.

(** ** The cut of words *)

Lemma inner_some : forall k l a b, cut_rest k l = Some (a, b) -> l = a ++ k :: b /\ ~ In k a /\ b <> [].
Proof.
  intros k. induction l as [|w l IH]; intros a b E; [discriminate E|]. cbn [cut_rest] in E. destruct l as [|v l]; [discriminate E|].
  destruct (str_eqb w k) eqn:S.
  - apply str_eqb_eq in S. injection E as <- <-. subst w. split; [reflexivity|]. split; [intros []|discriminate].
  - destruct (cut_rest k (v :: l)) as [[a' b']|] eqn:I; [|discriminate E]. injection E as <- <-. destruct (IH _ _ eq_refl) as (-> & N & B).
    split; [reflexivity|]. split; [|exact B]. intros [K|K]; [|exact (N K)]. subst w. rewrite (proj2 (str_eqb_eq k k) eq_refl) in S. discriminate S.
Qed.
Lemma inner_none : forall k l a b, cut_rest k l = None -> l = a ++ k :: b -> b = [].
Proof.
  intros k. induction l as [|w l IH]; intros a b E L; [destruct a; discriminate L|]. cbn [cut_rest] in E. destruct l as [|v l].
  - destruct a as [|x a]; cbn [app] in L; injection L; [intros <- _; reflexivity|]. intros Q _. destruct a; discriminate Q.
  - destruct (str_eqb w k) eqn:S; [discriminate E|]. destruct (cut_rest k (v :: l)) as [[]|] eqn:I; [discriminate E|].
    destruct a as [|x a]; cbn [app] in L; injection L.
    + intros _ ->. rewrite (proj2 (str_eqb_eq k k) eq_refl) in S. discriminate S.
    + intros Q _. exact (IH _ _ eq_refl Q).
Qed.

Definition spaceless (w : str) : Prop := ~ In 32%N w.

(** No [k] between spaces. *)
Lemma clear_inner : forall k l w, spaceless k -> Forall spaceless (w :: l) -> (forall a b, l = a ++ k :: b -> b = []) ->
  clear_of (k ++ [32%N]) (sentence (w :: l)).
Proof.
  intros k l. induction l as [|v l IH]; intros w K W H.
  - intros a b E. exfalso. change (sentence [w]) with w in E. apply (Forall_inv W). rewrite E. apply in_or_app. right. left. reflexivity.
  - assert (I : clear_of (k ++ [32%N]) (sentence (v :: l))).
    { apply IH; [exact K|exact (Forall_inv_tail W)|]. intros a b E. apply (H (v :: a)). rewrite E. reflexivity. }
    change (sentence (w :: v :: l)) with (w ++ 32%N :: sentence (v :: l)). intros a b E.
    assert (F : starts_with (k ++ [32%N]) (sentence (v :: l)) = false).
    { destruct (starts_with (k ++ [32%N]) (sentence (v :: l))) eqn:S; [|reflexivity]. exfalso. apply starts_with_app in S. destruct S as (r & S).
      rewrite <- app_assoc in S. cbn [app] in S. pose proof (Forall_inv (Forall_inv_tail W)) as V. cbn beta in V. unfold spaceless in *.
      destruct l as [|u l].
      - change (sentence [v]) with v in S. apply V. rewrite S. apply in_or_app. right. left. reflexivity.
      - change (sentence (v :: u :: l)) with (v ++ 32%N :: sentence (u :: l)) in S.
        assert (Q : v = k).
        { clear - S V K. revert k S K. induction v as [|c v IHv]; intros [|d k] S K; cbn [app] in S; injection S.
          - reflexivity.
          - intros _ <-. exfalso. apply K. left. reflexivity.
          - intros _ ->. exfalso. apply V. left. reflexivity.
          - intros S' ->. f_equal. apply IHv; [|exact S'|]; intros I; [apply V|apply K]; right; exact I. }
        subst v. specialize (H [] (u :: l) eq_refl). discriminate H. }
    pose proof (Forall_inv W) as W0. cbn beta in W0. clear - E F I W0. revert w W0 E. induction a as [|x a IHa]; intros w W0 E.
    + destruct w as [|c w]; cbn [app] in E; injection E; [intros <-; exact F|]. intros _ ->. exfalso. apply W0. left. reflexivity.
    + destruct w as [|c w]; cbn [app] in E; injection E; intros E1 E2.
      * exact (I a b E1).
      * apply (IHa w); [intros J; apply W0; right; exact J|exact E1].
Qed.

Lemma sentence_space : forall w l, sentence (w :: l) ++ [32%N] = sentence (w :: l ++ [[]]).
Proof.
  intros w l. revert w. induction l as [|v l IH]; intros w; [reflexivity|].
  change (sentence (w :: v :: l)) with (w ++ 32%N :: sentence (v :: l)).
  change (sentence (w :: (v :: l) ++ [[]])) with (w ++ 32%N :: sentence (v :: l ++ [[]])). rewrite <- IH, <- app_assoc. reflexivity.
Qed.

Lemma clear_out : forall k l w, spaceless k -> k <> [] -> Forall spaceless (w :: l) -> ~ In k l ->
  clear_of (k ++ [32%N]) (sentence (w :: l) ++ [32%N]).
Proof.
  intros k l w K N W H. rewrite sentence_space. apply clear_inner; [exact K| |].
  - constructor; [exact (Forall_inv W)|]. apply Forall_app. split; [exact (Forall_inv_tail W)|]. constructor; [intros []|constructor].
  - intros a b E. destruct b as [|u b]; [reflexivity|]. exfalso. apply H.
    assert (Z : exists b', l = a ++ k :: b').
    { clear - E. revert a E. induction l as [|v l IH]; intros a E; cbn [app] in E.
      - destruct a as [|x a]; cbn [app] in E; injection E; [intros Q; discriminate Q|]. intros Q _. destruct a; discriminate Q.
      - destruct a as [|x a]; cbn [app] in E; injection E; intros E1 E2.
        + subst v. exists l. reflexivity.
        + destruct (IH _ E1) as (b' & ->). exists b'. subst v. reflexivity. }
    destruct Z as (b' & ->). apply in_or_app. right. left. reflexivity.
Qed.

(** ** The cut of text *)

Lemma cut_none2 : forall kw s, clear_of (kw ++ [32%N]) s -> cut_at kw s = s.
Proof.
  intros kw s H. unfold cut_at. apply re_sub_id; [apply nobos_literal|rewrite mlen_literal by discriminate; reflexivity|].
  intros a c b E. rewrite mlen_literal by discriminate. unfold add_space. change (py " " ++ kw ++ py " ") with (32%N :: kw ++ [32%N]).
  cbn [starts_with]. destruct (N.eqb_spec 32 c) as [E1|E1]; [|reflexivity]. cbn [andb]. subst c.
  rewrite app_nil_r, (H a b E). reflexivity.
Qed.

Lemma starts_stop2 : forall kw b r, spaceless kw -> starts_with (kw ++ [32%N]) (b ++ 32%N :: r) = starts_with (kw ++ [32%N]) (b ++ [32%N]).
Proof.
  intros kw. induction kw as [|d kw IH]; intros b r K.
  - destruct b as [|x b]; [reflexivity|]. cbn [app starts_with]. reflexivity.
  - destruct b as [|x b]; cbn [app starts_with].
    + destruct (N.eqb_spec d 32) as [->|E]; [exfalso; apply K; left; reflexivity|reflexivity].
    + rewrite (IH b r); [reflexivity|]. intros I. apply K. right. exact I.
Qed.

Lemma cut_here2 : forall kw A t, spaceless kw -> match kw with c :: _ => is_space c = false | [] => False end ->
  clear_of (kw ++ [32%N]) (A ++ [32%N]) -> cut_at kw (A ++ 32%N :: kw ++ 32%N :: t) = A ++ 124%N :: kw ++ 32%N :: t.
Proof.
  intros kw A t Hk Hs H. unfold cut_at.
  assert (L : lstrip (add_space SpBoth kw) = kw ++ [32%N]).
  { unfold add_space. change (py " " ++ kw ++ py " ") with (32%N :: kw ++ [32%N]). cbn [lstrip].
    change (is_space 32) with true. cbv iota. destruct kw as [|c kw]; [destruct Hs|]. apply lstrip_nospace. exact Hs. }
  rewrite L. replace (32%N :: kw ++ 32%N :: t) with (add_space SpBoth kw ++ t)
    by (unfold add_space; cbn [app]; change (py " ") with [32%N]; cbn [app]; rewrite <- app_assoc; reflexivity).
  rewrite re_sub_quiet; [|apply nobos_literal|].
  - rewrite re_sub_hit; [|apply nobos_literal|rewrite mlen_literal by discriminate; reflexivity|discriminate|discriminate|].
    + cbn [cnt_pred Nat.sub]. rewrite re_sub_zero. change (py "|") with [124%N]. cbn [app]. rewrite <- app_assoc. reflexivity.
    + rewrite mlen_literal by discriminate. rewrite starts_with_self. reflexivity.
  - intros a c b E. rewrite mlen_literal by discriminate. unfold add_space. change (py " " ++ kw ++ py " ") with (32%N :: kw ++ [32%N]).
    cbn [starts_with]. destruct (N.eqb_spec 32 c) as [E1|E1]; [|reflexivity]. cbn [andb]. subst c.
    assert (Q : starts_with (kw ++ [32%N]) (b ++ [32%N]) = false).
    { apply (H a). rewrite E, <- app_assoc. reflexivity. }
    cbn [app]. rewrite (starts_stop2 kw b) by exact Hk. rewrite Q. reflexivity.
Qed.

(** ** The trends of a trend section *)

Definition kw_ok (k : str) : Prop := spaceless k /\ k <> [] /\ match k with c :: _ => is_space c = false | [] => False end.
Lemma tempo_ok : kw_ok (py "TEMPO").
Proof. split; [unfold spaceless; cbn; intuition discriminate|]. split; [discriminate|reflexivity]. Qed.
Lemma becmg_ok : kw_ok (py "BECMG").
Proof. split; [unfold spaceless; cbn; intuition discriminate|]. split; [discriminate|reflexivity]. Qed.

Lemma cut_some : forall k ws a b, kw_ok k -> Forall spaceless ws -> cut_before k ws = Some (a, b) ->
  ws = a ++ b /\ (exists b', b = k :: b' /\ b' <> [])
  /\ exists w l, a = w :: l /\ ~ In k l.
Proof.
  intros k ws a b K W E. destruct ws as [|w l]; [discriminate E|]. cbn [cut_before] in E.
  destruct (cut_rest k l) as [[a' b']|] eqn:I; [|discriminate E]. injection E as <- <-. apply inner_some in I. destruct I as (-> & N & B).
  split; [reflexivity|]. split; [exists b'; auto|]. exists w, a'. auto.
Qed.

Lemma cut_clear : forall k ws, kw_ok k -> ws <> [] -> Forall spaceless ws -> cut_before k ws = None -> clear_of (k ++ [32%N]) (sentence ws).
Proof.
  intros k ws K N W E. destruct ws as [|w l]; [contradiction|]. cbn [cut_before] in E.
  destruct (cut_rest k l) as [[a' b']|] eqn:I; [discriminate E|]. apply clear_inner; [apply K|exact W|].
  intros a b L. exact (inner_none _ _ _ _ I L).
Qed.

Lemma cut_word : forall k a b pre, kw_ok k -> Forall spaceless (a ++ b) -> cut_before k (a ++ b) = Some (a, b) -> 
  clear_of (k ++ [32%N]) (pre ++ sentence a ++ [32%N]) -> forall t, 
  cut_at k (pre ++ sentence (a ++ b) ++ t) = pre ++ sentence a ++ 124%N :: sentence b ++ t.
Proof.
  intros k a b pre K W E C t. destruct (cut_some _ _ _ _ K W E) as (_ & (b' & -> & B) & (w & l & -> & _)).
  rewrite sentence_app by discriminate.
  assert (S : sentence (k :: b') = k ++ 32%N :: sentence b') by (destruct b'; [contradiction|reflexivity]). rewrite S.
  replace (pre ++ (sentence (w :: l) ++ 32%N :: k ++ 32%N :: sentence b') ++ t)
    with ((pre ++ sentence (w :: l)) ++ 32%N :: k ++ 32%N :: (sentence b' ++ t)) by (rewrite <- ?app_assoc; cbn [app]; rewrite <- ?app_assoc; reflexivity).
  rewrite cut_here2; [|apply K|apply K|rewrite <- app_assoc; exact C].
  rewrite <- ?app_assoc. cbn [app]. rewrite <- ?app_assoc. reflexivity.
Qed.

Lemma cut_word0 : forall k ws a b t, kw_ok k -> Forall spaceless ws -> cut_before k ws = Some (a, b) ->
  cut_at k (sentence ws ++ t) = sentence a ++ 124%N :: sentence b ++ t.
Proof.
  intros k ws a b t K W E. destruct (cut_some _ _ _ _ K W E) as (-> & _ & (w & l & Ea & N)).
  apply (cut_word k a b [] K W E). cbn [app]. rewrite Ea in *. apply clear_out; [apply K|apply K| |exact N].
  change ((w :: l) ++ b) with ((w :: l) ++ b) in W. apply Forall_app in W. apply W.
Qed.

Lemma barless_words : forall ws, Forall (fun w => ~ In 124%N w) ws -> ~ In 124%N (sentence ws).
Proof. intros ws H. apply sentence_no; [discriminate|exact H]. Qed.

Lemma codes_pieces : forall ts, ts <> [] -> Forall spaceless ts -> Forall (fun w => ~ In 124%N w) ts ->
  trend_codes (sentence ts) = map sentence (trend_pieces ts).
Proof.
  intros ts N W B. rewrite codes_eq. unfold trend_pieces.
  pose proof tempo_ok as KT. pose proof becmg_ok as KB.
  assert (Sp : forall a b : str, ~ In 124%N a -> split_on 124%N (a ++ 124%N :: b) = a :: split_on 124%N b)
    by (intros a b Ha; apply split_on_app; exact Ha).
  assert (S1 : forall a : str, ~ In 124%N a -> split_on 124%N a = [a]) by (intros a Ha; apply split_on_nosep; exact Ha).
  assert (Q : forall l, Forall (fun w => ~ In 124%N w) l -> ~ In 124%N (sentence l)) by exact barless_words.
  destruct (cut_before (py "TEMPO") ts) as [[a b]|] eqn:E1.
  - pose proof (cut_word0 _ _ _ _ [] KT W E1) as C. rewrite !app_nil_r in C. rewrite C. clear C.
    destruct (cut_some _ _ _ _ KT W E1) as (-> & (b' & Eb & _) & (w & l & Ea & _)). apply Forall_app in W. destruct W as [Wa Wb].
    apply Forall_app in B. destruct B as [Ba Bb].
    destruct (cut_before (py "BECMG") a) as [[a1 a2]|] eqn:E2.
    + rewrite (cut_word0 _ _ _ _ (124%N :: sentence b) KB Wa E2).
      destruct (cut_some _ _ _ _ KB Wa E2) as (-> & _ & _). apply Forall_app in Ba. destruct Ba as [B1 B2].
      rewrite !Sp, S1 by (apply Q; assumption). reflexivity.
    + assert (Ca : clear_of (py "BECMG" ++ [32%N]) (sentence a)) by (apply cut_clear; [exact KB|rewrite Ea; discriminate|exact Wa|exact E2]).
      assert (M : ~ In 124%N (py "BECMG" ++ [32%N])) by (cbn; intuition discriminate).
      destruct (cut_before (py "BECMG") b) as [[b1 b2]|] eqn:E3.
      * destruct (cut_some _ _ _ _ KB Wb E3) as (Eq & _ & (v & m & E4 & N4)). rewrite Eq in *. apply Forall_app in Bb. destruct Bb as [B1 B2].
        pose proof (cut_word (py "BECMG") b1 b2 (sentence a ++ [124%N]) KB Wb E3) as C. 
        rewrite <- !app_assoc in C. specialize (C ltac:(apply clear_join; [exact M|exact Ca| |discriminate];
          rewrite E4 in *; apply clear_out; [apply KB|apply KB|apply Forall_app in Wb; apply Wb|exact N4]) []).
        rewrite !app_nil_r, <- !app_assoc in C. cbn [app] in C. rewrite C, !Sp, S1 by (apply Q; assumption). reflexivity.
      * rewrite cut_none2.
        -- rewrite Sp, S1 by (apply Q; assumption). reflexivity.
        -- apply clear_join; [exact M|exact Ca| |discriminate]. apply cut_clear; [exact KB|rewrite Eb; discriminate|exact Wb|exact E3].
  - rewrite (cut_none2 (py "TEMPO")) by (apply cut_clear; assumption).
    destruct (cut_before (py "BECMG") ts) as [[a b]|] eqn:E2.
    + pose proof (cut_word0 _ _ _ _ [] KB W E2) as C. rewrite !app_nil_r in C. rewrite C.
      destruct (cut_some _ _ _ _ KB W E2) as (-> & _ & _). apply Forall_app in B. destruct B as [B1 B2].
      rewrite Sp, S1 by (apply Q; assumption). reflexivity.
    + rewrite cut_none2 by (apply cut_clear; assumption). rewrite S1 by (apply Q; exact B). reflexivity.
Qed.

(** ** The trend section of a text *)

Lemma plain_spaceless : forall w, plain_word w -> spaceless w.
Proof. intros w ((_ & W) & _) I. apply (proj1 (Forall_forall _ _) W _ I). reflexivity. Qed.
Lemma plain_all : forall l, Forall plain_word l -> Forall spaceless l.
Proof. intros l H. eapply Forall_impl; [|exact H]. exact plain_spaceless. Qed.

Lemma sentence_last : forall l w, Forall plain_word (w :: l) -> is_space (last (sentence (w :: l)) 0%N) = false.
Proof.
  intros l. induction l as [|v l IH]; intros w P.
  - destruct (Forall_inv P) as ((N & W) & _). change (sentence [w]) with w. rewrite (app_removelast_last 0%N N) in W. apply Forall_app in W.
    destruct W as [_ W]. pose proof (Forall_inv W) as B. cbn beta in B. unfold blank in B. apply not_true_iff_false. exact B.
  - specialize (IH v (Forall_inv_tail P)). change (sentence (w :: v :: l)) with (w ++ 32%N :: sentence (v :: l)).
    rewrite <- IH. f_equal. destruct (sentence (v :: l)) as [|c s] eqn:S.
    + exfalso. destruct (Forall_inv (Forall_inv_tail P)) as ((N & _) & _). destruct v as [|d v]; [contradiction|]. destruct l; discriminate S.
    + clear. induction w as [|d w IHw]; [reflexivity|]. cbn [app]. destruct (w ++ 32%N :: c :: s) eqn:E; [destruct w; discriminate E|]. exact IHw.
Qed.
Lemma sentence_trim : forall ts, Forall plain_word ts -> strip (sentence ts) = sentence ts.
Proof.
  intros ts P. apply strip_trimmed. destruct ts as [|w l]; [exact I|]. pose proof (sentence_last l w P) as L.
  destruct (sentence (w :: l)) as [|c s] eqn:E; [exact I|]. split; [|rewrite <- E in *; exact L].
  destruct (Forall_inv P) as ((N & W) & _). destruct w as [|d w]; [contradiction|]. pose proof (Forall_inv W) as B. cbn beta in B. unfold blank in B.
  apply not_true_iff_false. assert (Q : d = c) by (destruct l; injection E; auto). rewrite <- Q. exact B.
Qed.

Lemma one_piece : forall l, Forall plain_word l -> l <> [] -> Forall (fun v => ~ opening v) (tl l) -> pieces section_words (sentence l) [sentence l].
Proof.
  intros l P N O. split; [reflexivity|]. split; [discriminate|]. split; [|constructor]. constructor; [|constructor].
  apply uncut_words; [exact (plain_all _ P)|]. apply Forall_forall. intros v I. pose proof (proj1 (Forall_forall _ _) O v I) as K. cbn beta in K.
  unfold opening in K. destruct (begins_any section_words v); [contradiction K; reflexivity|reflexivity].
Qed.

(** Every piece of a trend section is a trend. *)
Lemma all_trends : forall ts ps, Forall plain_word ts -> trend_section ts -> pieces section_words (sentence ts) ps -> trends_of ps = ps.
Proof.
  intros ts ps P ((w & l & -> & T) & R) (S & N & _ & B).
  assert (Q : forall p, In p ps -> begins_any section_words p = true /\ starts_with (py "RMK") p = false).
  { destruct ps as [|p0 ps]; [contradiction|]. cbn [tl] in B. intros p [<-|I].
    - assert (O : begins_any trend_words p0 = true).
      { unfold trend_word, begins_any in T. apply existsb_exists in T. destruct T as (k & Ik & K). unfold begins_any. apply existsb_exists.
        exists k. split; [exact Ik|].
        assert (G : starts_with k (sentence (w :: l)) = true).
        { apply starts_with_app in K. destruct K as (r & ->). destruct l as [|v l]; [apply starts_with_self|].
          change (sentence ((k ++ r) :: v :: l)) with ((k ++ r) ++ 32%N :: sentence (v :: l)). rewrite <- app_assoc. apply starts_with_self. }
        rewrite S in G. destruct ps as [|p1 ps]; [exact G|]. change (sentence (p0 :: p1 :: ps)) with (p0 ++ 32%N :: sentence (p1 :: ps)) in G.
        apply (starts_cut _ _ _) in G; [exact G|]. apply (proj1 (Forall_forall _ _) section_words_plain). unfold section_words. apply in_or_app. left. exact Ik. }
      split.
      + rewrite ProofSections.section_begins, O. reflexivity.
      + apply trend_starts. exact O.
    - split; [exact (proj1 (Forall_forall _ _) B _ I)|].
      assert (C : clear_of (py "RMK") (sentence (w :: l))).
      { apply clear_words; [cbn; intuition discriminate|discriminate|exact (plain_all _ P)|exact (Forall_inv_tail R)]. }
      rewrite S in C. apply in_split in I. destruct I as (u & v & ->).
      assert (E : exists x, sentence (p0 :: u ++ p :: v) = x ++ 32%N :: sentence (p :: v)).
      { exists (sentence (p0 :: u)). change (p0 :: u ++ p :: v) with ((p0 :: u) ++ p :: v). apply sentence_app; discriminate. }
      destruct E as (x & E). rewrite E in C. pose proof (C x _ eq_refl) as F.
      destruct (starts_with (py "RMK") p) eqn:Z; [|reflexivity]. rewrite <- not_true_iff_false in F. exfalso. apply F.
      apply starts_with_app in Z. destruct Z as (r & ->). destruct v as [|v0 v]; [apply starts_with_self|].
      change (sentence ((py "RMK" ++ r) :: v0 :: v)) with ((py "RMK" ++ r) ++ 32%N :: sentence (v0 :: v)). rewrite <- app_assoc. apply starts_with_self. }
  unfold trends_of. clear - Q. induction ps as [|p ps IH]; [reflexivity|]. cbn [filter].
  destruct (Q p (or_introl eq_refl)) as [Q1 Q2]. rewrite ProofSections.section_begins, Q2, orb_false_r in Q1. rewrite Q1. f_equal.
  apply IH. intros q I. exact (Q q (or_intror I)).
Qed.

Lemma trend_text_section : forall ws ts rs, Forall plain_word (ws ++ ts ++ rs) -> ws <> [] -> Forall (fun v => ~ opening v) ws ->
  trend_section ts -> remark_section rs -> section 1 (metar_sections (sentence (ws ++ ts ++ rs))) = sentence ts.
Proof.
  intros ws ts rs P N O T R. pose proof (plain_bars _ P) as B. pose proof P as P0. apply Forall_app in P. destruct P as [Pw P].
  apply Forall_app in P. destruct P as [Pt Pr].
  destruct (metar_sections_spec _ (plain_bars _ Pt)) as (ps & S1 & _ & _). pose proof (all_trends _ _ Pt T S1) as A.
  destruct (metar_sections_spec _ B) as (qs & _ & U & M). rewrite M. cbn [section nth].
  assert (O2 : Forall (fun v => ~ opening v) (tl ws)) by (destruct ws; [constructor|exact (Forall_inv_tail O)]).
  pose proof (one_piece _ Pw N O2) as Wp.
  assert (Tn : ts <> []) by (destruct T as ((w & l & -> & _) & _); discriminate).
  assert (Tb : forall s, begins_any section_words (sentence (ts ++ s)) = true).
  { intros s. destruct T as ((w & l & -> & T) & _). apply opening_sentence. unfold opening. rewrite ProofSections.section_begins. unfold trend_word in T.
    rewrite T. reflexivity. }
  assert (Q : exists r, qs = [sentence ws] ++ ps ++ r /\ trends_of r = []).
  { destruct R as [->|(w & l & -> & R1 & R2)].
    - exists []. split; [|reflexivity]. symmetry. apply U. rewrite !app_nil_r in *.
      rewrite sentence_app by assumption. apply pieces_app; [exact section_words_plain|exact Wp|exact S1|].
      specialize (Tb []). rewrite app_nil_r in Tb. exact Tb.
    - exists [sentence (w :: l)]. split.
      + symmetry. apply U. rewrite sentence_app; [|exact N|destruct ts; discriminate].
        apply pieces_app; [exact section_words_plain|exact Wp| |exact (Tb _)].
        rewrite sentence_app; [|exact Tn|discriminate]. apply pieces_app; [exact section_words_plain|exact S1| |].
        * apply one_piece; [exact Pr|discriminate|exact R2].
        * apply opening_sentence. unfold opening. rewrite ProofSections.section_begins, R1. apply orb_true_r.
      + unfold trends_of. cbn [filter].
        assert (F : begins_any trend_words (sentence (w :: l)) = false).
        { assert (H : exists r, sentence (w :: l) = 82%N :: r).
          { destruct w as [|c w]; [discriminate R1|]. change (py "RMK") with (82%N :: py "MK") in R1. cbn [starts_with] in R1.
            apply andb_prop in R1. destruct R1 as [R1 _]. apply N.eqb_eq in R1. rewrite <- R1. destruct l; eexists; reflexivity. }
          destruct H as (r & ->). reflexivity. }
        rewrite F. reflexivity. }
  destruct Q as (r & -> & Q). unfold trends_of in *. rewrite !filter_app, Q, A, app_nil_r. cbn [filter].
  assert (F : begins_any trend_words (sentence ws) = false).
  { destruct (begins_any trend_words (sentence ws)) eqn:Z; [|reflexivity]. exfalso. destruct ws as [|w l]; [contradiction|].
    apply (Forall_inv O). unfold opening. rewrite ProofSections.section_begins. unfold begins_any in *. apply existsb_exists in Z. destruct Z as (k & Ik & K).
    apply orb_true_iff. left. apply existsb_exists. exists k. split; [exact Ik|]. destruct l as [|v l]; [exact K|].
    change (sentence (w :: v :: l)) with (w ++ 32%N :: sentence (v :: l)) in K. apply starts_cut in K; [exact K|].
    apply (proj1 (Forall_forall _ _) section_words_plain). unfold section_words. apply in_or_app. left. exact Ik. }
  rewrite F. cbn [app]. destruct S1 as (S1 & _). rewrite <- S1. apply sentence_trim. exact Pt.
Qed.

(** ** The lists *)

Lemma trends_bound : forall l x x', handle_trends l x = Ok x' -> length (gl_list (me_trends x)) <= gl_max (me_trends x) ->
  gl_max (me_trends x') = gl_max (me_trends x) /\ length (gl_list (me_trends x')) <= gl_max (me_trends x).
Proof.
  induction l as [|w l IH]; intros x x' E H; cbn [handle_trends] in E; [injection E as <-; auto|]. destruct w as [|c w]; [exact (IH _ _ E H)|].
  unfold handle_weather_trend in E. destruct (change_period_new (c :: w) _) as [p|]; [|discriminate E]. cbn [bind] in E.
  destruct (gl_add p (me_trends x)) as [g|] eqn:G; [|discriminate E]. cbn [bind] in E. apply IH in E.
  - unfold gl_add in G. destruct (Nat.leb (gl_max (me_trends x)) (length (gl_list (me_trends x)))); [discriminate G|]. injection G as <-. exact E.
  - unfold gl_add in G. destruct (Nat.leb_spec (gl_max (me_trends x)) (length (gl_list (me_trends x)))) as [L|L]; [discriminate G|]. injection G as <-.
    cbn [me_trends out_string upd_common upd_out upd_trends gl_list gl_max]. rewrite app_length. cbn [length]. lia.
Qed.

Lemma metar_trend_list : forall e code y mo tr x, metar_parse e code y mo tr = Ok x ->
  map cp_code (gl_list (me_trends x)) = map Some (filter nonempty_part (map blanked (trend_codes (section 1 (me_sections x)))))
  /\ length (gl_list (me_trends x)) <= 2.
Proof.
  intros e code y mo tr x E. unfold metar_parse in E. destruct (report_raw_code code) as [raw|]; [|discriminate E]. cbn [bind] in E.
  destruct (metar_init e raw y mo) as [x0|] eqn:E0; [|discriminate E]. cbn [bind] in E.
  destruct (metar_fresh _ _ _ _ _ E0) as (F1 & F2 & F3). clear E0.
  unfold parse_body in E. destruct (parse_section (metar_handlers e y mo) _ x0) as [[x1 un]|] eqn:E1; [|discriminate E]. cbn [bind] in E.
  assert (K : me_trends x1 = me_trends x0).
  { apply (parse_section_inv _ (fun x => me_trends x = me_trends x0)) in E1; [exact E1| |reflexivity].
    intros h m s s' I Eh K1. destruct (metar_frame _ _ _ _ _ _ _ I Eh) as (L1 & _ & _). rewrite L1. exact K1. }
  unfold parse_weather_trend in E. destruct (handle_trends _ _) as [x2|] eqn:E2; [|discriminate E]. cbn [bind] in E.
  destruct (trends_done _ _ _ E2) as (_ & S & _ & N & ps & L & _ & M). apply trends_bound in E2; [|cbn [me_trends upd_unparsed]; rewrite K, F3; cbn; lia].
  cbn [me_trends upd_unparsed me_sections] in N, L, S, E2, M. rewrite K, F3 in N, L, E2. cbn in N, L. cbn [gl_new gl_max] in E2.
  rewrite (gl_collect_fresh _ N) in E. cbv zeta in E. set (x3 := upd_unparsed _ _) in E.
  assert (X : x = x3) by (destruct (me_unparsed x3); [congruence|]; destruct tr; [discriminate E|congruence]).
  rewrite X. unfold x3. cbn [me_trends me_sections upd_unparsed upd_trends gl_list]. rewrite S, L, <- L. split; [rewrite L; exact M|exact (proj2 E2)].
Qed.

Lemma blanked_id : forall w, ~ In 95%N w -> blanked w = w.
Proof.
  intros w H. unfold blanked. induction w as [|c w IH]; [reflexivity|]. cbn [map]. rewrite IH by (intros I; apply H; right; exact I).
  destruct (N.eqb_spec c 95) as [->|]; [exfalso; apply H; left; reflexivity|reflexivity].
Qed.

Lemma pieces_parts : forall ts p, In p (trend_pieces ts) -> ts <> [] -> Forall spaceless ts -> p <> [] /\ forall w, In w p -> In w ts.
Proof.
  intros ts p I N W. unfold trend_pieces in I. pose proof tempo_ok as KT. pose proof becmg_ok as KB.
  assert (Z : forall k ws a b, kw_ok k -> Forall spaceless ws -> cut_before k ws = Some (a, b) ->
    a <> [] /\ b <> [] /\ (forall w, In w a -> In w ws) /\ (forall w, In w b -> In w ws)).
  { intros k ws a b K Ws E. destruct (cut_some _ _ _ _ K Ws E) as (-> & (b' & -> & _) & (v & l & -> & _)).
    split; [discriminate|]. split; [discriminate|]. split; intros u Iu; apply in_or_app; auto. }
  destruct (cut_before (py "TEMPO") ts) as [[a b]|] eqn:E1.
  - destruct (Z _ _ _ _ KT W E1) as (A & B & A1 & B1).
    assert (Wa : Forall spaceless a) by (apply Forall_forall; intros u Iu; exact (proj1 (Forall_forall _ _) W _ (A1 _ Iu))).
    assert (Wb : Forall spaceless b) by (apply Forall_forall; intros u Iu; exact (proj1 (Forall_forall _ _) W _ (B1 _ Iu))).
    destruct (cut_before (py "BECMG") a) as [[a1 a2]|] eqn:E2.
    + destruct (Z _ _ _ _ KB Wa E2) as (C & D & C1 & D1). destruct I as [<-|[<-|[<-|[]]]]; auto.
    + destruct (cut_before (py "BECMG") b) as [[b1 b2]|] eqn:E3.
      * destruct (Z _ _ _ _ KB Wb E3) as (C & D & C1 & D1). destruct I as [<-|[<-|[<-|[]]]]; auto.
      * destruct I as [<-|[<-|[]]]; auto.
  - destruct (cut_before (py "BECMG") ts) as [[a b]|] eqn:E2.
    + destruct (Z _ _ _ _ KB W E2) as (A & B & A1 & B1). destruct I as [<-|[<-|[]]]; auto.
    + destruct I as [<-|[]]. auto.
Qed.

Lemma metar_trends_exact : forall e ws ts rs t y mo tr x, Forall plain_word (ws ++ ts ++ rs) -> Forall no_underscore ts ->
  ws <> [] -> Forall (fun v => ~ opening v) ws -> trend_section ts -> remark_section rs -> written (ws ++ ts ++ rs) t ->
  metar_parse e t y mo tr = Ok x ->
  map cp_code (gl_list (me_trends x)) = map (fun p => Some (sentence p)) (trend_pieces ts) /\ length (trend_pieces ts) <= 2.
Proof.
  intros e ws ts rs t y mo tr x P U N O T R W E. destruct (metar_trend_list _ _ _ _ _ _ E) as [L B].
  assert (S : me_sections x = metar_sections (sentence (ws ++ ts ++ rs))).
  { rewrite (metar_factor _ _ _ _ _ _ (written_raw _ _ W P)) in E. destruct (metar_read _ _ _ _ _ _) as [z|]; [|discriminate E].
    cbn [on_ok] in E. injection E as <-. reflexivity. }
  rewrite S, trend_text_section in L by assumption.
  assert (Pt : Forall plain_word ts) by (apply Forall_app in P; destruct P as [_ P]; apply Forall_app in P; apply P).
  assert (Tn : ts <> []) by (destruct T as ((w & l & -> & _) & _); discriminate).
  rewrite codes_pieces in L; [|exact Tn|exact (plain_all _ Pt)|eapply Forall_impl; [|exact Pt]; intros w K; apply K].
  assert (M : filter nonempty_part (map blanked (map sentence (trend_pieces ts))) = map sentence (trend_pieces ts)).
  { pose proof (fun p I => pieces_parts ts p I Tn (plain_all _ Pt)) as Q. revert Q. generalize (trend_pieces ts). intros l Q.
    induction l as [|p l IH]; [reflexivity|]. cbn [map]. destruct (Q p (or_introl eq_refl)) as [Np Ip].
    rewrite blanked_id.
    - cbn [filter]. assert (Z : nonempty_part (sentence p) = true).
      { destruct p as [|w p]; [contradiction|]. destruct (proj1 (proj1 (Forall_forall _ _) Pt w (Ip w (or_introl eq_refl)))) as [Nw _].
        destruct w as [|c w]; [contradiction|]. destruct p; reflexivity. }
      rewrite Z. f_equal. apply IH. intros q Iq. exact (Q q (or_intror Iq)).
    - apply sentence_no; [discriminate|]. apply Forall_forall. intros w Iw. exact (proj1 (Forall_forall _ _) U w (Ip w Iw)). }
  rewrite M, map_map in L. split; [exact L|]. rewrite <- (map_length cp_code), L, map_length in B. exact B.
Qed.

Lemma too_many_trends : forall e ws ts rs t y mo tr, Forall plain_word (ws ++ ts ++ rs) -> Forall no_underscore ts ->
  ws <> [] -> Forall (fun v => ~ opening v) ws -> trend_section ts -> remark_section rs -> written (ws ++ ts ++ rs) t ->
  length (trend_pieces ts) = 3 -> exists ex, metar_parse e t y mo tr = Raise ex.
Proof.
  intros e ws ts rs t y mo tr P U N O T R W L. destruct (metar_parse e t y mo tr) as [x|ex] eqn:E; [|exists ex; reflexivity].
  destruct (metar_trends_exact _ _ _ _ _ _ _ _ _ P U N O T R W E) as [_ B]. lia.
Qed.

(** ** TAF *)

Lemma add_max : forall A (p : A) g g', gl_add p g = Ok g' -> gl_max g' = gl_max g /\ length (gl_list g') <= gl_max g.
Proof.
  intros A p g g' E. unfold gl_add in E. destruct (Nat.leb_spec (gl_max g) (length (gl_list g))) as [L|L]; [discriminate E|]. injection E as <-.
  split; [reflexivity|]. cbn [gl_list]. rewrite app_length. cbn [length]. lia.
Qed.
Lemma add_all_max : forall A (l : list A) g g', gl_add_all l g = Ok g' -> gl_max g' = gl_max g.
Proof.
  intros A l. induction l as [|p l IH]; intros g g' E; cbn [gl_add_all] in E; [injection E as <-; reflexivity|].
  destruct (gl_add p g) as [g1|] eqn:G; [|discriminate E]. cbn [bind] in E. rewrite (IH _ _ E). exact (proj1 (add_max _ _ _ _ G)).
Qed.
Lemma changes_max : forall p g g', changes_add p g = Ok g' -> gl_max g' = gl_max g /\ length (gl_list g') <= gl_max g.
Proof.
  intros p g g' E. unfold changes_add in E. cbv zeta in E. destruct (_ && _); [|exact (add_max _ _ _ _ E)].
  destruct (pop_changes _ _ _) as [[rl temp]|]; [|discriminate E]. cbn [bind] in E. destruct (gl_add_all _ _) as [g1|] eqn:G; [|discriminate E].
  cbn [bind] in E. apply add_all_max in G. cbn [gl_max] in G. rewrite <- G. exact (add_max _ _ _ _ E).
Qed.
Lemma changes_bound : forall l x x', handle_changes l x = Ok x' -> length (gl_list (ta_changes x)) <= gl_max (ta_changes x) ->
  gl_max (ta_changes x') = gl_max (ta_changes x) /\ length (gl_list (ta_changes x')) <= gl_max (ta_changes x).
Proof.
  induction l as [|w l IH]; intros x x' E H; cbn [handle_changes] in E; [injection E as <-; auto|]. destruct w as [|c w]; [exact (IH _ _ E H)|].
  unfold handle_change_forecasted in E. destruct (change_fc_new (c :: w) _) as [p|]; [|discriminate E]. cbn [bind] in E.
  destruct (changes_add p (ta_changes x)) as [g|] eqn:G; [|discriminate E]. cbn [bind] in E. destruct (changes_max _ _ _ G) as [G1 G2].
  apply IH in E; cbn [ta_changes tout_string tupd_common tupd_changes] in *; rewrite G1 in *; [exact E|exact G2].
Qed.

Lemma taf_change_list : forall e code y mo tr x, taf_parse e code y mo tr = Ok x ->
  map cf_code (gl_list (ta_changes x)) = map Some (filter nonempty_part (map blanked (ta_codes x)))
  /\ length (gl_list (ta_changes x)) <= 8.
Proof.
  intros e code y mo tr x E. destruct (taf_factor _ _ _ _ _ _ E) as (b & x1 & _ & H & B & _ & L). rewrite L.
  pose proof (changes_bound _ _ _ H) as K. cbn [ta_changes tswap] in K. rewrite B in K. cbn [gl_new gl_list gl_max length] in K.
  specialize (K ltac:(lia)). destruct (changes_done _ _ _ H) as (_ & _ & _ & _ & _ & M).
  { cbn [ta_changes tswap]. rewrite B. constructor. }
  cbn [ta_changes tswap] in M. rewrite B in M. cbn [gl_new gl_list map app] in M. split; [exact M|exact (proj2 K)].
Qed.

Lemma joined_words : forall l, Forall plain_tok l -> blanked (sentence (map ct_joined l)) = sentence (flat_map ct_words l).
Proof.
  intros l. induction l as [|t l IH]; intros P; [reflexivity|].
  assert (T : blanked (ct_joined t) = sentence (ct_words t) /\ ct_words t <> []).
  { destruct t as [w|[]]; split; try discriminate; try reflexivity. exact (blanked_id w (proj1 (Forall_inv P))). }
  destruct T as [T N]. specialize (IH (Forall_inv_tail P)). destruct l as [|u l].
  - cbn [map flat_map]. rewrite app_nil_r. exact T.
  - change (sentence (map ct_joined (t :: u :: l))) with (ct_joined t ++ 32%N :: sentence (map ct_joined (u :: l))).
    change (flat_map ct_words (t :: u :: l)) with (ct_words t ++ flat_map ct_words (u :: l)). rewrite sentence_app; [|exact N|].
    + rewrite blanked_app. change (blanked (32%N :: sentence (map ct_joined (u :: l)))) with (32%N :: blanked (sentence (map ct_joined (u :: l)))).
      rewrite IH, T. reflexivity.
    + destruct u as [w|[]]; discriminate.
Qed.

Lemma chunks_in : forall l b cs, chunks l = (b, cs) -> Forall (fun c => c <> [] /\ forall t, In t c -> In t l) cs.
Proof.
  intros l. induction l as [|t l IH]; intros b cs C; cbn [chunks] in C; [injection C as <- <-; constructor|].
  destruct (chunks l) as [b' cs'] eqn:E. specialize (IH _ _ eq_refl).
  assert (W : Forall (fun c => c <> [] /\ forall u, In u c -> In u (t :: l)) cs').
  { eapply Forall_impl; [|exact IH]. intros c [N K]. split; [exact N|]. intros u I. right. exact (K u I). }
  destruct (opens t); injection C as <- <-; [|exact W]. constructor; [|exact W]. split; [discriminate|].
  intros u [<-|I]; [left; reflexivity|right]. clear - E I. revert b' cs' E I. induction l as [|v l IH]; intros b' cs' E I; cbn [chunks] in E; [injection E as <- <-; destruct I|].
  destruct (chunks l) as [b'' cs''] eqn:E2. destruct (opens v); injection E as <- <-; [destruct I|]. destruct I as [<-|I]; [left; reflexivity|right].
  exact (IH _ _ eq_refl I).
Qed.

Lemma taf_codes_kept : forall e code y mo tr x raw, report_raw_code code = Ok raw -> taf_parse e code y mo tr = Ok x ->
  ta_codes x = snd (taf_split raw).
Proof.
  intros e code y mo tr x raw R E. unfold taf_parse in E. rewrite R in E. cbn [bind] in E. destruct (taf_init e raw) as [x0|] eqn:I; cbn [bind] in E; [|discriminate E].
  assert (I0 : ta_codes x0 = snd (taf_split raw)).
  { unfold taf_init in I. destruct (taf_split raw) as [bo co]. binds I. injection I as <-. reflexivity. }
  unfold taf_parse_body in E. destruct (parse_section (taf_handlers e y mo) _ x0) as [[x2 un]|] eqn:P; cbn [bind] in E; [|discriminate E].
  apply (parse_section_inv _ (fun z => ta_codes z = ta_codes x0)) in P; [| |reflexivity].
  - unfold parse_changes_forecasted in E. destruct (handle_changes _ _) as [x3|] eqn:H; cbn [bind] in E; [|discriminate E].
    assert (K : forall q z z', handle_changes q z = Ok z' -> ta_codes z' = ta_codes z).
    { clear. intros q. induction q as [|v q IH]; intros z z' E; cbn [handle_changes] in E; [injection E as <-; auto|].
      destruct v as [|c v]; [exact (IH _ _ E)|]. unfold handle_change_forecasted in E.
      destruct (change_fc_new (c :: v) _) as [p|]; cbn [bind] in E; [|discriminate E].
      destruct (changes_add p _) as [g|]; cbn [bind] in E; [|discriminate E]. exact (IH _ _ E). }
    apply K in H. cbn [ta_codes tupd_unparsed] in H. rewrite <- I0, <- P, <- H. destruct (gl_collect (ta_changes x3)) as [q g]. cbv zeta in E.
    destruct (ta_unparsed (tupd_unparsed _ _)) in E; [|destruct tr; [discriminate E|]]; injection E as <-; reflexivity.
  - intros h mm s s' Ih Eh Q. rewrite <- Q.
    pose proof (tswap_handlers (ta_raw s) (ta_body s) (ta_codes s) (ta_sections s) e y mo h mm s Ih) as Z.
    assert (X : tswap (ta_raw s) (ta_body s) (ta_codes s) (ta_sections s) s = s) by (destruct s; reflexivity).
    rewrite X, Eh in Z. cbn [on_ok] in Z. injection Z as Z. rewrite Z. reflexivity.
Qed.

Lemma taf_changes_exact : forall e w l b cs t y mo tr x,
  let words k := py "TAF" :: w :: flat_map ct_words k in
  no_stray_pair (Plain (py "TAF") :: Plain w :: l) -> length (filter is_pair l) <= 5 -> Forall plain_tok (Plain w :: l) ->
  chunks l = (b, cs) -> taf_apart w b cs -> Forall plain_word (words l) -> written (words l) t ->
  taf_parse e t y mo tr = Ok x ->
  map cf_code (gl_list (ta_changes x)) = map (fun c => Some (sentence (flat_map ct_words c))) cs /\ length cs <= 8.
Proof.
  intros e w l b cs t y mo tr x words S L P C A W T E. destruct (taf_change_list _ _ _ _ _ _ E) as [M B].
  destruct (taf_split_sections w l b cs S L P C A) as (_ & Q & _). fold (words l) in Q.
  assert (K : ta_codes x = snd (taf_split (sentence (words l)))).
  { pose proof (written_raw _ _ T W) as R. exact (taf_codes_kept _ _ _ _ _ _ _ R E). }
  rewrite K, Q, map_map in M.
  assert (F : filter nonempty_part (map (fun c => blanked (sentence (map ct_joined c))) cs) = map (fun c => sentence (flat_map ct_words c)) cs).
  { pose proof (chunks_in _ _ _ C) as I. clear - I P W. induction cs as [|c cs IH]; [reflexivity|]. cbn [map filter].
    destruct (Forall_inv I) as [N Ic]. rewrite joined_words.
    - assert (Z : nonempty_part (sentence (flat_map ct_words c)) = true).
      { destruct c as [|u c]; [contradiction|]. specialize (Ic u (or_introl eq_refl)).
        assert (Wu : Forall plain_word (ct_words u)).
        { apply Forall_forall. intros v Iv. apply (proj1 (Forall_forall _ _) W). right. right. apply in_flat_map. exists u. auto. }
        cbn [flat_map]. destruct u as [v|[]]; [|reflexivity|reflexivity]. cbn [ct_words app] in *. destruct (Forall_inv Wu) as ((Nv & _) & _).
        destruct v as [|d v]; [contradiction|]. destruct (flat_map ct_words c); reflexivity. }
      rewrite Z. f_equal. exact (IH (Forall_inv_tail I)).
    - apply Forall_forall. intros u Iu. exact (proj1 (Forall_forall _ _) (Forall_inv_tail P) u (Ic u Iu)). }
  rewrite F, map_map in M. split; [exact M|]. rewrite <- (map_length cf_code), M, map_length in B. exact B.
Qed.

Lemma too_many_changes : forall e w l b cs t y mo tr,
  let words k := py "TAF" :: w :: flat_map ct_words k in
  no_stray_pair (Plain (py "TAF") :: Plain w :: l) -> length (filter is_pair l) <= 5 -> Forall plain_tok (Plain w :: l) ->
  chunks l = (b, cs) -> taf_apart w b cs -> Forall plain_word (words l) -> written (words l) t ->
  8 < length cs -> exists ex, taf_parse e t y mo tr = Raise ex.
Proof.
  intros e w l b cs t y mo tr words S L P C A W T N. destruct (taf_parse e t y mo tr) as [x|ex] eqn:E; [|exists ex; reflexivity].
  destruct (taf_changes_exact _ _ _ _ _ _ _ _ _ _ S L P C A W T E) as [_ B]. lia.
Qed.

(** ** A third TEMPO *)

Lemma rest_first : forall k a b, ~ In k a -> b <> [] -> cut_rest k (a ++ k :: b) = Some (a, b).
Proof.
  intros k a. induction a as [|w a IH]; intros b N B; cbn [app cut_rest].
  - destruct b as [|u b]; [contradiction|]. rewrite (proj2 (str_eqb_eq k k) eq_refl). reflexivity.
  - destruct (a ++ k :: b) as [|u l] eqn:E; [destruct a; discriminate E|]. rewrite <- E.
    destruct (str_eqb w k) eqn:S; [apply str_eqb_eq in S; subst w; exfalso; apply N; left; reflexivity|].
    rewrite IH; [reflexivity|intros I; apply N; right; exact I|exact B].
Qed.
Lemma rest_none : forall k l, ~ In k l -> cut_rest k l = None.
Proof.
  intros k l N. destruct (cut_rest k l) as [[a b]|] eqn:E; [|reflexivity]. apply inner_some in E. destruct E as (-> & _).
  exfalso. apply N. apply in_or_app. right. left. reflexivity.
Qed.
Lemma tempo_absorbs : forall w a b, ~ In (py "TEMPO") a -> b <> [] -> ~ In (py "BECMG") a -> ~ In (py "BECMG") b ->
  trend_pieces (w :: a ++ py "TEMPO" :: b) = [w :: a; py "TEMPO" :: b].
Proof.
  intros w a b Ta B Ba Bb. unfold trend_pieces, cut_before. rewrite rest_first by assumption. rewrite !rest_none by assumption. reflexivity.
Qed.
Lemma becmg_absorbs : forall w a b, ~ In (py "BECMG") a -> b <> [] -> ~ In (py "TEMPO") a -> ~ In (py "TEMPO") b ->
  trend_pieces (w :: a ++ py "BECMG" :: b) = [w :: a; py "BECMG" :: b].
Proof.
  intros w a b Ta B Ba Bb. unfold trend_pieces, cut_before. rewrite (rest_none (py "TEMPO")).
  - rewrite rest_first by assumption. reflexivity.
  - intros I. apply in_app_or in I. destruct I as [I|[I|I]]; [exact (Ba I)|discriminate I|exact (Bb I)].
Qed.
Lemma both_three : forall w a b c, ~ In (py "TEMPO") a -> ~ In (py "BECMG") a -> ~ In (py "BECMG") b -> b <> [] -> c <> [] ->
  trend_pieces (w :: a ++ py "TEMPO" :: b ++ py "BECMG" :: c) = [w :: a; py "TEMPO" :: b; py "BECMG" :: c].
Proof.
  intros w a b c Ta Ba Bb B C. unfold trend_pieces, cut_before. rewrite rest_first; [|exact Ta|destruct b; [contradiction|discriminate]].
  rewrite (rest_none (py "BECMG") a) by exact Ba. rewrite rest_first by assumption. reflexivity.
Qed.

Lemma later_tempo_lost : forall e ws w a b rs t y mo tr x, let ts := w :: a ++ py "TEMPO" :: b in
  Forall plain_word (ws ++ ts ++ rs) -> Forall no_underscore ts -> ws <> [] -> Forall (fun v => ~ opening v) ws -> trend_section ts ->
  remark_section rs -> written (ws ++ ts ++ rs) t ->
  ~ In (py "TEMPO") a -> ~ In (py "BECMG") a -> ~ In (py "BECMG") b -> b <> [] -> metar_parse e t y mo tr = Ok x ->
  map cp_code (gl_list (me_trends x)) = [Some (sentence (w :: a)); Some (sentence (py "TEMPO" :: b))].
Proof.
  intros e ws w a b rs t y mo tr x ts P U N O T R W Ta Ba Bb B E.
  rewrite (proj1 (metar_trends_exact _ _ _ _ _ _ _ _ _ P U N O T R W E)). unfold ts. rewrite tempo_absorbs by assumption. reflexivity.
Qed.
Lemma tempo_becmg_refused : forall e ws w a b c rs t y mo tr, let ts := w :: a ++ py "TEMPO" :: b ++ py "BECMG" :: c in
  Forall plain_word (ws ++ ts ++ rs) -> Forall no_underscore ts -> ws <> [] -> Forall (fun v => ~ opening v) ws -> trend_section ts ->
  remark_section rs -> written (ws ++ ts ++ rs) t ->
  ~ In (py "TEMPO") a -> ~ In (py "BECMG") a -> ~ In (py "BECMG") b -> b <> [] -> c <> [] -> exists ex, metar_parse e t y mo tr = Raise ex.
Proof.
  intros e ws w a b c rs t y mo tr ts P U N O T R W Ta Ba Bb B C.
  apply (too_many_trends e ws ts rs); try assumption. unfold ts. rewrite both_three by assumption. reflexivity.
Qed.
