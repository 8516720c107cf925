(** * When the constructor of a TAF may fail *)
From Coq Require Import String Ascii.
From Coq Require Import List NArith ZArith Bool Lia.
From Verif Require Import PyBase PyRegex AeroRegex PyTime Utils Base Trend Metar Taf
  SpecNum SpecTime SpecText SpecTaf SpecMetar SpecFailures SpecTafFailures StrFacts RegexPaths MergeFacts TextFacts Outcomes ProofText ProofSections
  ProofTafText ProofProb ProofTime Keeps OutTime OutMetar OutReport OutTafTime OutTafWords OutTafChange OutTafBody OutTafHead OutTafPlaces.
Import ListNotations.
Local Open Scope string_scope.
Local Open Scope nat_scope.
Local Open Scope list_scope.

(** ** What the sections keep *)

Lemma mark_keeps : forall a b, sepc b = true -> forall n s, length s <= n ->
  keeps false (replace (py "TAF" ++ [a]) (py "TAF" ++ [b]) s) s.
Proof.
  intros a b Hb. induction n as [|n IH]; intros s L.
  - destruct s; [|cbn in L; lia]. rewrite replace_nil by discriminate. apply k_nil.
  - destruct s as [|c s]; [rewrite replace_nil by discriminate; apply k_nil|].
    destruct (starts_with (py "TAF" ++ [a]) (c :: s)) eqn:E.
    + apply starts_split in E. destruct E as (t & E). rewrite E in *. rewrite replace_at by discriminate. rewrite <- !app_assoc.
      apply keeps_copies. cbn [app]. apply k_sep; [exact Hb|]. apply k_drop. apply (keeps_fresh false). apply IH.
      rewrite !app_length in L. cbn [length py] in L. lia.
    + rewrite replace_step by (discriminate || exact E). apply k_copy. apply IH. cbn [length] in L. lia.
Qed.
Lemma mark_in : forall s, keeps false (replace (py "TAF ") (py "TAF_") s) s.
Proof. intro s. exact (mark_keeps 32%N 95%N eq_refl (length s) s (le_n _)). Qed.
Lemma mark_out : forall s, keeps false (replace (py "TAF_") (py "TAF ") s) s.
Proof. intro s. exact (mark_keeps 95%N 32%N eq_refl (length s) s (le_n _)). Qed.

Definition marked (raw : str) : str :=
  let s := sanitize_change_indicator raw in if starts_with (py "TAF") s then replace (py "TAF ") (py "TAF_") s else s.
Lemma marked_weaker : forall raw, weaker (marked raw) raw.
Proof.
  intro raw. refine (weaker_trans _ _ _ _ (prob_weaker raw)). unfold marked. cbv zeta.
  destruct (starts_with (py "TAF") (sanitize_change_indicator raw)); [|apply weaker_refl]. exact (weaker_keeps _ _ _ (mark_in _)).
Qed.
Lemma marked_places : forall ws raw, Forall solid ws -> places ws (marked raw) <= places ws raw.
Proof.
  intros ws raw H. refine (Nat.le_trans _ _ _ _ (prob_places ws raw H)). unfold marked. cbv zeta.
  destruct (starts_with (py "TAF") (sanitize_change_indicator raw)); [|apply le_n]. exact (places_keeps ws H _ _ _ (mark_in _)).
Qed.

Lemma change_kws : Forall (plain_kw SpLeft) [py "FM"; py "TEMPO"; py "BECMG"; py "PROB"].
Proof. repeat apply Forall_cons; try apply Forall_nil; (eexists; split; [reflexivity|split; [discriminate|reflexivity]]). Qed.

Lemma split_parts : forall raw, exists b,
  fst (taf_split raw) = replace (py "TAF_") (py "TAF ") b
  /\ split_sentence (marked raw) [py "FM"; py "TEMPO"; py "BECMG"; py "PROB"] None SpLeft = b :: snd (taf_split raw).
Proof.
  intro raw. unfold taf_split, marked. cbv zeta.
  destruct (split_sentence _ _ _ _) as [|b l] eqn:E.
  - exfalso. unfold split_sentence in E. exact (split_nonempty _ _ E).
  - exists b. cbn [fst snd]. split; reflexivity.
Qed.

Lemma body_part_weaker : forall raw, weaker (fst (taf_split raw)) raw.
Proof.
  intro raw. destruct (split_parts raw) as (b & -> & E). refine (weaker_trans _ _ _ (weaker_keeps _ _ _ (mark_out b)) _).
  refine (weaker_trans _ _ _ (sentence_weaker _ _ _ _ b change_kws ltac:(rewrite E; left; reflexivity)) (marked_weaker raw)).
Qed.
Lemma code_part_weaker : forall raw c, In c (snd (taf_split raw)) -> weaker c raw.
Proof.
  intros raw c I. destruct (split_parts raw) as (b & _ & E).
  refine (weaker_trans _ _ _ (sentence_weaker _ _ _ _ c change_kws ltac:(rewrite E; right; exact I)) (marked_weaker raw)).
Qed.
Lemma body_part_places : forall ws raw, Forall solid ws -> places ws (fst (taf_split raw)) <= places ws raw.
Proof.
  intros ws raw H. destruct (split_parts raw) as (b & -> & E).
  refine (Nat.le_trans _ _ _ (places_keeps ws H _ _ _ (mark_out b)) _).
  refine (Nat.le_trans _ _ _ _ (marked_places ws raw H)).
  pose proof (sentence_places ws H _ SpLeft None (marked raw) change_kws) as K. rewrite E in K. cbn [total] in K. lia.
Qed.

(** ** The groups *)

Lemma taf_body_groups : forall raw g, In g (split_on 32 (sanitize_visibility (fst (taf_split raw)))) -> weaker g raw.
Proof.
  intros raw g I. apply split_on_part, weaker_part in I. refine (weaker_trans _ _ _ I _).
  refine (weaker_trans _ _ _ (vis_weaker _) (body_part_weaker raw)).
Qed.
Lemma taf_change_groups : forall raw c g, In c (snd (taf_split raw)) -> In g (change_groups c) -> weaker g raw.
Proof.
  intros raw c g Ic I. apply split_on_part, weaker_part in I. refine (weaker_trans _ _ _ I _).
  refine (weaker_trans _ _ _ (vis_weaker _) _). refine (weaker_trans _ _ _ (prob_weaker _) _).
  refine (weaker_trans _ _ _ (underscore_weaker _) (code_part_weaker raw c Ic)).
Qed.

Lemma weaker_char : forall s' s c, weaker s' s -> sepc c = false -> In c s' -> In c s.
Proof.
  intros s' s c W H I. apply in_split in I. destruct I as (a & b & ->).
  destruct (W [c]) as (p & q & ->); [split; [discriminate|repeat constructor; exact H]|exists a, b; reflexivity|].
  apply in_or_app. right. left. reflexivity.
Qed.

Lemma blank_solid : forall c, is_space c = true -> c <> 32%N -> sepc c = false.
Proof.
  intros c H N. unfold sepc. cbn [existsb]. destruct (N.eqb_spec c 32) as [E|_]; [contradiction|].
  destruct (N.eqb_spec c 95) as [E|_]; [rewrite E in H; discriminate H|].
  destruct (N.eqb_spec c 124) as [E|_]; [rewrite E in H; discriminate H|].
  destruct (N.eqb_spec c 82) as [E|_]; [rewrite E in H; discriminate H|]. reflexivity.
Qed.

Lemma code_spaced : forall code c, code <> [] -> ~ Exists odd_blank (unsigned code) -> In c (snd (taf_split (normalise code))) -> spaced c.
Proof.
  intros code c N O I d Id Hd. destruct (N.eq_dec d 32) as [E|E]; [exact E|exfalso].
  pose proof (blank_solid d Hd E) as Sd. pose proof (weaker_char _ _ d (code_part_weaker _ c I) Sd Id) as I1.
  assert (R : report_raw_code code = Ok (normalise code)) by (destruct code; [contradiction|reflexivity]).
  destruct (raw_clean _ _ R) as (R1 & R2 & _). pose proof (weaker_char _ _ d (raw_weaker code) Sd I1) as I2.
  apply O. apply Exists_exists. exists d. split; [exact I2|]. split; [exact Hd|]. split; [exact E|]. split; intros ->; contradiction.
Qed.

Lemma in_word : forall c s, SpecTafFailures.apart c = false -> In c s <-> exists w, In w (words_of s) /\ In c w.
Proof.
  intros c s A. unfold words_of.
  assert (K : In c s <-> exists w, In w (fields s) /\ In c w).
  { induction s as [|d s IH]; cbn [fields].
    - split; [intros []|]. intros (w & [<-|[]] & []).
    - destruct (SpecTafFailures.apart d) eqn:Ed.
      + split.
        * intros [->|I]; [congruence|]. apply IH in I. destruct I as (w & I & J). exists w. split; [right; exact I|exact J].
        * intros (w & [<-|I] & J); [destruct J|]. right. apply IH. exists w. split; assumption.
      + destruct (fields_some s) as (f & fs & E). rewrite E in *. split.
        * intros [->|I]; [exists (c :: f); split; left; reflexivity|]. apply IH in I. destruct I as (w & [<-|I] & J).
          { exists (d :: f). split; [left; reflexivity|right; exact J]. }
          { exists w. split; [right; exact I|exact J]. }
        * intros (w & [<-|I] & J).
          { destruct J as [->|J]; [left; reflexivity|]. right. apply IH. exists f. split; [left; reflexivity|exact J]. }
          { right. apply IH. exists w. split; [right; exact I|exact J]. } }
  rewrite K. split; intros (w & I & J); exists w; (split; [|exact J]).
  - apply filter_In. split; [exact I|]. destruct w; [destruct J|reflexivity].
  - apply filter_In in I. exact (proj1 I).
Qed.

Lemma bar_raw : forall code, In 124%N (normalise code) <-> In 124%N (unsigned code).
Proof. intro code. rewrite !in_word by reflexivity. rewrite words_normalise. reflexivity. Qed.

Lemma odd_blank_dec : forall s, Exists odd_blank s \/ ~ Exists odd_blank s.
Proof.
  intro s. destruct (Exists_dec odd_blank s) as [H|H]; [|left; exact H|right; exact H].
  intro c. unfold odd_blank. destruct (is_space c) eqn:E; [|right; intros [K _]; discriminate K].
  destruct (N.eq_dec c 32) as [E1|E1]; [right; tauto|]. destruct (N.eq_dec c 10) as [E2|E2]; [right; tauto|].
  destruct (N.eq_dec c 9) as [E3|E3]; [right; tauto|]. left. auto.
Qed.

(** ** The whole report *)

Lemma tx_solid : solid (py "TX"). Proof. split; [discriminate|plainly]. Qed.
Lemma tn_solid : solid (py "TN"). Proof. split; [discriminate|plainly]. Qed.

Lemma begun_unsigned : forall p code, solid p -> (exists p', p = 84%N :: p') ->
  begun p (split_on 32 (sanitize_visibility (fst (taf_split (normalise code))))) <= places [p] (unsigned code).
Proof.
  intros p code S T. assert (F : Forall solid [p]) by (constructor; [exact S|constructor]).
  refine (Nat.le_trans _ _ _ (begun_places p S T _ _ (le_n _)) _). refine (Nat.le_trans _ _ _ (vis_places p S T _) _).
  refine (Nat.le_trans _ _ _ (body_part_places [p] _ F) _). exact (raw_places [p] F code).
Qed.

Theorem taf_outcome : forall e code year month tr ex, clock_wf e -> month_wf e year month ->
  taf_parse e code year month tr = Raise ex ->
  taf_fails (now_year e) (now_month e) (opt_default (now_year e) year) (opt_default (now_month e) month) tr code ex.
Proof.
  intros e code year month tr ex C W. unfold taf_parse.
  destruct code as [|c0 code0]; [cbn [report_raw_code bind]; intro H; injection H as <-; reflexivity|].
  assert (N : c0 :: code0 <> []) by discriminate. change (report_raw_code (c0 :: code0)) with (Ok (normalise (c0 :: code0))).
  revert N. generalize (c0 :: code0). clear c0 code0. intros code N. cbn [bind].
  set (y := opt_default (now_year e) year). set (mo := opt_default (now_month e) month).
  set (L := last_month y mo \/ last_month (now_year e) (now_month e)).
  set (bad := In 124%N (unsigned code) \/ Exists odd_blank (unsigned code) \/ Exists broken (words_of (unsigned code))).
  pose proof (taf_init_outcome e (normalise code) L C (fun H => or_intror H)) as P.
  destruct (taf_init e (normalise code)) as [x0|ex0]; cbn [bind outcome] in *.
  2:{ intro H. injection H as <-. destruct ex0; cbn in P |- *; try contradiction. exact P. }
  destruct P as (Eb & I). rewrite Eb in I.
  set (G := split_on 32 (sanitize_visibility (fst (taf_split (normalise code))))) in *.
  assert (Gx : begun (py "TX") G <= places [py "TX"] (unsigned code)) by (apply begun_unsigned; [exact tx_solid|eexists; reflexivity]).
  assert (Gn : begun (py "TN") G <= places [py "TN"] (unsigned code)) by (apply begun_unsigned; [exact tn_solid|eexists; reflexivity]).
  assert (Q := taf_body_outcome e year month L (begun (py "TX") G) (begun (py "TN") G) (snd (taf_split (normalise code))) W (fun H => or_introl H) x0).
  rewrite Eb in Q. specialize (Q I).
  destruct (taf_parse_body e year month x0) as [x|ex1]; cbn [bind outcome] in *.
  2:{ intro H. injection H as <-. destruct Q as (g & Ig & K).
      pose proof (weaker_trans _ _ _ (taf_body_groups _ g Ig) (raw_weaker code)) as Wk.
      fold y mo in K. destruct ex1; cbn [tb_cause body_cause taf_fails] in *; try contradiction.
      - destruct K as [(x & Cx & F)|(x & d & h & mi & Cx & F & Im)].
        + left. exists x. split; [apply Wk; [exact (no_direction_solid x F)|exact Cx]|exact F].
        + right. exists x, d, h, mi. split; [apply Wk; [exact (stamp_solid x d h mi F)|exact Cx]|]. split; assumption.
      - destruct K as (x & Cx & F). exists x. split; [apply Wk; [exact (fraction_km_solid x F)|exact Cx]|exact F].
      - destruct K as (x & Cx & F). exists x. split; [apply Wk; [exact (over_zero_solid x F)|exact Cx]|exact F].
      - destruct K as [K|K]; [right; right; left; lia|right; right; right; lia].
      - exact K. }
  destruct Q as (Sx & Ec & Eo). unfold parse_changes_forecasted. rewrite Eo.
  assert (Hn : forall c g, In c (snd (taf_split (normalise code))) -> In g (change_groups c) -> ~ In 10%N g).
  { intros c g Ic Ig J. pose proof (weaker_char _ _ 10%N (taf_change_groups _ c g Ic Ig) eq_refl J) as J1.
    assert (R : report_raw_code code = Ok (normalise code)) by (destruct code; [contradiction|reflexivity]).
    destruct (raw_clean _ _ R) as (R1 & _). contradiction. }
  assert (Hh : forall c, In c (snd (taf_split (normalise code))) -> c <> [] -> bad \/ headed c).
  { intros c Ic Nc. destruct (in_dec N.eq_dec 124%N (unsigned code)) as [B|B]; [left; left; exact B|].
    destruct (odd_blank_dec (unsigned code)) as [O|O]; [left; right; left; exact O|].
    assert (B' : ~ In 124%N (normalise code)) by (intro K; apply B, bar_raw, K).
    destruct (change_headed c (code_spaced code c N O Ic) (codes_begin _ c B' Ic)) as [H|H]; [right; exact H|].
    left. right. right. apply Exists_exists in H. destruct H as (w & Iw & Hw). apply Exists_exists. exists w.
    split; [exact (codes_words code c w B' Ic Iw)|exact Hw]. }
  assert (Hl : listed L bad 0 (ta_changes x)) by (rewrite Ec; split; [reflexivity|split; [constructor|apply le_n]]).
  pose proof (handle_changes_outcome L bad 0 _ x Sx Hn Hh Hl) as P.
  destruct (handle_changes (snd (taf_split (normalise code))) x) as [x'|ex2]; cbn [bind outcome] in *.
  - destruct (gl_collect (ta_changes x')) as [l g]. cbv zeta.
    destruct (ta_unparsed (tupd_unparsed _ _)); [discriminate|]. destruct tr; [|discriminate].
    intro H. injection H as <-. reflexivity.
  - intro H. injection H as <-. destruct P as [[-> K]|[[-> K]|(c & g & Ic & Ig & K)]].
    + cbn [taf_fails]. destruct (in_dec N.eq_dec 124%N (unsigned code)) as [B|B]; [left; exact B|right; left].
      assert (B' : ~ In 124%N (normalise code)) by (intro J; apply B, bar_raw, J).
      pose proof (codes_count code B'). cbn [Nat.add] in K. lia.
    + exact K.
    + pose proof (weaker_trans _ _ _ (taf_change_groups _ c g Ic Ig) (raw_weaker code)) as Wk.
      destruct ex2; cbn [ch_cause taf_fails] in *; try contradiction.
      * left. destruct K as (z & Cz & F). exists z. split; [apply Wk; [exact (no_direction_solid z F)|exact Cz]|exact F].
      * destruct K as (z & Cz & F). exists z. split; [apply Wk; [exact (fraction_km_solid z F)|exact Cz]|exact F].
      * exact K.
      * destruct K as (z & Cz & F). exists z. split; [apply Wk; [exact (over_zero_solid z F)|exact Cz]|exact F].
      * exact K.
Qed.
