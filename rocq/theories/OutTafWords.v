(** * The words of a TAF, from the text given to its sections *)
From Coq Require Import String Ascii.
From Coq Require Import List NArith ZArith Bool Lia.
From Verif Require Import PyBase PyRegex AeroRegex PyTime Utils Base Trend Taf
  SpecNum SpecTime SpecText SpecTaf SpecFailures SpecTafFailures StrFacts RegexPaths TextFacts ProofText ProofSections ProofTafText.
Import ListNotations.
Local Open Scope string_scope.
Local Open Scope nat_scope.
Local Open Scope list_scope.

(** ** Fields and words *)

Definition joins (s : str) : Prop := Forall (fun c => apart c = false) s.

Lemma fields_some : forall s, exists w ws, fields s = w :: ws.
Proof.
  destruct s as [|c s]; [exists [], []; reflexivity|]. cbn [fields]. destruct (apart c); [eexists _, _; reflexivity|].
  destruct (fields s); eexists _, _; reflexivity.
Qed.

Lemma fields_sep : forall a c b, apart c = true -> fields (a ++ c :: b) = fields a ++ fields b.
Proof.
  intros a c b H. induction a as [|d a IH]; cbn [app fields].
  - rewrite H. reflexivity.
  - rewrite IH. destruct (apart d); [reflexivity|]. destruct (fields_some a) as (w & ws & ->). reflexivity.
Qed.
Lemma words_sep : forall a c b, apart c = true -> words_of (a ++ c :: b) = words_of a ++ words_of b.
Proof. intros a c b H. unfold words_of. rewrite fields_sep by exact H. apply filter_app. Qed.
Lemma words_cons : forall c b, apart c = true -> words_of (c :: b) = words_of b.
Proof. intros c b H. exact (words_sep [] c b H). Qed.

Lemma blank_apart : forall c, blank c -> apart c = true.
Proof. intros c H. unfold apart. rewrite H. reflexivity. Qed.

Lemma words_skip : forall x b, blanks x -> words_of (x ++ b) = words_of b.
Proof.
  intros x b H. induction H as [|c x Hc H IH]; [reflexivity|]. cbn [app]. rewrite words_cons by (apply blank_apart; exact Hc). exact IH.
Qed.
Lemma words_blanks : forall x, blanks x -> words_of x = [].
Proof. intros x H. rewrite <- (app_nil_r x). rewrite words_skip by exact H. reflexivity. Qed.
Lemma words_gap : forall a x b, x <> [] -> blanks x -> words_of (a ++ x ++ b) = words_of a ++ words_of b.
Proof.
  intros a x b N H. destruct x as [|c x]; [congruence|]. inversion H as [|c0 x0 Hc Hx]; subst. cbn [app].
  rewrite words_sep by (apply blank_apart; exact Hc). rewrite words_skip by exact Hx. reflexivity.
Qed.

Lemma words_tail : forall l s, Forall (fun x => fst x <> [] /\ blanks (fst x)) l ->
  words_of (s ++ tail_text l) = words_of s ++ flat_map (fun x => words_of (snd x)) l.
Proof.
  induction l as [|[b w] l IH]; intros s H.
  - unfold tail_text. cbn [flat_map]. rewrite !app_nil_r. reflexivity.
  - inversion H as [|x0 l0 [Hn Hb] Hl]; subst. cbn [fst snd] in *.
    change (tail_text ((b, w) :: l)) with ((b ++ w) ++ tail_text l). rewrite <- app_assoc.
    rewrite words_gap by assumption. rewrite IH by exact Hl. reflexivity.
Qed.

Lemma squeeze_blanks : forall b, b <> [] -> blanks b -> squeeze b <> [] /\ blanks (squeeze b).
Proof.
  intros b N H. destruct b as [|c [|d b]]; [congruence| |].
  - inversion H as [|c0 b0 Hc _]; subst. cbn [squeeze]. destruct (N.eqb c 10 || N.eqb c 9); (split; [discriminate|]);
      (apply Forall_cons; [|apply Forall_nil]); [reflexivity|exact Hc].
  - cbn [squeeze]. split; [discriminate|]. apply Forall_cons; [reflexivity|apply Forall_nil].
Qed.

Lemma words_norm : forall code, words_of (norm (strip code)) = words_of code.
Proof.
  intro code. destruct (has_ink_dec code) as [Hi|Hb].
  - destruct (text_split code Hi) as (a & w & l & b & -> & Ha & Hb & Hw & Hl).
    rewrite strip_text by assumption. rewrite norm_word by apply Hw. rewrite norm_tail by exact Hl.
    rewrite (words_skip a) by exact Ha.
    assert (Hl1 : Forall (fun x => fst x <> [] /\ blanks (fst x)) l).
    { eapply Forall_impl; [|exact Hl]. intros x (H1 & H2 & _). split; assumption. }
    rewrite words_tail.
    2:{ apply Forall_map. eapply Forall_impl; [|exact Hl1]. intros x [H1 H2]. cbn [fst]. apply squeeze_blanks; assumption. }
    assert (E : words_of ((w ++ tail_text l) ++ b) = words_of (w ++ tail_text l)).
    { destruct b as [|c b]; [rewrite app_nil_r; reflexivity|]. rewrite <- (app_nil_r (c :: b)).
      rewrite words_gap by (try discriminate; exact Hb). apply app_nil_r. }
    rewrite E, words_tail by exact Hl1. f_equal. clear. induction l as [|x l IH]; [reflexivity|]. cbn [map flat_map snd]. rewrite IH. reflexivity.
  - assert (E := strip_pad code [] [] Hb (Forall_nil _) I). rewrite app_nil_r in E. cbn [app] in E.
    rewrite E, (words_blanks code Hb). reflexivity.
Qed.

Lemma fields_remove : forall s, fields (remove_char 61 s) = map (remove_char 61) (fields s).
Proof.
  unfold remove_char. induction s as [|c s IH]; [reflexivity|]. cbn [filter fields]. destruct (N.eqb_spec c 61) as [->|N]; cbn [negb].
  - change (apart 61) with false. rewrite IH. destruct (fields_some s) as (w & ws & ->). reflexivity.
  - cbn [fields]. rewrite IH. destruct (apart c); [reflexivity|]. destruct (fields_some s) as (w & ws & ->). cbn [map filter].
    destruct (N.eqb_spec c 61); [contradiction|reflexivity].
Qed.
Lemma words_remove : forall s, words_of (remove_char 61 s) = filter filled (map (remove_char 61) (words_of s)).
Proof.
  intro s. unfold words_of. rewrite fields_remove. generalize (fields s). intro l. induction l as [|w l IH]; [reflexivity|].
  cbn [map filter]. destruct w as [|c w]; [exact IH|]. change (filled (c :: w)) with true. cbn [map filter]. rewrite IH. reflexivity.
Qed.

Lemma words_normalise : forall code, words_of (normalise code) = words_of (unsigned code).
Proof.
  intro code. rewrite normalise_eq. change (unsigned code) with (remove_char 61 code). rewrite !words_remove, words_norm. reflexivity.
Qed.

Lemma fields_level : forall s, fields (level s) = fields s.
Proof.
  unfold level. induction s as [|c s IH]; [reflexivity|]. cbn [map fields]. rewrite IH. fold (apart c).
  destruct (apart c) eqn:E; [reflexivity|]. rewrite E. reflexivity.
Qed.
Lemma words_level : forall s, words_of (level s) = words_of s.
Proof. intro s. unfold words_of. rewrite fields_level. reflexivity. Qed.

Lemma words_sentence : forall l, words_of (sentence l) = flat_map words_of l.
Proof.
  unfold sentence. induction l as [|w l IH]; [reflexivity|]. destruct l as [|v l]; [cbn [join flat_map]; rewrite app_nil_r; reflexivity|].
  change (join (py " ") (w :: v :: l)) with (w ++ 32%N :: join (py " ") (v :: l)).
  rewrite words_sep by reflexivity. rewrite IH. reflexivity.
Qed.

Lemma split_words : forall raw, ~ In 124%N raw ->
  words_of raw = words_of (fst (taf_split raw)) ++ flat_map words_of (snd (taf_split raw)).
Proof.
  intros raw H. rewrite <- (words_level raw), <- (taf_split_level raw H), words_level, words_sentence. reflexivity.
Qed.

(** ** The first word of a change *)

Lemma fields_joins : forall w t, joins w -> fields (w ++ t) = match fields t with f :: fs => (w ++ f) :: fs | [] => [w] end.
Proof.
  intros w t H. induction H as [|c w Hc H IH]; cbn [app].
  - destruct (fields_some t) as (f & fs & ->). reflexivity.
  - cbn [fields]. rewrite Hc, IH. destruct (fields_some t) as (f & fs & ->). reflexivity.
Qed.

Definition apart_first (t : str) : Prop := match t with [] => True | c :: _ => apart c = true end.

Lemma words_first : forall w t, joins w -> w <> [] -> apart_first t -> words_of (w ++ t) = w :: words_of t.
Proof.
  intros w t H N A. unfold words_of. rewrite fields_joins by exact H. destruct t as [|c t].
  - cbn [fields]. rewrite app_nil_r. destruct w; [congruence|reflexivity].
  - cbn [apart_first] in A. cbn [fields]. rewrite A. cbn [filter]. rewrite app_nil_r. destruct w; [congruence|reflexivity].
Qed.

Lemma take_joins : forall s, exists w t, s = w ++ t /\ joins w /\ apart_first t.
Proof.
  induction s as [|c s (w & t & -> & J & A)]; [exists [], []; repeat split; constructor|].
  destruct (apart c) eqn:E.
  - exists [], (c :: w ++ t). split; [reflexivity|]. split; [apply Forall_nil|exact E].
  - exists (c :: w), t. split; [reflexivity|]. split; [apply Forall_cons; assumption|exact A].
Qed.

Lemma starts_joins : forall kw w t, joins kw -> apart_first t -> starts_with kw (w ++ t) = starts_with kw w.
Proof.
  induction kw as [|c kw IH]; intros w t J A; [reflexivity|]. inversion J as [|c0 k0 Hc Hk]; subst.
  destruct w as [|d w]; cbn [app starts_with].
  - destruct t as [|d t]; [reflexivity|]. cbn [apart_first] in A. destruct (N.eqb_spec c d) as [->|]; [congruence|reflexivity].
  - rewrite IH by assumption. reflexivity.
Qed.
Lemma begins_joins : forall kws w t, Forall joins kws -> apart_first t -> begins_any kws (w ++ t) = begins_any kws w.
Proof.
  intros kws w t J A. unfold begins_any. induction J as [|kw kws Hk J IH]; [reflexivity|]. cbn [existsb].
  rewrite starts_joins by assumption. rewrite IH. reflexivity.
Qed.
Lemma change_joins : Forall joins change_words.
Proof. unfold change_words. repeat (apply Forall_cons; [repeat (apply Forall_cons; [reflexivity|]); apply Forall_nil|]). apply Forall_nil. Qed.

Lemma first_word : forall c, begins_any change_words c = true ->
  exists w t, c = w ++ t /\ joins w /\ w <> [] /\ apart_first t /\ words_of c = w :: words_of t /\ begins_any change_words w = true.
Proof.
  intros c B. destruct (take_joins c) as (w & t & -> & J & A). exists w, t.
  rewrite begins_joins in B by (exact change_joins || exact A).
  assert (N : w <> []) by (intros ->; discriminate B).
  split; [reflexivity|]. split; [exact J|]. split; [exact N|]. split; [exact A|]. split; [exact (words_first w t J N A)|exact B].
Qed.

Lemma codes_begin : forall raw c, ~ In 124%N raw -> In c (snd (taf_split raw)) -> begins_any change_words c = true.
Proof.
  intros raw c Hb. unfold taf_split.
  set (s := sanitize_change_indicator raw). set (s' := if starts_with (py "TAF") s then _ else s).
  assert (E : level s' = level raw).
  { unfold s'. destruct (starts_with (py "TAF") s).
    - rewrite (replace_level (py "TAF ") (py "TAF_") ltac:(discriminate) eq_refl (length s)) by lia. apply sanitize_level.
    - apply sanitize_level. }
  assert (Hb' : ~ In 124%N s').
  { assert (G : In 124%N (level raw) -> In 124%N raw).
    { unfold level. intro K. apply in_map_iff in K. destruct K as (d & K1 & K2).
      destruct (is_space d || (d =? 95)%N); [discriminate|]. subst d. exact K2. }
    intro K. apply Hb, G. rewrite <- E. unfold level. apply in_map_iff. exists 124%N. split; [reflexivity|exact K]. }
  change [py "FM"; py "TEMPO"; py "BECMG"; py "PROB"] with change_words.
  rewrite split_left by (apply keywords_ok; reflexivity).
  destruct (mark_pieces change_words s' change_words_ok Hb') as (_ & Hne & _ & Hc).
  destruct (split_on 124 (mark (begins_any change_words) s')) as [|b l]; [congruence|]. cbn [snd tl] in *.
  rewrite Forall_forall in Hc. exact (Hc c).
Qed.

Lemma codes_count : forall code, ~ In 124%N (normalise code) ->
  length (filter filled (snd (taf_split (normalise code)))) <= change_count (unsigned code).
Proof.
  intros code Hb. unfold change_count. rewrite <- words_normalise, (split_words _ Hb), filter_app, app_length.
  pose proof (fun c => codes_begin _ c Hb) as H. generalize dependent (snd (taf_split (normalise code))). intros l H.
  assert (K : length (filter filled l) <= length (filter (begins_any change_words) (flat_map words_of l))); [|lia].
  induction l as [|c l IH]; [apply le_n|]. cbn [flat_map]. rewrite filter_app, app_length.
  destruct (first_word c (H c (or_introl eq_refl))) as (w & t & _ & _ & _ & _ & -> & B). cbn [filter]. rewrite B.
  specialize (IH (fun d I => H d (or_intror I))). destruct (filled c); cbn [length]; lia.
Qed.

Lemma codes_words : forall code c w, ~ In 124%N (normalise code) -> In c (snd (taf_split (normalise code))) ->
  In w (words_of c) -> In w (words_of (unsigned code)).
Proof.
  intros code c w Hb Ic Iw. rewrite <- words_normalise, (split_words _ Hb). apply in_or_app. right. apply in_flat_map. exists c. auto.
Qed.
