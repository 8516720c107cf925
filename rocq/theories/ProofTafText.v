(** * The sections of a TAF *)
From Coq Require Import String Ascii.
From Coq Require Import List NArith ZArith Bool Lia.
From Verif Require Import PyBase PyRegex AeroRegex Utils Base Taf StrFacts SpecText ProofText TextFacts
  RegexPaths MergeFacts SymRegex ProofGroups SymFirst ProofSections ProofMerge.
Import ListNotations.
Open Scope list_scope.

(** Either nothing matches or there is a first match. *)
Lemma first_hit : forall r s, mlen r [] = None ->
  quiet r s [] \/ exists a x t m, s = a ++ x ++ t /\ quiet r a (x ++ t) /\ re_match r (x ++ t) = Some m
    /\ m_end m = length x /\ den r x.
Proof.
  intros r s Hn. induction s as [|c s IH]; [left; apply quiet_nil|].
  destruct (re_match r (c :: s)) as [m|] eqn:E.
  - right. assert (L := re_match_mlen _ _ _ E). destruct (mlen_den r (c :: s) _ L) as (x & t & E1 & E2 & D).
    exists [], x, t, m. cbn [app]. rewrite <- E1. split; [reflexivity|]. split; [apply quiet_nil|]. auto.
  - assert (L : mlen r (c :: s) = None).
    { unfold re_match, mlen in *. destruct (run r 0 (c :: s)) as [|[[e t] sp] l]; [reflexivity|discriminate]. }
    destruct IH as [Q|(a & x & t & m & -> & Q & R)].
    + left. apply quiet_cons; [rewrite app_nil_r; exact L|exact Q].
    + right. exists (c :: a), x, t, m. split; [reflexivity|]. split; [|exact R]. apply quiet_cons; assumption.
Qed.

Lemma level_app : forall a b, level (a ++ b) = level a ++ level b.
Proof. intros a b. apply map_app. Qed.

Lemma prob_any : forall x t m, den r_SAN_PROB x -> re_match r_SAN_PROB (x ++ t) = Some m ->
  level (py "PROB" ++ fmt_opt (group m "percent") ++ py "_TEMPO") = level x.
Proof.
  intros x t m D Em. apply den_paths in D; [|reflexivity]. destruct D as (p & Hp & A).
  cbv in Hp. destruct Hp as [<-|[]]. read A.
  assert (E : c = 51%N \/ c = 52%N).
  { unfold in_cls in Hc. cbn [existsb in_citem] in Hc. rewrite orb_false_r in Hc. apply orb_true_iff in Hc.
    destruct Hc as [Hc|Hc]; apply andb_true_iff in Hc; destruct Hc as [H1 H2]; apply N.leb_le in H1, H2; lia. }
  rewrite in_space in Hc0.
  assert (G : group m "percent" = Some [c; 48%N]).
  { unfold re_match in Em. destruct E as [-> | ->]; cbn in Em; rewrite Hc0 in Em; cbn in Em;
      injection Em as <-; reflexivity. }
  rewrite G. cbn [fmt_opt]. unfold level. cbn [map app py]. rewrite Hc0. reflexivity.
Qed.

Lemma sanitize_level : forall k s, level (sanitize_change_indicator_n k s) = level s.
Proof.
  induction k as [|k IH]; intro s; [reflexivity|]. cbn [sanitize_change_indicator_n].
  destruct (first_hit r_SAN_PROB s eq_refl) as [Q|(a & x & t & m & -> & Q & Em & Ee & D)].
  - rewrite re_search_none by (try reflexivity; exact Q). reflexivity.
  - assert (Hx : x <> []).
    { intros ->. apply den_paths in D; [|reflexivity]. destruct D as (p & Hp & A).
      cbv in Hp. destruct Hp as [<-|[]]. inversion A. }
    destruct (re_search_some r_SAN_PROB a (x ++ t) m eq_refl Q Em) as (m' & Es & Eg & _).
    rewrite Es, IH, Eg.
    destruct (step_at r_SAN_PROB (py "PROB" ++ fmt_opt (group m "percent") ++ py "_TEMPO") a x t m
                eq_refl eq_refl Q Hx Em Ee) as (S1 & _).
    rewrite S1, (level_app a), (level_app _ t), (prob_any x t m D Em), <- !level_app. reflexivity.
Qed.

(** ** Replacing *)

Lemma replace_go_skip : forall old new a t, replace_go old new (length a) (a ++ t) = replace_go old new 0 t.
Proof.
  intros old new a t. induction a as [|c a IH]; [reflexivity|]. cbn [app length replace_go]. exact IH.
Qed.

Lemma replace_at : forall old new t, old <> [] -> replace old new (old ++ t) = new ++ replace old new t.
Proof.
  intros old new t H. unfold replace. destruct old as [|c old]; [congruence|].
  change ((c :: old) ++ t) with (c :: (old ++ t)). cbn [replace_go].
  change (c :: old ++ t) with ((c :: old) ++ t). rewrite starts_with_self.
  replace (length (c :: old) - 1) with (length old) by (cbn [length]; lia). rewrite replace_go_skip. reflexivity.
Qed.

Lemma replace_step : forall old new c t, old <> [] -> starts_with old (c :: t) = false ->
  replace old new (c :: t) = c :: replace old new t.
Proof.
  intros old new c t H E. unfold replace. destruct old as [|d old]; [congruence|]. cbn [replace_go]. rewrite E. reflexivity.
Qed.

Lemma replace_nil : forall old new, old <> [] -> replace old new [] = [].
Proof. intros [|c old] new H; [congruence|reflexivity]. Qed.

Lemma replace_absent : forall old new c s, In c old -> ~ In c s -> replace old new s = s.
Proof.
  intros old new c s Hc. assert (Ho : old <> []) by (destruct old; [destruct Hc|discriminate]).
  induction s as [|d s IH]; intro Hs; [apply replace_nil; exact Ho|].
  rewrite replace_step; [|exact Ho|].
  - rewrite IH; [reflexivity|]. intro K. apply Hs. right. exact K.
  - destruct (starts_with old (d :: s)) eqn:E; [|reflexivity].
    apply starts_with_app in E. destruct E as (t & E). destruct Hs. rewrite E. apply in_or_app. left. exact Hc.
Qed.

Lemma replace_level : forall old new, old <> [] -> level new = level old ->
  forall n s, length s <= n -> level (replace old new s) = level s.
Proof.
  intros old new Ho El n. induction n as [|n IH]; intros s Hs.
  - destruct s; [|cbn [length] in Hs; lia]. rewrite replace_nil by exact Ho. reflexivity.
  - destruct s as [|c s]; [rewrite replace_nil by exact Ho; reflexivity|].
    destruct (starts_with old (c :: s)) eqn:E.
    + apply starts_with_app in E. destruct E as (t & E). rewrite E, replace_at by exact Ho.
      rewrite !level_app, El, IH; [reflexivity|].
      assert (L : length (c :: s) = length old + length t) by (rewrite E; apply app_length).
      destruct old; [congruence|]. cbn [length] in *. lia.
    + rewrite replace_step by assumption. unfold level in *. cbn [map]. rewrite IH by (cbn [length] in Hs; lia). reflexivity.
Qed.

Lemma change_words_ok : Forall keyword change_words.
Proof. unfold change_words. repeat constructor; try discriminate; cbn; intuition discriminate. Qed.

Lemma taf_split_level : forall raw, ~ In 124%N raw ->
  level (sentence (fst (taf_split raw) :: snd (taf_split raw))) = level raw.
Proof.
  intros raw Hb. unfold taf_split.
  set (s := sanitize_change_indicator raw). set (s' := if starts_with (py "TAF") s then _ else s).
  assert (E : level s' = level raw).
  { unfold s'. destruct (starts_with (py "TAF") s).
    - rewrite (replace_level (py "TAF ") (py "TAF_") ltac:(discriminate) eq_refl (length s)) by lia. apply sanitize_level.
    - apply sanitize_level. }
  assert (Hb' : ~ In 124%N s').
  { assert (G : In 124%N (level raw) -> In 124%N raw).
    { unfold level. intro K. apply in_map_iff in K. destruct K as (c & K1 & K2).
      destruct (is_space c || (c =? 95)%N); [discriminate|]. subst c. exact K2. }
    intro K. apply Hb, G. rewrite <- E. unfold level. apply in_map_iff. exists 124%N. split; [reflexivity|exact K]. }
  change [py "FM"; py "TEMPO"; py "BECMG"; py "PROB"] with change_words.
  rewrite split_left by (apply keywords_ok; reflexivity).
  destruct (mark_pieces change_words s' change_words_ok Hb') as (Es & Hne & _).
  destruct (split_on 124 (mark (begins_any change_words) s')) as [|b l]; [congruence|]. cbn [fst snd].
  rewrite <- E, Es. unfold sentence. destruct l as [|q l]; cbn [join].
  - apply (replace_level (py "TAF_") (py "TAF ") ltac:(discriminate) eq_refl (length b)). lia.
  - rewrite !level_app. f_equal. apply (replace_level (py "TAF_") (py "TAF ") ltac:(discriminate) eq_refl (length b)). lia.
Qed.

(** ** Word by word *)

Lemma chunks_facts : forall l b cs, chunks l = (b, cs) ->
  l = b ++ concat cs /\ Forall (fun t => opens t = false) b
  /\ Forall (fun c => exists t r, c = t :: r /\ opens t = true /\ Forall (fun t => opens t = false) r) cs.
Proof.
  induction l as [|t l IH]; intros b cs E; cbn [chunks] in E.
  - injection E as <- <-. repeat constructor.
  - destruct (chunks l) as [b' cs'] eqn:E'. destruct (IH b' cs' eq_refl) as (-> & Hb & Hcs).
    destruct (opens t) eqn:Et; injection E as <- <-.
    + split; [reflexivity|]. split; [constructor|]. constructor; [|exact Hcs]. exists t, b'. auto.
    + split; [reflexivity|]. split; [constructor; assumption|exact Hcs].
Qed.

Lemma opens_joined : forall t, begins_any change_words (ct_joined t) = opens t.
Proof. intros [w|[|]]; reflexivity. Qed.

Lemma uncut_sentence : forall kws w ws, Forall keyword kws -> Forall (fun w => ~ In 32%N w) (w :: ws) ->
  Forall (fun w => begins_any kws w = false) ws -> uncut kws (sentence (w :: ws)).
Proof.
  intros kws w ws Hk. revert w. induction ws as [|v ws IH]; intros w Hw Hb a b E.
  - exfalso. inversion Hw as [|w0 l Hw0 _]; subst. apply Hw0. change (sentence [w]) with w in E. rewrite E.
    apply in_or_app. right. left. reflexivity.
  - inversion Hw as [|w0 l Hw0 Hws]; subst. inversion Hb as [|v0 l Hv Hvs]; subst.
    change (sentence (w :: v :: ws)) with (w ++ 32%N :: sentence (v :: ws)) in E.
    revert w Hw Hw0 E. induction a as [|c a IHa]; intros w Hw Hw0 E.
    + destruct w as [|d w]; [|injection E as -> E; destruct Hw0; left; reflexivity].
      injection E as E. subst b. rewrite begins_sentence by exact Hk. exact Hv.
    + destruct w as [|d w].
      * injection E as <- E. apply (IH v Hws Hvs a b E).
      * injection E as <- E. apply (IHa w); [|intro K; apply Hw0; right; exact K|exact E].
        constructor; [intro K; apply Hw0; right; exact K|exact Hws].
Qed.

Lemma sentence_concat : forall ls, Forall (fun l => l <> []) ls -> sentence (map sentence ls) = sentence (concat ls).
Proof.
  induction ls as [|l ls IH]; intro H; [reflexivity|]. inversion H as [|l0 x Hl Hls]; subst.
  destruct ls as [|l2 ls]; [cbn [map concat]; rewrite app_nil_r; reflexivity|].
  cbn [map]. unfold sentence at 1. rewrite join_cons by discriminate.
  cbn [concat]. unfold sentence at 4. rewrite join_app.
  - change (join (py " ") (l2 ++ concat ls)) with (sentence (concat (l2 :: ls))). rewrite <- IH by exact Hls. reflexivity.
  - exact Hl.
  - inversion Hls; subst. destruct l2; [congruence|discriminate].
Qed.

Lemma words_no32 : forall w, word w -> ~ In 32%N w.
Proof. intros w [_ H] K. rewrite Forall_forall in H. apply (H 32%N K). reflexivity. Qed.

Definition tok_ok (t : ctok) : Prop := match t with Plain w => word w | ProbTempo _ => True end.

Lemma joined_no32 : forall t, tok_ok t -> ~ In 32%N (ct_joined t).
Proof. intros [w|[|]] H; [apply words_no32; exact H| |]; cbn; intuition discriminate. Qed.

Lemma chunk_pieces : forall u l b cs, chunks l = (b, cs) -> Forall tok_ok l -> ~ In 32%N u ->
  pieces change_words (sentence (u :: map ct_joined l))
    (sentence (u :: map ct_joined b) :: map (fun c => sentence (map ct_joined c)) cs).
Proof.
  intros u l b cs E Hl Hu. destruct (chunks_facts l b cs E) as (-> & Hb & Hcs).
  apply Forall_app in Hl. destruct Hl as [Lb Lcs].
  assert (J : forall l, Forall tok_ok l -> Forall (fun w => ~ In 32%N w) (map ct_joined l)).
  { intros l H. apply Forall_map. eapply Forall_impl; [|exact H]. apply joined_no32. }
  assert (N : forall l, Forall (fun t => opens t = false) l ->
     Forall (fun w => begins_any change_words w = false) (map ct_joined l)).
  { intros l H. apply Forall_map. eapply Forall_impl; [|exact H]. intros t Ht. cbv beta. rewrite opens_joined. exact Ht. }
  split; [|split; [discriminate|split]].
  - rewrite <- (map_map (map ct_joined) sentence). rewrite <- (map_cons sentence (u :: map ct_joined b)).
    rewrite sentence_concat.
    + cbn [concat app]. rewrite map_app, concat_map. reflexivity.
    + constructor; [discriminate|]. apply Forall_map. eapply Forall_impl; [|exact Hcs].
      intros c (t & r & -> & _). discriminate.
  - constructor.
    + apply uncut_sentence; [apply change_words_ok| |].
      * constructor; [exact Hu|]. apply J. exact Lb.
      * apply N. exact Hb.
    + apply Forall_map. rewrite Forall_forall in *. intros c Hc. destruct (Hcs c Hc) as (t & r & -> & Ht & Hr).
      cbn [map]. apply uncut_sentence; [apply change_words_ok| |].
      * apply (J (t :: r)). apply Forall_forall. intros y Hy. apply Lcs. apply in_concat. exists (t :: r). auto.
      * apply N. exact Hr.
  - cbn [tl]. apply Forall_map. eapply Forall_impl; [|exact Hcs]. intros c (t & r & -> & Ht & _).
    cbn [map]. rewrite begins_sentence by apply change_words_ok. rewrite opens_joined. exact Ht.
Qed.

(** ** The header trick *)

Lemma ends_tail : forall p c w, ends_with p (c :: w) = false -> ends_with p w = false.
Proof.
  intros p c w H. destruct (ends_with p w) eqn:E; [|reflexivity]. unfold ends_with in *.
  apply starts_with_app in E. destruct E as (t & E). cbn [rev] in H. rewrite E, <- app_assoc, starts_with_self in H.
  discriminate.
Qed.

Lemma starts_TAF : forall w t, ~ In 32%N w -> starts_with (py "TAF ") (w ++ 32%N :: t) = true -> w = py "TAF".
Proof.
  intros w t Hw E. change (py "TAF ") with [84; 65; 70; 32]%N in E.
  destruct w as [|a [|b [|c [|d w]]]]; cbn [app starts_with] in E.
  - discriminate.
  - rewrite andb_false_r in E. discriminate.
  - rewrite !andb_false_r in E. discriminate.
  - apply andb_true_iff in E. destruct E as [E1 E]. apply andb_true_iff in E. destruct E as [E2 E].
    apply andb_true_iff in E. destruct E as [E3 E]. apply N.eqb_eq in E1, E2, E3. subst. reflexivity.
  - apply andb_true_iff in E. destruct E as [_ E]. apply andb_true_iff in E. destruct E as [_ E].
    apply andb_true_iff in E. destruct E as [_ E]. apply andb_true_iff in E. destruct E as [E _].
    apply N.eqb_eq in E. subst. destruct Hw. do 3 right. left. reflexivity.
Qed.

Lemma ends_cons : forall p c w, ends_with p (c :: w) = true -> ends_with p w = true \/ p = c :: w.
Proof.
  intros p c w H. unfold ends_with in *. cbn [rev] in H. apply starts_with_app in H. destruct H as (t & E).
  destruct (exists_last (l := rev p ++ t)) as (t' & x & Et).
  { rewrite <- E. destruct (rev w); discriminate. }
  destruct t as [|y t] using rev_ind.
  - right. rewrite app_nil_r in E. apply (f_equal (@rev N)) in E. rewrite rev_app_distr, !rev_involutive in E. auto.
  - left. rewrite app_assoc in E. apply app_inj_tail in E. destruct E as [E _]. rewrite E. apply starts_with_self.
Qed.

(** The words with the blank after a word ending in TAF made an underscore. *)
Definition gap (w : str) : N := if ends_with (py "TAF") w then 95%N else 32%N.
Fixpoint glued (ws : list str) : str :=
  match ws with
  | [] => []
  | [w] => w
  | w :: ws' => w ++ gap w :: glued ws'
  end.

Lemma gap_cons : forall c w, c :: w <> py "TAF" -> gap (c :: w) = gap w.
Proof.
  intros c w H. unfold gap. destruct (ends_with (py "TAF") w) eqn:E.
  - destruct (ends_with (py "TAF") (c :: w)) eqn:E2; [reflexivity|]. rewrite (ends_tail _ _ _ E2) in E. discriminate.
  - destruct (ends_with (py "TAF") (c :: w)) eqn:E2; [|reflexivity].
    destruct (ends_cons _ _ _ E2) as [K|K]; [congruence|]. congruence.
Qed.

Lemma replace_TAF_word : forall w t, ~ In 32%N w ->
  replace (py "TAF ") (py "TAF_") (w ++ 32%N :: t) = w ++ gap w :: replace (py "TAF ") (py "TAF_") t.
Proof.
  induction w as [|c w IH]; intros t Hw.
  - cbn [app]. rewrite replace_step; [reflexivity|discriminate|reflexivity].
  - destruct (list_eq_dec N.eq_dec (c :: w) (py "TAF")) as [E|E].
    + rewrite E. change (py "TAF" ++ 32%N :: t) with (py "TAF " ++ t). rewrite replace_at by discriminate. reflexivity.
    + rewrite gap_cons by exact E. cbn [app]. rewrite replace_step; [|discriminate|].
      * rewrite IH; [reflexivity|]. intro K. apply Hw. right. exact K.
      * destruct (starts_with (py "TAF ") (c :: w ++ 32%N :: t)) eqn:S; [|reflexivity].
        destruct E. exact (starts_TAF (c :: w) t Hw S).
Qed.

Lemma replace_TAF_sentence : forall ws, Forall (fun w => ~ In 32%N w) ws ->
  replace (py "TAF ") (py "TAF_") (sentence ws) = glued ws.
Proof.
  intros ws H1. induction ws as [|w ws IH]; [reflexivity|].
  inversion H1; subst. destruct ws as [|v ws].
  - apply (replace_absent _ _ 32%N); [do 3 right; left; reflexivity|assumption].
  - change (sentence (w :: v :: ws)) with (w ++ 32%N :: sentence (v :: ws)).
    rewrite replace_TAF_word by assumption. rewrite IH by assumption. reflexivity.
Qed.

(** And back. *)
Lemma starts_TAF_ : forall w g t, ~ In 95%N w -> (g = 95 \/ g = 32)%N ->
  starts_with (py "TAF_") (w ++ g :: t) = true -> w = py "TAF" /\ g = 95%N.
Proof.
  intros w g t Hw Hg E. change (py "TAF_") with [84; 65; 70; 95]%N in E.
  destruct w as [|a [|b [|c [|d w]]]]; cbn [app starts_with] in E.
  - destruct Hg as [-> | ->]; discriminate.
  - destruct Hg as [-> | ->]; cbn [N.eqb Pos.eqb andb] in E; rewrite ?andb_false_r in E; discriminate.
  - destruct Hg as [-> | ->]; cbn [N.eqb Pos.eqb andb] in E; rewrite ?andb_false_r in E; discriminate.
  - apply andb_true_iff in E. destruct E as [E1 E]. apply andb_true_iff in E. destruct E as [E2 E].
    apply andb_true_iff in E. destruct E as [E3 E]. apply andb_true_iff in E. destruct E as [E4 _].
    apply N.eqb_eq in E1, E2, E3, E4. subst. split; reflexivity.
  - apply andb_true_iff in E. destruct E as [_ E]. apply andb_true_iff in E. destruct E as [_ E].
    apply andb_true_iff in E. destruct E as [_ E]. apply andb_true_iff in E. destruct E as [E _].
    apply N.eqb_eq in E. subst. destruct Hw. do 3 right. left. reflexivity.
Qed.

Lemma gap_two : forall w, (gap w = 95 \/ gap w = 32)%N.
Proof. intro w. unfold gap. destruct (ends_with (py "TAF") w); auto. Qed.

Lemma restore_word : forall w t, ~ In 95%N w ->
  replace (py "TAF_") (py "TAF ") (w ++ gap w :: t) = w ++ 32%N :: replace (py "TAF_") (py "TAF ") t.
Proof.
  induction w as [|c w IH]; intros t Hw.
  - cbn [app]. rewrite replace_step; [reflexivity|discriminate|reflexivity].
  - destruct (list_eq_dec N.eq_dec (c :: w) (py "TAF")) as [E|E].
    + rewrite E. change (py "TAF" ++ gap (py "TAF") :: t) with (py "TAF_" ++ t). rewrite replace_at by discriminate. reflexivity.
    + rewrite gap_cons by exact E. cbn [app]. rewrite replace_step; [|discriminate|].
      * rewrite IH; [reflexivity|]. intro K. apply Hw. right. exact K.
      * destruct (starts_with (py "TAF_") (c :: w ++ gap w :: t)) eqn:S; [|reflexivity].
        destruct E. exact (proj1 (starts_TAF_ (c :: w) (gap w) t Hw (gap_two w) S)).
Qed.

Lemma restore_glued : forall ws, Forall (fun w => ~ In 95%N w) ws ->
  replace (py "TAF_") (py "TAF ") (glued ws) = sentence ws.
Proof.
  intros ws H. induction H as [|w ws Hw H IH]; [reflexivity|]. destruct ws as [|v ws].
  - apply (replace_absent _ _ 95%N); [do 3 right; left; reflexivity|exact Hw].
  - change (glued (w :: v :: ws)) with (w ++ gap w :: glued (v :: ws)). rewrite restore_word by exact Hw.
    rewrite IH. reflexivity.
Qed.

Lemma glued_sentence : forall ws, Forall no_taf ws -> glued ws = sentence ws.
Proof.
  intros ws H. induction H as [|w ws Hw H IH]; [reflexivity|]. destruct ws as [|v ws]; [reflexivity|].
  change (glued (w :: v :: ws)) with (w ++ gap w :: glued (v :: ws)). unfold gap. rewrite Hw, IH. reflexivity.
Qed.

Lemma glued_app : forall w a b, b <> [] -> no_taf (last a w) -> glued ((w :: a) ++ b) = glued (w :: a) ++ 32%N :: glued b.
Proof.
  intros w a b Hb. revert w. induction a as [|v a IH]; intros w H.
  - destruct b as [|x b]; [congruence|]. cbn [app last] in *.
    change (glued (w :: x :: b)) with (w ++ gap w :: glued (x :: b)). unfold gap. rewrite H. reflexivity.
  - assert (H' : no_taf (last a v)).
    { destruct a as [|u a]; [exact H|]. cbn [last] in H |- *.
      assert (D : forall (l : list str) x d d', last (x :: l) d = last (x :: l) d').
      { clear. induction l as [|y l IH]; intros x d d'; [reflexivity|]. cbn [last] in *. apply IH. }
      destruct a; [exact H|]. rewrite (D a s v w). exact H. }
    specialize (IH v H').
    change (glued ((w :: v :: a) ++ b)) with (w ++ gap w :: glued ((v :: a) ++ b)). rewrite IH.
    change (glued (w :: v :: a)) with (w ++ gap w :: glued (v :: a)). rewrite <- app_assoc. reflexivity.
Qed.

Definition no_sep (kws : list str) : Prop := Forall (fun kw => keyword kw /\ ~ In 95%N kw) kws.
Lemma change_words_no_sep : no_sep change_words.
Proof. unfold no_sep, change_words. repeat constructor; try discriminate; cbn; intuition discriminate. Qed.

Lemma starts_stop : forall p w g t, ~ In g p -> starts_with p (w ++ g :: t) = starts_with p w.
Proof.
  induction p as [|c p IH]; intros w g t H; [reflexivity|]. destruct w as [|d w]; cbn [app starts_with].
  - destruct (N.eqb_spec c g) as [->|E]; [destruct H; left; reflexivity|reflexivity].
  - rewrite IH; [reflexivity|]. intro K. apply H. right. exact K.
Qed.

Lemma begins_glued : forall kws w ws, no_sep kws -> begins_any kws (glued (w :: ws)) = begins_any kws w.
Proof.
  intros kws w ws H. destruct ws as [|v ws]; [reflexivity|].
  change (glued (w :: v :: ws)) with (w ++ gap w :: glued (v :: ws)). unfold begins_any.
  induction H as [|kw kws ((_ & K1 & _) & K2) H IH]; [reflexivity|]. cbn [existsb]. rewrite IH. f_equal.
  apply starts_stop. destruct (gap_two w) as [-> | ->]; assumption.
Qed.

Lemma uncut_glued : forall kws w ws, no_sep kws -> Forall (fun w => ~ In 32%N w) (w :: ws) ->
  Forall (fun w => begins_any kws w = false) ws -> uncut kws (glued (w :: ws)).
Proof.
  intros kws w ws Hk. revert w. induction ws as [|v ws IH]; intros w Hw Hb a b E.
  - exfalso. inversion Hw as [|w0 l Hw0 _]; subst. apply Hw0. change (glued [w]) with w in E. rewrite E.
    apply in_or_app. right. left. reflexivity.
  - inversion Hw as [|w0 l Hw0 Hws]; subst. inversion Hb as [|v0 l Hv Hvs]; subst.
    change (glued (w :: v :: ws)) with (w ++ gap w :: glued (v :: ws)) in E. revert E. generalize (gap w). intros g E.
    clear Hw. revert w Hw0 E. induction a as [|c a IHa]; intros w Hw0 E.
    + destruct w as [|d w]; [|injection E as -> E; destruct Hw0; left; reflexivity].
      apply (f_equal (@tl N)) in E. cbn [tl app] in E. rewrite <- E. rewrite begins_glued by exact Hk. exact Hv.
    + destruct w as [|d w].
      * apply (f_equal (@tl N)) in E. cbn [tl app] in E. apply (IH v Hws Hvs a b E).
      * injection E as <- E. apply (IHa w); [|exact E]. intro K; apply Hw0; right; exact K.
Qed.

Lemma joined_facts : forall l, Forall plain_tok l -> Forall (fun w => ~ In 124%N w) (map ct_joined l).
Proof.
  induction 1 as [|t l Ht H IH]; [constructor|]. destruct t as [w|n]; cbn [map ct_joined].
  - constructor; [apply Ht|exact IH].
  - constructor; [|exact IH]. destruct n; cbn; intuition discriminate.
Qed.

Lemma sentence_no : forall c ws, c <> 32%N -> Forall (fun w => ~ In c w) ws -> ~ In c (sentence ws).
Proof.
  intros c ws Hc H. induction H as [|w ws Hw H IH]; [intros []|]. destruct ws as [|v ws]; [exact Hw|].
  change (sentence (w :: v :: ws)) with (w ++ 32%N :: sentence (v :: ws)). intro K. apply in_app_or in K.
  destruct K as [K|[K|K]]; [exact (Hw K)|congruence|exact (IH K)].
Qed.

Lemma not_opens_plain : forall b, Forall (fun t => opens t = false) b -> Forall plain_tok b ->
  Forall (fun w => ~ In 95%N w) (map ct_joined b).
Proof.
  intros b H1 H2. rewrite Forall_forall in *. intros x Hx. apply in_map_iff in Hx. destruct Hx as (t & <- & Ht).
  specialize (H1 t Ht). specialize (H2 t Ht). destruct t as [w|n]; [apply H2|discriminate].
Qed.

Lemma glued_no : forall c ws, c <> 32%N -> c <> 95%N -> Forall (fun w => ~ In c w) ws -> ~ In c (glued ws).
Proof.
  intros c ws Hc Hd H. induction H as [|w ws Hw H IH]; [intros []|]. destruct ws as [|v ws]; [exact Hw|].
  change (glued (w :: v :: ws)) with (w ++ gap w :: glued (v :: ws)). intro K. apply in_app_or in K.
  destruct K as [K|[K|K]]; [exact (Hw K)|destruct (gap_two w); congruence|exact (IH K)].
Qed.

Lemma glued_TAF : forall w ws, glued (py "TAF" :: w :: ws) = glued ((py "TAF_" ++ w) :: ws).
Proof.
  intros w ws. destruct ws as [|v ws]; [reflexivity|].
  change (glued ((py "TAF_" ++ w) :: v :: ws)) with ((py "TAF_" ++ w) ++ gap (py "TAF_" ++ w) :: glued (v :: ws)).
  assert (G : gap (py "TAF_" ++ w) = gap w).
  { change (py "TAF_" ++ w) with (84 :: 65 :: 70 :: 95 :: w)%N. rewrite !gap_cons; [reflexivity| | | |];
      change (py "TAF") with [84; 65; 70]%N; intro K; inversion K. }
  rewrite G. reflexivity.
Qed.

Lemma taf_split_words : forall w l b cs, no_stray_pair (Plain (py "TAF") :: Plain w :: l) ->
  length (filter is_pair l) <= 5 -> Forall plain_tok (Plain w :: l) -> chunks l = (b, cs) -> taf_apart w b cs ->
  taf_split (sentence (py "TAF" :: w :: flat_map ct_words l))
  = (sentence (py "TAF" :: w :: map ct_joined b), map (fun c => sentence (map ct_joined c)) cs).
Proof.
  intros w l b cs Hs Hp Hw E Ha. unfold taf_split, sanitize_change_indicator.
  assert (S := sanitize_prob 5 _ Hs Hp). cbn [flat_map ct_words map ct_joined app] in S.
  rewrite S. clear S.
  assert (Hok : Forall tok_ok (Plain (py "TAF") :: Plain w :: l)) by apply Hs.
  inversion Hok as [|x y _ Hok1]; subst. inversion Hok1 as [|x y Hwd Hl]; subst. cbn [tok_ok] in Hwd.
  inversion Hw as [|x y Hw1 Hl2]; subst. destruct Hw1 as (W95 & W124).
  pose proof (joined_facts l Hl2) as J1.
  change (sentence (py "TAF" :: w :: map ct_joined l)) with (py "TAF" ++ 32%N :: sentence (w :: map ct_joined l)).
  rewrite starts_with_self.
  change (py "TAF" ++ 32%N :: sentence (w :: map ct_joined l)) with (sentence (py "TAF" :: w :: map ct_joined l)).
  assert (N32 : forall l, Forall tok_ok l -> Forall (fun w => ~ In 32%N w) (map ct_joined l)).
  { intros k H. apply Forall_map. eapply Forall_impl; [|exact H]. apply joined_no32. }
  rewrite replace_TAF_sentence.
  2:{ constructor; [cbn; intuition discriminate|]. constructor; [apply words_no32; exact Hwd|]. apply N32. exact Hl. }
  destruct (chunks_facts l b cs E) as (El & Hb & Hcs). subst l. rewrite map_app.
  apply Forall_app in Hl. destruct Hl as [Lb Lcs]. apply Forall_app in Hl2. destruct Hl2 as [Pb Pcs].
  rewrite map_app in J1. apply Forall_app in J1. destruct J1 as [Jb Jcs].
  set (body := glued (py "TAF" :: w :: map ct_joined b)).
  assert (E1 : glued (py "TAF" :: w :: map ct_joined b ++ map ct_joined (concat cs))
             = sentence (body :: map (fun c => sentence (map ct_joined c)) cs)).
  { destruct cs as [|c cs].
    - cbn [concat map]. rewrite app_nil_r. reflexivity.
    - destruct (Ha ltac:(discriminate)) as [A1 A2].
      change (py "TAF" :: w :: map ct_joined b ++ map ct_joined (concat (c :: cs)))
        with ((py "TAF" :: (w :: map ct_joined b)) ++ map ct_joined (concat (c :: cs))).
      rewrite glued_app.
      + fold body. rewrite glued_sentence by exact A2.
        change (sentence (body :: map (fun c0 => sentence (map ct_joined c0)) (c :: cs)))
          with (body ++ 32%N :: sentence (map (fun c0 => sentence (map ct_joined c0)) (c :: cs))).
        do 2 f_equal. rewrite <- (map_map (map ct_joined) sentence). rewrite sentence_concat.
        * rewrite concat_map. reflexivity.
        * apply Forall_map. eapply Forall_impl; [|exact Hcs]. intros c0 (t & r & -> & _). discriminate.
      + inversion Hcs as [|c0 x (t & r & -> & _) _]; subst. discriminate.
      + assert (D : forall (l : list str) x d, last (x :: l) d = last l x).
        { clear. induction l as [|y l IH]; intros x d; [reflexivity|]. change (last (y :: l) d = last (y :: l) x).
          rewrite (IH y d), (IH y x). reflexivity. }
        rewrite D. exact A1. }
  rewrite E1. change [py "FM"; py "TEMPO"; py "BECMG"; py "PROB"] with change_words.
  rewrite split_left by (apply keywords_ok; reflexivity).
  assert (P : pieces change_words (sentence (body :: map (fun c => sentence (map ct_joined c)) cs))
                (body :: map (fun c => sentence (map ct_joined c)) cs)).
  { assert (NO : forall l, Forall (fun t => opens t = false) l ->
       Forall (fun w => begins_any change_words w = false) (map ct_joined l)).
    { intros k H. apply Forall_map. eapply Forall_impl; [|exact H]. intros t Ht. cbv beta. rewrite opens_joined. exact Ht. }
    split; [reflexivity|]. split; [discriminate|]. split.
    - constructor.
      + unfold body. rewrite glued_TAF. apply uncut_glued; [exact change_words_no_sep| |].
        * constructor; [|apply N32; exact Lb]. intro K. apply in_app_or in K.
          destruct K as [K|K]; [cbn in K; intuition discriminate|exact (words_no32 w Hwd K)].
        * apply NO. exact Hb.
      + apply Forall_map. rewrite Forall_forall in *. intros c Hc. destruct (Hcs c Hc) as (t & r & -> & Ht & Hr).
        cbn [map]. apply uncut_sentence; [apply change_words_ok| |].
        * apply (N32 (t :: r)). apply Forall_forall. intros y Hy. apply Lcs. apply in_concat. exists (t :: r). auto.
        * apply NO. exact Hr.
    - cbn [tl]. apply Forall_map. eapply Forall_impl; [|exact Hcs]. intros c (t & r & -> & Ht & _).
      cbn [map]. rewrite begins_sentence by apply change_words_ok. rewrite opens_joined. exact Ht. }
  rewrite (pieces_unique change_words _ _ change_words_ok) with (2 := P).
  - f_equal. unfold body. apply restore_glued. constructor; [cbn; intuition discriminate|].
    constructor; [exact W95|]. apply not_opens_plain; assumption.
  - apply sentence_no; [discriminate|]. constructor.
    + unfold body. apply glued_no; [discriminate|discriminate|]. constructor; [cbn; intuition discriminate|].
      constructor; [exact W124|exact Jb].
    + apply Forall_map. rewrite Forall_forall. intros c Hc. apply sentence_no; [discriminate|].
      apply Forall_forall. intros y Hy. rewrite Forall_forall in Jcs. apply Jcs.
      apply in_map_iff in Hy. destruct Hy as (t & <- & Ht). apply in_map. apply in_concat. exists c. auto.
Qed.

(** The change codes are shown with spaces. *)
Lemma subst_absent : forall c d s, ~ In c s -> subst_char c d s = s.
Proof.
  intros c d s H. unfold subst_char. induction s as [|x s IH]; [reflexivity|]. cbn [map].
  destruct (N.eqb_spec x c) as [->|E]; [destruct H; left; reflexivity|].
  rewrite IH by (intro K; apply H; right; exact K). reflexivity.
Qed.

Lemma replace_joined : forall l, Forall plain_tok l ->
  replace (py "_") (py " ") (sentence (map ct_joined l)) = sentence (flat_map ct_words l).
Proof.
  intros l H. change (py "_") with [95%N]. change (py " ") with [32%N]. rewrite replace_char.
  induction H as [|t l Ht H IH]; [reflexivity|].
  assert (E : subst_char 95 32 (ct_joined t) = sentence (ct_words t)).
  { destruct t as [w|[|]]; [|reflexivity|reflexivity]. apply subst_absent. apply Ht. }
  destruct l as [|t2 l].
  - cbn [map flat_map]. rewrite app_nil_r. exact E.
  - change (sentence (map ct_joined (t :: t2 :: l))) with (ct_joined t ++ 32%N :: sentence (map ct_joined (t2 :: l))).
    unfold subst_char in *. rewrite map_app. cbn [map]. change (if (32 =? 95)%N then 32%N else 32%N) with 32%N.
    change (flat_map ct_words (t :: t2 :: l)) with (ct_words t ++ flat_map ct_words (t2 :: l)).
    unfold sentence at 2. rewrite join_app.
    + cbn [map] in IH, E. rewrite E, IH. reflexivity.
    + destruct t; discriminate.
    + destruct t2; discriminate.
Qed.

Lemma taf_sections_words : forall w l b cs, no_stray_pair (Plain (py "TAF") :: Plain w :: l) ->
  length (filter is_pair l) <= 5 -> Forall plain_tok (Plain w :: l) -> chunks l = (b, cs) -> taf_apart w b cs ->
  let s := taf_split (sentence (py "TAF" :: w :: flat_map ct_words l)) in
  taf_sections (fst s) (snd s)
  = [sentence (py "TAF" :: w :: flat_map ct_words b); sentence (flat_map ct_words (concat cs))].
Proof.
  intros w l b cs Hs Hp Hw E Ha s. unfold s. rewrite (taf_split_words w l b cs Hs Hp Hw E Ha).
  cbn [fst snd]. unfold taf_sections. inversion Hw as [|x y _ Hl]; subst.
  destruct (chunks_facts l b cs E) as (-> & Hb & Hcs). apply Forall_app in Hl. destruct Hl as [Lb Lcs].
  assert (B : map ct_joined b = flat_map ct_words b).
  { clear - Hb. induction Hb as [|t b Ht Hb IH]; [reflexivity|]. destruct t as [w|n]; [|discriminate].
    cbn [map flat_map ct_words ct_joined app]. rewrite IH. reflexivity. }
  rewrite B. do 2 f_equal. rewrite map_map.
  assert (M : map (fun c => replace (py "_") (py " ") (sentence (map ct_joined c))) cs
            = map (fun c => sentence (flat_map ct_words c)) cs).
  { apply map_ext_in. intros c Hc. apply replace_joined. rewrite Forall_forall in *. intros t Ht.
    apply Lcs. apply in_concat. exists c. auto. }
  rewrite M. rewrite <- (map_map (flat_map ct_words) sentence).
  change (join (py " ") (map sentence (map (flat_map ct_words) cs)))
    with (sentence (map sentence (map (flat_map ct_words) cs))).
  rewrite sentence_concat.
  - f_equal. clear. induction cs as [|c cs IH]; [reflexivity|]. cbn [map concat]. rewrite flat_map_app, IH. reflexivity.
  - apply Forall_map. eapply Forall_impl; [|exact Hcs]. intros c (t & r & -> & _). destruct t; discriminate.
Qed.

Lemma taf_split_sections : forall w l b cs, no_stray_pair (Plain (py "TAF") :: Plain w :: l) ->
  length (filter is_pair l) <= 5 -> Forall plain_tok (Plain w :: l) -> chunks l = (b, cs) -> taf_apart w b cs ->
  let s := taf_split (sentence (py "TAF" :: w :: flat_map ct_words l)) in
  fst s = sentence (py "TAF" :: w :: flat_map ct_words b)
  /\ snd s = map (fun c => sentence (map ct_joined c)) cs
  /\ taf_sections (fst s) (snd s)
     = [sentence (py "TAF" :: w :: flat_map ct_words b); sentence (flat_map ct_words (concat cs))].
Proof.
  intros w l b cs Hs Hp Hw E Ha s. assert (T := taf_sections_words w l b cs Hs Hp Hw E Ha). fold s in T. cbv zeta in T.
  assert (F := taf_split_words w l b cs Hs Hp Hw E Ha). fold s in F.
  split; [|split; [|exact T]].
  - unfold taf_sections in T. injection T as T _. exact T.
  - rewrite F. reflexivity.
Qed.
