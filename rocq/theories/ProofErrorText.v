(** * Proofs about the texts of RangeError, ValueError and TypeError *)
From Coq Require Import String Ascii.
From Coq Require Import List NArith ZArith Bool Lia.
From Verif Require Import PyBase PyRegex AeroRegex PyTime Utils Base MetarGroups Trend Metar Taf AsDict Setter ErrorText
  SpecNum SpecTime SpecText SpecTaf SpecMetar SpecFailures SpecTafFailures SpecRefused SpecRefusedTaf SpecErrorText StrFacts RegexPaths MergeFacts TextFacts Outcomes
  ProofText ProofSections ProofTafText ProofProb ProofTime Keeps OutTime OutMetar OutReport OutCalm OutTafTime OutTafWords OutTafChange OutTafBody OutTafHead OutTafPlaces OutTaf SpecSay ProofSay.
Import ListNotations.
Local Open Scope string_scope.
Local Open Scope nat_scope.
Local Open Scope list_scope.

(** ** A METAR *)

Lemma add_range : forall A (p : A) g, (exists g', gl_add p g = Ok g' /\ gl_max g' = gl_max g /\ length (gl_list g') = S (length (gl_list g)))
  \/ (gl_add p g = Raise RangeError /\ gl_max g <= length (gl_list g)).
Proof.
  intros A p g. unfold gl_add. destruct (Nat.leb_spec (gl_max g) (length (gl_list g))) as [H|H]; [right; auto|left].
  eexists. split; [reflexivity|]. cbn [gl_max gl_list]. rewrite app_length. cbn [length]. split; [reflexivity|lia].
Qed.

Lemma period_no_range : forall w t, real_time t -> change_period_new w t <> Raise RangeError.
Proof.
  intros w t R E. pose proof (change_period_outcome w t R) as P. rewrite E in P. cbn [outcome] in P.
  destruct P as [[P _]|(g & _ & P)]; [discriminate P|exact P].
Qed.

Lemma trends_error_iff : forall l x, real_time (t_dt (me_time x)) -> gl_max (me_trends x) = 2 ->
  (handle_trends l x = Raise RangeError <-> exists t, trends_error l x = Some t)
  /\ (forall t, trends_error l x = Some t -> t = many_trends /\ 3 <= length (gl_list (me_trends x)) + some_words l).
Proof.
  induction l as [|w l IH]; intros x R M; cbn [handle_trends trends_error].
  - split; [split; [discriminate|intros [t E]; discriminate E]|discriminate].
  - destruct w as [|c w]; [exact (IH x R M)|].
    unfold handle_weather_trend. pose proof (period_no_range (c :: w) _ R) as NR.
    destruct (change_period_new (c :: w) (t_dt (me_time x))) as [p|ex]; cbn [bind].
    2:{ split; [split; [intro E; elim NR; congruence|intros [t E]; discriminate E]|discriminate]. }
    destruct (add_range _ p (me_trends x)) as [(g & E & Mg & Lg)|[E Lg]]; rewrite E; cbn [bind].
    + set (x' := out_string _ _).
      assert (M' : gl_max (me_trends x') = 2) by (change (gl_max g = 2); congruence).
      destruct (IH x' R M') as [A B]. split; [exact A|]. intros t Et. destruct (B t Et) as [B1 B2]. split; [exact B1|].
      change (me_trends x') with g in B2. unfold some_words in *. cbn [filter length]. lia.
    + rewrite M in *. split; [split; [intros _; eexists; reflexivity|reflexivity]|].
      intros t Et. injection Et as <-. split; [vm_compute; reflexivity|]. unfold some_words. cbn [filter length]. lia.
Qed.

Lemma metar_range_both : forall e code y mo tr, clock_wf e -> month_wf e y mo ->
  (metar_parse e code y mo tr = Raise RangeError <-> exists t, metar_range_error e code y mo = Some t)
  /\ (forall t, metar_range_error e code y mo = Some t -> t = many_trends /\ 3 <= length (trends_of code)).
Proof.
  intros e code y mo tr C W. unfold metar_parse, metar_range_error.
  destruct code as [|c code0].
  { cbn [report_raw_code bind]. split; [split; [discriminate|intros [t E]; discriminate E]|discriminate]. }
  change (report_raw_code (c :: code0)) with (Ok (normalise (c :: code0))). set (code := c :: code0). cbn [bind].
  destruct (init_inv e code y mo C W) as (x0 & E0 & I). rewrite E0. cbn [bind].
  pose proof (body_lists e y mo (sanitize_body (section 0 (me_sections x0))) x0 (init_lists _ _ _ _ _ E0)) as NB.
  pose proof (parse_body_outcome e code y mo x0 tr W I) as P. unfold parse_body in *.
  destruct (parse_section (metar_handlers e y mo) (sanitize_body (section 0 (me_sections x0))) x0) as [[x un]|ex]; cbn [bind] in *.
  2:{ split; [split; [intro E; elim NB; congruence|intros [t E]; discriminate E]|discriminate]. }
  set (x1 := upd_unparsed _ x) in *. cbn [outcome] in P. destruct P as (T & Es & Et). unfold parse_weather_trend. rewrite Es.
  destruct (trends_error_iff (trend_codes (section 1 (metar_sections (normalise code)))) x1 (proj1 T) ltac:(rewrite Et; reflexivity)) as [A B].
  split.
  - rewrite <- A. destruct (handle_trends _ x1) as [x'|ex]; cbn [bind].
    + destruct (gl_collect (me_trends x')) as [l g]. cbv zeta.
      destruct (me_unparsed (upd_unparsed _ _)); [split; discriminate|]. destruct tr; split; discriminate.
    + split; intro H; injection H as ->; reflexivity.
  - intros t E. destruct (B t E) as [B1 B2]. split; [exact B1|]. rewrite Et in B2. exact B2.
Qed.

(** ** A TAF *)

Lemma add_all_range : forall A l (g : grouplist A), (exists g', gl_add_all l g = Ok g' /\ gl_max g' = gl_max g) \/ gl_add_all l g = Raise RangeError.
Proof.
  intros A. induction l as [|p l IH]; intro g; cbn [gl_add_all]; [left; exists g; auto|].
  destruct (add_range _ p g) as [(g' & E & M & _)|[E _]]; rewrite E; cbn [bind]; [|right; reflexivity].
  destruct (IH g') as [(g2 & E2 & M2)|E2]; [left; exists g2; split; [exact E2|congruence]|right; exact E2].
Qed.

Lemma changes_max : forall p g g', changes_add p g = Ok g' -> gl_max g' = gl_max g.
Proof.
  intros p g g'. unfold changes_add. cbv zeta.
  assert (D : forall h, gl_add p h = Ok g' -> gl_max g' = gl_max h).
  { intros h E. destruct (add_range _ p h) as [(g2 & E2 & M & _)|[E2 _]]; [|congruence]. congruence. }
  match goal with |- context [if ?b then _ else _] => destruct b end; [|apply D].
  destruct (pop_changes _ _ _) as [[rl temp]|ex]; cbn [bind]; [|discriminate].
  destruct (add_all_range _ temp (mk_gl (gl_n g) (gl_max g) (rev rl))) as [(g2 & E2 & M2)|E2]; rewrite E2; cbn [bind]; [|discriminate].
  intro E. rewrite (D _ E). exact M2.
Qed.

Lemma changes_error_text : forall l x t, gl_max (ta_changes x) = 8 -> changes_error l x = Some t -> t = many_changes.
Proof.
  induction l as [|w l IH]; intros x t M; cbn [changes_error]; [discriminate|].
  destruct w as [|c w]; [exact (IH x t M)|].
  destruct (change_fc_new (c :: w) (ta_valid x)) as [p|ex]; [|discriminate].
  destruct (changes_add p (ta_changes x)) as [g|ex] eqn:E.
  - apply IH. change (gl_max g = 8). rewrite (changes_max _ _ _ E). exact M.
  - destruct ex; try discriminate. intro H. injection H as <-. rewrite M. vm_compute. reflexivity.
Qed.

Lemma changes_error_some : forall l x t, changes_error l x = Some t -> handle_changes l x = Raise RangeError.
Proof.
  induction l as [|w l IH]; intros x t; cbn [changes_error handle_changes]; [discriminate|].
  destruct w as [|c w]; [exact (IH x t)|]. unfold handle_change_forecasted.
  destruct (change_fc_new (c :: w) (ta_valid x)) as [p|ex]; cbn [bind]; [|discriminate].
  destruct (changes_add p (ta_changes x)) as [g|ex]; cbn [bind]; [exact (IH _ t)|].
  destruct ex; try discriminate. reflexivity.
Qed.

Definition quiet (v : valid) (l : list str) : Prop := forall w, In w l -> w <> [] -> change_fc_new w v <> Raise RangeError.
Lemma changes_error_back : forall l x, quiet (ta_valid x) l -> handle_changes l x = Raise RangeError -> exists t, changes_error l x = Some t.
Proof.
  induction l as [|w l IH]; intros x Q; cbn [changes_error handle_changes]; [discriminate|].
  assert (Q' : quiet (ta_valid x) l) by (intros w' I; apply Q; right; exact I).
  destruct w as [|c w]; [exact (IH x Q')|]. unfold handle_change_forecasted.
  pose proof (Q (c :: w) (or_introl eq_refl) ltac:(discriminate)) as NR.
  destruct (change_fc_new (c :: w) (ta_valid x)) as [p|ex]; cbn [bind]; [|intro E; elim NR; congruence].
  destruct (changes_add p (ta_changes x)) as [g|ex]; cbn [bind]; [apply IH; exact Q'|].
  intro H. injection H as ->. eexists. reflexivity.
Qed.
Lemma taf_range_both : forall e code y mo tr, clock_wf e -> month_wf e y mo ->
  (taf_parse e code y mo tr = Raise RangeError <-> exists t, taf_range_error e code y mo = Some t)
  /\ (forall t, taf_range_error e code y mo = Some t ->
        (t = many_temps /\ exists p, In p [py "TX"; py "TN"] /\ 3 <= length (filter (starts_with p) (words_of_taf code)))
        \/ (t = many_changes /\ 9 <= length (changes_of code))).
Proof.
  intros e code year month tr C W. unfold taf_parse, taf_range_error.
  destruct code as [|c0 code0].
  { cbn [report_raw_code bind]. split; [split; [discriminate|intros [t E]; discriminate E]|discriminate]. }
  assert (N : c0 :: code0 <> []) by discriminate. change (report_raw_code (c0 :: code0)) with (Ok (normalise (c0 :: code0))).
  revert N. generalize (c0 :: code0). clear c0 code0. intros code N. cbn [bind].
  set (L := last_month (opt_default (now_year e) year) (opt_default (now_month e) month) \/ last_month (now_year e) (now_month e)).
  pose proof (taf_init_outcome e (normalise code) L C (fun H => or_intror H)) as P.
  destruct (taf_init e (normalise code)) as [x0|ex0]; cbn [bind outcome] in *.
  2:{ split; [split; [intro H; injection H as ->; cbn in P; contradiction|intros [t E]; discriminate E]|discriminate]. }
  destruct P as (Eb & I). rewrite Eb in I.
  assert (M0 : gl_max (ta_max x0) = 2) by (destruct I as (_ & _ & [K _] & _); exact K).
  assert (Q := taf_body_outcome e year month L (begun (py "TX") (words_of_taf code)) (begun (py "TN") (words_of_taf code)) (snd (taf_split (normalise code))) W (fun H => or_introl H) x0).
  rewrite Eb in Q. specialize (Q I).
  destruct (taf_parse_body e year month x0) as [x|ex1]; cbn [bind outcome] in *.
  2:{ destruct Q as (g & _ & K). destruct ex1; try (split; [split; [discriminate|intros [t E]; discriminate E]|discriminate]).
      split; [split; [intros _; eexists; reflexivity|reflexivity]|].
      intros t E. injection E as <-. left. rewrite M0. split; [vm_compute; reflexivity|].
      cbn [tb_cause] in K. unfold begun in K.
      destruct K as [K|K]; [exists (py "TX")|exists (py "TN")]; (split; [cbn [In]; auto|exact K]). }
  destruct Q as (Sx & Ec & Eo). unfold parse_changes_forecasted. rewrite Eo.
  assert (Hn : forall c g, In c (snd (taf_split (normalise code))) -> In g (change_groups c) -> ~ In 10%N g).
  { intros c g Ic Ig J. pose proof (weaker_char _ _ 10%N (taf_change_groups _ c g Ic Ig) eq_refl J) as J1.
    assert (R : report_raw_code code = Ok (normalise code)) by (destruct code; [contradiction|reflexivity]).
    destruct (raw_clean _ _ R) as (R1 & _). contradiction. }
  assert (Qt : quiet (ta_valid x) (snd (taf_split (normalise code)))).
  { intros w Iw _ E. pose proof (change_outcome L True w (ta_valid x) Sx (fun g => Hn w g Iw) (or_introl Logic.I)) as K.
    rewrite E in K. cbn [outcome] in K. destruct K as (g & _ & K). exact K. }
  assert (Hl : listed L True 0 (ta_changes x)) by (rewrite Ec; split; [reflexivity|split; [constructor|apply le_n]]).
  pose proof (handle_changes_outcome L True 0 _ x Sx Hn (fun _ _ _ => or_introl Logic.I) Hl) as P.
  set (l := snd (taf_split (normalise code))) in *.
  split.
  - destruct (handle_changes l x) as [x'|ex] eqn:E; cbn [bind].
    + destruct (gl_collect (ta_changes x')) as [l' g]. cbv zeta.
      assert (K : ~ exists t, changes_error l x = Some t) by (intros [t K]; apply changes_error_some in K; congruence).
      destruct (ta_unparsed (tupd_unparsed _ _)); [split; [discriminate|contradiction]|].
      destruct tr; (split; [discriminate|contradiction]).
    + split.
      * intro H. injection H as ->. exact (changes_error_back l x Qt E).
      * intros [t K]. apply changes_error_some in K. congruence.
  - intros t E. right. split; [exact (changes_error_text l x t ltac:(rewrite Ec; reflexivity) E)|].
    rewrite (changes_error_some l x t E) in P. cbn [outcome] in P.
    destruct P as [[_ K]|[[K _]|(c & g & _ & _ & K)]]; [exact K|discriminate K|contradiction].
Qed.

(** ** An index *)

Lemma get_range : forall A (cls : str) (g : grouplist A) i, gl_get g i = Raise RangeError <-> exists t, get_text cls g i = Some t.
Proof.
  intros A cls g i. unfold gl_get, get_text. destruct (Z.of_nat (gl_max g) <=? i)%Z.
  - split; [intros _; eexists; reflexivity|reflexivity].
  - split; [|intros [t E]; discriminate E]. cbv zeta.
    match goal with |- (if ?b then _ else _) = _ -> _ => destruct b end; [discriminate|]. destruct (nth_error _ _); discriminate.
Qed.

Lemma get_says : forall A (cls : str) (g : grouplist A) i t, get_text cls g i = Some t ->
  exists n, numeral n (N.of_nat (gl_max g)) /\ t = py "can't get more than " ++ n ++ py " items in <class '" ++ cls ++ py "'>".
Proof.
  intros A cls g i t. unfold get_text. destruct (_ <=? i)%Z; [|discriminate]. intro E. injection E as <-.
  exists (N_str (N.of_nat (gl_max g))). split; [apply numeral_N|]. unfold class_text. reflexivity.
Qed.

(** ** A cardinal point *)

Lemma first_char : forall (c : N) s, ~ In c s \/ exists a b, s = a ++ c :: b /\ ~ In c a.
Proof.
  intros c s. induction s as [|d s IH]; [left; intros []|].
  destruct (N.eq_dec d c) as [->|D]; [right; exists [], s; split; [reflexivity|intros []]|].
  destruct IH as [H|(a & b & -> & H)]; [left; intros [E|E]; contradiction|].
  right. exists (d :: a), b. split; [reflexivity|]. intros [E|E]; contradiction.
Qed.
Lemma split_behind : forall c w s n a, length a <= n -> In w (split_on c s) -> In w (split_on c (a ++ c :: s)).
Proof.
  intros c w s. induction n as [|n IH]; intros a L H.
  - destruct a; [|cbn in L; lia]. cbn [app]. change (c :: s) with ([] ++ c :: s). rewrite split_on_app by (intros []). right. exact H.
  - destruct (first_char c a) as [F|(a1 & a2 & -> & F)]; [rewrite split_on_app by exact F; right; exact H|].
    rewrite app_length in L. cbn [length] in L. rewrite <- app_assoc. cbn [app]. rewrite split_on_app by exact F. right.
    apply IH; [lia|exact H].
Qed.
Lemma quoted_piece : forall s w, quoted s w -> ~ In 39%N w -> In w (split_on 39%N s).
Proof.
  intros s w (a & b & ->) H. change (py "'") with [39%N]. cbn [app].
  apply (split_behind _ _ _ (length a)); [apply le_n|]. rewrite split_on_app by exact H. left. reflexivity.
Qed.

Definition is_lettered (w : str) : bool := forallb (fun c => N.leb 65 c && N.leb c 90) w.
Definition points (w : str) : bool := match from_cardinal w with Ok _ => true | Raise _ => false end.
Fixpoint holds_quoted (w s : str) : bool :=
  (if starts_with (39%N :: w ++ [39%N]) s then true else match s with [] => false | _ :: s' => holds_quoted w s' end).
Lemma holds_quoted_ok : forall w s, holds_quoted w s = true -> quoted s w.
Proof.
  intros w s. induction s as [|c s IH]; cbn [holds_quoted]; destruct (starts_with _ _) eqn:E.
  - discriminate.
  - discriminate.
  - intros _. apply starts_split in E. destruct E as [t ->]. exists [], t. change (py "'") with [39%N]. cbn [app].
    rewrite <- app_assoc. reflexivity.
  - intro H. destruct (IH H) as (a & b & ->). exists (c :: a), b. reflexivity.
Qed.
Lemma pieces_point : forallb (fun w => if is_lettered w then if points w then true else match w with [] => true | _ => false end else true) (split_on 39%N cardinal_text) = true.
Proof. vm_compute. reflexivity. Qed.
Lemma keys_quoted : forallb (fun w => holds_quoted w cardinal_text) (map fst COMPASS_DIRS) = true.
Proof. vm_compute. reflexivity. Qed.
Lemma not_empty_quoted : holds_quoted [] cardinal_text = false.
Proof. vm_compute. reflexivity. Qed.
Lemma quoted_holds : forall w s, quoted s w -> holds_quoted w s = true.
Proof.
  intros w s (a & b & ->). change (py "'") with [39%N]. cbn [app]. induction a as [|c a IH]; cbn [app].
  - cbn [holds_quoted]. replace (starts_with _ _) with true; [reflexivity|]. symmetry. apply starts_split.
    exists b. cbn [app]. rewrite <- app_assoc. reflexivity.
  - cbn [holds_quoted]. destruct (starts_with _ _); [reflexivity|exact IH].
Qed.

Lemma assoc_key : forall A (l : list (str * A)) w v, assoc w l = Some v -> In w (map fst l).
Proof.
  intros A l w v. induction l as [|[k u] l IH]; cbn [assoc map fst]; [discriminate|].
  destruct (str_eqb w k) eqn:K; [intros _; left; symmetry; apply str_eqb_eq; exact K|intro H; right; exact (IH H)].
Qed.
Lemma points_key : forall w d, from_cardinal w = Ok d -> In w (map fst COMPASS_DIRS).
Proof.
  intros w d. unfold from_cardinal. destruct (str_eqb w (py "N")) eqn:E.
  - intros _. apply str_eqb_eq in E. subst w. vm_compute. tauto.
  - destruct (assoc w COMPASS_DIRS) as [[a b]|] eqn:A; [|discriminate]. intros _.
    exact (assoc_key _ _ _ _ A).
Qed.
Lemma cardinal_listed : forall w, lettered w -> ((exists d, from_cardinal w = Ok d) <-> quoted cardinal_text w).
Proof.
  intros w L. split.
  - intros [d E]. apply points_key in E. pose proof keys_quoted as K. rewrite forallb_forall in K. apply holds_quoted_ok, K, E.
  - intro Q. assert (H : ~ In 39%N w).
    { intro J. unfold lettered in L. rewrite Forall_forall in L. specialize (L _ J). lia. }
    pose proof (quoted_piece _ _ Q H) as J. pose proof pieces_point as K. rewrite forallb_forall in K. specialize (K w J). cbv beta in K.
    replace (is_lettered w) with true in K.
    2:{ symmetry. unfold is_lettered. apply forallb_forall. intros c Ic. unfold lettered in L. rewrite Forall_forall in L. specialize (L c Ic).
        apply andb_true_intro. split; apply N.leb_le; lia. }
    unfold points in K. destruct (from_cardinal w) as [d|ex]; [exists d; reflexivity|].
    destruct w; [|discriminate K]. apply quoted_holds in Q. rewrite not_empty_quoted in Q. discriminate Q.
Qed.
Lemma keys_point : forallb points (map fst COMPASS_DIRS) = true.
Proof. vm_compute. reflexivity. Qed.
Lemma cardinal_fails : forall w ex, from_cardinal w = Raise ex -> ex = ValueError.
Proof.
  intros w ex E. destruct (assoc w COMPASS_DIRS) as [v|] eqn:A.
  - apply assoc_key in A. pose proof keys_point as K. rewrite forallb_forall in K. specialize (K w A).
    unfold points in K. rewrite E in K. discriminate K.
  - unfold from_cardinal in E. rewrite A in E. destruct (str_eqb w (py "N")); [vm_compute in E; discriminate E|congruence].
Qed.

(** ** Setting CAVOK *)

Lemma cavok_iff : forall v x, set_cavok v x = Raise TypeError <-> exists t, cavok_text v = Some t.
Proof. intros v x. destruct v; cbn; split; try discriminate; try (intros _; eexists; reflexivity); try reflexivity. intros [t E]; discriminate E. Qed.
Lemma cavok_type : forall v w t, cavok_text v = Some t -> cavok_text w = Some t <-> same_type v w.
Proof.
  intros v w t. destruct v; cbn [cavok_text]; try discriminate; intro E; injection E as <-; destruct w; cbn [cavok_text same_type];
    (split; [intro H; try exact I; exfalso; revert H; vm_compute; discriminate|intro H; try contradiction; reflexivity]).
Qed.
