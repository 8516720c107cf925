(** * Asking a report does not change it: proofs for C65 *)
From Coq Require Import String Ascii.
From Coq Require Import List NArith ZArith Bool Lia.
From Verif Require Import PyBase PyRegex PyFloat AeroRegex Base MetarGroups Trend Metar Taf AsDict Json Queries
  SpecQueries ProofLists ProofAbsent ProofProb ProofRangeReport ProofDictReport.
Import ListNotations.
Local Open Scope nat_scope.
Local Open Scope list_scope.

(** ** The shared attributes *)

(** The same but for the cursor of the clouds, and but for the buffer unless [b]. *)
Record alike (b : bool) (c c' : common) : Prop := {
  al_string : b = true -> c_string c' = c_string c;
  al_wind : c_wind c' = c_wind c;
  al_vis : c_vis c' = c_vis c;
  al_weathers : c_weathers c' = c_weathers c;
  al_max : gl_max (c_clouds c') = gl_max (c_clouds c);
  al_list : gl_list (c_clouds c') = gl_list (c_clouds c) }.

Lemma alike_refl : forall b c, alike b c c.
Proof. intros b c. constructor; reflexivity. Qed.

Lemma for_list : forall A B (body : A -> option B) f g, gl_max (snd (gl_for_fuel f body g)) = gl_max g
  /\ gl_list (snd (gl_for_fuel f body g)) = gl_list g.
Proof. intros A B body f g. split; apply gl_for_fuel_list. Qed.

Lemma for_ends : forall A B (body : A -> option B) f g g', length (gl_list g) < gl_n g + f -> 0 < f ->
  gl_for_fuel f body g = (None, g') -> gl_n g' = 0.
Proof.
  intros A B body f. induction f as [|f IH]; intros g g' L P E; [lia|]. cbn [gl_for_fuel] in E. unfold gl_next in E.
  destruct (Nat.leb_spec (length (gl_list g)) (gl_n g)) as [H|H].
  - injection E as <-. reflexivity.
  - destruct (nth_error (gl_list g) (gl_n g)) as [a|] eqn:N.
    + destruct (body a); [discriminate E|]. destruct f as [|f]; [lia|]. apply IH in E; [exact E| |lia]. cbn [gl_list gl_n]. lia.
    + apply nth_error_None in N. lia.
Qed.

Lemma cavok_alike : forall same c b c', should_be_cavok same c = Ok (b, c') ->
  exists g, c' = set_clouds g c /\ gl_max g = gl_max (c_clouds c) /\ gl_list g = gl_list (c_clouds c)
    /\ (b = true -> gl_n g = 0).
Proof.
  intros same c b c' E.
  assert (K : forall d, Ok (false, c) = Ok (d, c') -> b = d -> exists g, c' = set_clouds g c /\ gl_max g = gl_max (c_clouds c)
    /\ gl_list g = gl_list (c_clouds c) /\ (b = true -> gl_n g = 0)).
  { intros d H ->. exists (c_clouds c). injection H as <- <-. split; [destruct c; reflexivity|]. repeat split. intros X. discriminate X. }
  unfold should_be_cavok in E. destruct (Nat.ltb 0 _); [exact (K _ E eq_refl)|].
  destruct (ceiling_of _) as [[|]|]; cbn [bind] in E; [exact (K _ E eq_refl)| |discriminate E].
  destruct (v_vis (c_vis c)) as [v|]; [|exact (K _ E eq_refl)]. destruct (Nat.eqb _ 0); [exact (K _ E eq_refl)|].
  destruct (fltb v f10000); [exact (K _ E eq_refl)|]. clear K.
  unfold gl_for in E. destruct (for_list _ _ (fun cl => if cavok_rejects same cl then Some tt else None) (S (length (gl_list (c_clouds c)))) (c_clouds c)) as [M L].
  destruct (gl_for_fuel _ _ (c_clouds c)) as [[u|] g] eqn:F; injection E as <- <-; exists g; cbn [snd] in M, L;
    (split; [reflexivity|]); (split; [exact M|]); (split; [exact L|]); [intros X; discriminate X|].
  intros _. apply for_ends in F; [exact F|lia|lia].
Qed.

Lemma set_alike : forall b c c' g, alike b c c' -> gl_max g = gl_max (c_clouds c) -> gl_list g = gl_list (c_clouds c) ->
  alike b c (set_clouds g c').
Proof. intros b c c' g H M L. destruct H. constructor; try assumption. Qed.

(** Every question leaves the attributes alike. *)
Lemma attrs_alike : forall same b q c c', fresh c -> alike b c c' -> alike b c (snd (on_attrs same q c')).
Proof.
  intros same b q c c' F A. destruct q; cbn [on_attrs]; try exact A.
  - destruct (should_be_cavok same c') as [[d c1]|] eqn:E; [|exact A]. apply cavok_alike in E. destruct E as (g & -> & M & L & _).
    cbn [snd]. apply set_alike; [exact A| |]; [rewrite M; apply (al_max _ _ _ A)|rewrite L; apply (al_list _ _ _ A)].
  - rewrite gl_collect_spec. cbn [snd]. destruct A. constructor; try assumption. cbn. rewrite al_weathers0.
    destruct (c_weathers c) as [n mx l] eqn:W. destruct F as [F _]. rewrite W in F. cbn in F. rewrite F. reflexivity.
  - rewrite gl_collect_spec. cbn [snd]. apply set_alike; [exact A| |]; cbn; apply A.
Qed.

Lemma alike_same : forall b c c', alike b c c' -> gl_n (c_clouds c') = gl_n (c_clouds c) -> c' = set_string (c_string c') c.
Proof.
  intros b [s w v ws [n mx l]] [s' w' v' ws' [n' mx' l']] [A1 A2 A3 A4 A5 A6] N. cbn in *. subst. reflexivity.
Qed.

Lemma alike_true : forall c c', alike true c c' -> gl_n (c_clouds c') = gl_n (c_clouds c) -> c' = c.
Proof.
  intros c c' A N. rewrite (alike_same _ _ _ A N). rewrite (al_string _ _ _ A eq_refl). destruct c; reflexivity.
Qed.

(** Steady questions have the same answer whatever the cursor, all questions
    if the cursor is the same. *)
Lemma attrs_answer : forall same b q c c', alike b c c' -> steady_attr q = true \/ gl_n (c_clouds c') = gl_n (c_clouds c) ->
  fst (on_attrs same q c') = fst (on_attrs same q c).
Proof.
  intros same b q c c' A [S|N].
  - destruct A as [A1 A2 A3 A4 A5 A6]. destruct q; cbn [steady_attr] in S; try discriminate S; cbn [on_attrs].
    + cbn [fst]. unfold flight_rules. rewrite A3, A6. reflexivity.
    + rewrite A4. destruct (gl_collect (c_weathers c)). reflexivity.
    + cbn [fst]. rewrite A4. reflexivity.
    + cbn [fst]. unfold gl_get. rewrite A5, A6. reflexivity.
  - rewrite (alike_same _ _ _ A N). generalize (c_string c'). intros s. destruct q; cbn [on_attrs]; try reflexivity.
    + unfold should_be_cavok. cbn [c_weathers c_clouds c_vis set_string]. destruct (Nat.ltb 0 _); [reflexivity|].
      destruct (ceiling_of _) as [[|]|]; cbn [bind]; [reflexivity| |reflexivity].
      destruct (v_vis (c_vis c)) as [v|]; [|reflexivity]. destruct (Nat.eqb _ 0); [reflexivity|].
      destruct (fltb v f10000); [reflexivity|]. destruct (gl_for _ _) as [[u|] g]; reflexivity.
    + cbn [c_weathers set_string]. destruct (gl_collect (c_weathers c)). reflexivity.
    + cbn [c_clouds set_string]. destruct (gl_collect (c_clouds c)). reflexivity.
Qed.

Lemma attrs_fresh : forall same q c, fresh c -> fst (on_attrs same q c) <> ACavok (Ok false) -> fresh (snd (on_attrs same q c)).
Proof.
  intros same q c F N. destruct q; cbn [on_attrs] in *; try exact F.
  - destruct (should_be_cavok same c) as [[d c1]|] eqn:E; [|exact F]. cbn [fst snd] in *. apply cavok_alike in E.
    destruct E as (g & -> & _ & _ & Z). destruct d; [|contradiction N; reflexivity]. split; [apply F|exact (Z eq_refl)].
  - rewrite gl_collect_spec. split; [reflexivity|apply F].
  - rewrite gl_collect_spec. split; [apply F|reflexivity].
Qed.

(** ** Trends and changes *)

Lemma forecast_snd : forall code c, snd (forecast_dict code c)
  = set_weathers (mk_gl 0 (gl_max (c_weathers c)) (gl_list (c_weathers c)))
      (set_clouds (mk_gl 0 (gl_max (c_clouds c)) (gl_list (c_clouds c))) c).
Proof. intros code c. unfold forecast_dict. rewrite !gl_collect_spec. reflexivity. Qed.

Lemma forecast_alike : forall b code c c', fresh c -> alike b c c' -> alike b c (snd (forecast_dict code c')).
Proof.
  intros b code c c' F A. rewrite forecast_snd. destruct A as [A1 A2 A3 A4 A5 A6]. constructor; cbn; try assumption.
  rewrite A4. destruct F as [F _]. destruct (c_weathers c) as [n mx l]. cbn in F. rewrite F. reflexivity.
Qed.

Lemma period_alike : forall same b code text after q c c', fresh c -> alike b c c' -> (b = true -> after = c_string c') ->
  alike b c (snd (on_period same code text after q c')).
Proof.
  intros same b code text after q c c' F A T. destruct q; cbn [on_period].
  - cbn [snd]. destruct A. constructor; try assumption. intros H. cbn. rewrite (T H). auto.
  - pose proof (forecast_alike b code c c' F A) as H. destruct (forecast_dict code c'). exact H.
  - pose proof (forecast_alike b code c c' F A) as H. destruct (forecast_dict code c'). exact H.
  - exact (attrs_alike _ _ _ _ _ F A).
Qed.

Lemma forecast_same : forall code c s, fst (forecast_dict code (set_string s c)) = fst (forecast_dict code c).
Proof.
  intros code c s. unfold forecast_dict. cbn [c_weathers c_clouds set_string]. destruct (gl_collect (c_weathers c)).
  destruct (gl_collect (c_clouds c)). reflexivity.
Qed.

Lemma period_answer : forall same b code text after after' q c c', alike b c c' ->
  steady_period q = true \/ gl_n (c_clouds c') = gl_n (c_clouds c) ->
  fst (on_period same code text after' q c') = fst (on_period same code text after q c).
Proof.
  intros same b code text after after' q c c' A H. destruct q; cbn [on_period].
  - reflexivity.
  - destruct H as [H|N]; [discriminate H|]. rewrite (alike_same _ _ _ A N).
    pose proof (forecast_same code c (c_string c')) as S. destruct (forecast_dict code (set_string _ c)), (forecast_dict code c).
    cbn [fst] in *. rewrite S. reflexivity.
  - destruct H as [H|N]; [discriminate H|]. rewrite (alike_same _ _ _ A N).
    pose proof (forecast_same code c (c_string c')) as S. destruct (forecast_dict code (set_string _ c)), (forecast_dict code c).
    cbn [fst] in *. rewrite S. reflexivity.
  - exact (attrs_answer _ _ _ _ _ A H).
Qed.

Lemma forecast_fresh : forall code c, fresh c -> fresh (snd (forecast_dict code c)).
Proof. intros code c F. rewrite forecast_snd. split; reflexivity. Qed.

Lemma period_fresh : forall same code text after q c, fresh c -> fst (on_period same code text after q c) <> ACavok (Ok false) ->
  fresh (snd (on_period same code text after q c)).
Proof.
  intros same code text after q c F N. destruct q; cbn [on_period] in *.
  - exact F.
  - pose proof (forecast_fresh code c F) as H. destruct (forecast_dict code c). exact H.
  - pose proof (forecast_fresh code c F) as H. destruct (forecast_dict code c). exact H.
  - exact (attrs_fresh _ _ _ F N).
Qed.

(** ** Lists of trends and changes *)

Section Items.
Context {A : Type} (f : ask_period -> A -> answer * A) (rel : A -> A -> Prop) (rest : A -> Prop).
Hypothesis rel_ask : forall q p p', rest p -> rel p p' -> rel p (snd (f q p')).
Hypothesis rel_answer : forall q p p', rest p -> rel p p' -> steady_period q = true \/ rest p' -> fst (f q p') = fst (f q p).
Hypothesis rest_ask : forall q p, rest p -> fst (f q p) <> ACavok (Ok false) -> rest (snd (f q p)).
Hypothesis rest_dict : forall p, rest p -> rest (snd (f PDict p)).

Record listed (g g' : grouplist A) : Prop := {
  li_n : gl_n g' = gl_n g; li_max : gl_max g' = gl_max g; li_items : Forall2 rel (gl_list g) (gl_list g') }.

Lemma set_rel : forall l l' i p p', Forall2 rel l l' -> nth_error l i = Some p -> rel p p' -> Forall2 rel l (nth_set i p' l').
Proof.
  intros l l' i p p' H. revert i. induction H as [|x y l l' R H IH]; intros i N P; [destruct i; discriminate N|].
  destruct i as [|i]; cbn [nth_error nth_set] in *; constructor; auto. injection N as ->. exact P.
Qed.

Lemma nth_rel : forall l l' i, Forall2 rel l l' ->
  match nth_error l i with
  | Some p => exists p', nth_error l' i = Some p' /\ rel p p'
  | None => nth_error l' i = None
  end.
Proof.
  intros l l' i H. revert i. induction H as [|x y l l' R H IH]; intros i; [destruct i; reflexivity|].
  destruct i as [|i]; cbn [nth_error]; [exists y; auto|apply IH].
Qed.

Lemma item_listed : forall q i g g', Forall rest (gl_list g) -> listed g g' -> listed g (snd (ask_item (f q) i g')).
Proof.
  intros q i g g' R [N M I]. unfold ask_item. pose proof (nth_rel _ _ i I) as H.
  destruct (nth_error (gl_list g) i) as [p|] eqn:E.
  - destruct H as (p' & E' & P). rewrite E'. pose proof (rel_ask q p p' (proj1 (Forall_forall _ _) R _ (nth_error_In _ _ E)) P) as K.
    destruct (f q p') as [a p2]. cbn [snd] in *. constructor; cbn [gl_n gl_max gl_list gl_with]; try assumption.
    exact (set_rel _ _ _ _ _ I E K).
  - rewrite H. constructor; assumption.
Qed.

Lemma items_listed : forall g g', Forall rest (gl_list g) -> listed g g' -> listed g (ask_items (f PDict) g').
Proof.
  intros g g' R [N M I]. constructor; cbn [gl_n gl_max gl_list gl_with ask_items]; try assumption.
  clear N M. induction I as [|x y l l' P I IH]; cbn [map]; constructor.
  - exact (rel_ask _ _ _ (Forall_inv R) P).
  - exact (IH (Forall_inv_tail R)).
Qed.

Lemma item_answer : forall q i g g', Forall rest (gl_list g) -> listed g g' -> steady_period q = true \/ Forall rest (gl_list g') ->
  fst (ask_item (f q) i g') = fst (ask_item (f q) i g).
Proof.
  intros q i g g' R [N M I] S. unfold ask_item. pose proof (nth_rel _ _ i I) as H.
  destruct (nth_error (gl_list g) i) as [p|] eqn:E; [|rewrite H; reflexivity].
  destruct H as (p' & E' & P). rewrite E'.
  assert (K : fst (f q p') = fst (f q p)).
  { apply rel_answer; [exact (proj1 (Forall_forall _ _) R _ (nth_error_In _ _ E))|exact P|].
    destruct S as [S|S]; [left; exact S|right]. exact (proj1 (Forall_forall _ _) S _ (nth_error_In _ _ E')). }
  destruct (f q p'), (f q p). exact K.
Qed.

Lemma set_rest : forall l i p, Forall rest l -> rest p -> Forall rest (nth_set i p l).
Proof.
  intros l. induction l as [|x l IH]; intros i p R P; destruct i as [|i]; cbn [nth_set]; try assumption;
    constructor; [exact P|exact (Forall_inv_tail R)|exact (Forall_inv R)|exact (IH _ _ (Forall_inv_tail R) P)].
Qed.

Lemma item_rest : forall q i g, Forall rest (gl_list g) -> fst (ask_item (f q) i g) <> ACavok (Ok false) ->
  Forall rest (gl_list (snd (ask_item (f q) i g))).
Proof.
  intros q i g R N. unfold ask_item in *. destruct (nth_error (gl_list g) i) as [p|] eqn:E; [|exact R].
  pose proof (rest_ask q p (proj1 (Forall_forall _ _) R _ (nth_error_In _ _ E))) as K. destruct (f q p) as [a p'].
  cbn [fst snd] in *. apply set_rest; [exact R|exact (K N)].
Qed.

Lemma items_rest : forall g, Forall rest (gl_list g) -> Forall rest (gl_list (ask_items (f PDict) g)).
Proof.
  intros g R. cbn [gl_list ask_items gl_with]. apply Forall_forall. intros x I. apply in_map_iff in I. destruct I as (p & <- & I).
  apply rest_dict. exact (proj1 (Forall_forall _ _) R _ I).
Qed.

End Items.

(** ** Several questions *)

Section Turns.
Context {Q X : Type} (f : Q -> X -> answer * X) (rel : X -> X -> Prop) (rest : X -> Prop) (steady : Q -> bool) (x : X).
Hypothesis rest_x : rest x.
Hypothesis rel_x : rel x x.
Hypothesis rel_ask : forall q y, rel x y -> rel x (snd (f q y)).
Hypothesis answer_ask : forall q y, rel x y -> steady q = true \/ rest y -> fst (f q y) = fst (f q x).
Hypothesis rest_ask : forall q y, rest y -> fst (f q y) <> ACavok (Ok false) -> rest (snd (f q y)).

Lemma turns_rel : forall qs y, rel x y -> rel x (snd (in_turn f qs y)).
Proof.
  intros qs. induction qs as [|q qs IH]; intros y R; [exact R|]. cbn [in_turn].
  pose proof (rel_ask q y R) as K. destruct (f q y) as [a y1]. cbn [snd] in K. specialize (IH y1 K).
  destruct (in_turn f qs y1) as [l y2]. exact IH.
Qed.

Lemma turns_same : forall qs y, rel x y -> rest y -> never_no (fst (in_turn f qs y)) ->
  fst (in_turn f qs y) = map (fun q => fst (f q x)) qs /\ rest (snd (in_turn f qs y)).
Proof.
  intros qs. induction qs as [|q qs IH]; intros y R T N; [split; [reflexivity|exact T]|]. cbn [in_turn map] in *.
  pose proof (rel_ask q y R) as K. pose proof (answer_ask q y R (or_intror T)) as W. pose proof (rest_ask q y T) as Z.
  destruct (f q y) as [a y1]. cbn [fst snd] in *. destruct (in_turn f qs y1) as [l y2] eqn:E. cbn [fst snd] in *.
  assert (N1 : a <> ACavok (Ok false)) by (intros H; apply N; left; exact H).
  specialize (IH y1 K (Z N1)). rewrite E in IH. cbn [fst snd] in IH. destruct IH as [I1 I2]; [intros H; apply N; right; exact H|].
  split; [|exact I2]. rewrite <- W. f_equal. exact I1.
Qed.

Lemma turns_steady : forall qs q, steady q = true -> fst (f q (snd (in_turn f qs x))) = fst (f q x).
Proof. intros qs q S. apply answer_ask; [|left; exact S]. apply turns_rel. exact rel_x. Qed.

End Turns.
