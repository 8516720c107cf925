(** * The text of a TAF (C61) *)
From Coq Require Import String Ascii.
From Coq Require Import List NArith ZArith Bool Lia.
From Verif Require Import PyBase PyRegex AeroRegex PyTime Utils Base MetarGroups Trend Metar Taf StrFacts
  SpecLists ProofLists ProofValues ProofProb ProofAbsent SpecKept ProofKept ProofKeptReport ProofKeptMetar ProofKeptTaf SpecStr ProofStr.
Import ListNotations.
Local Open Scope string_scope.
Local Open Scope nat_scope.
Local Open Scope list_scope.

Lemma weave_left : forall A (l r w : list A) x, weave l r w -> weave (l ++ [x]) r (w ++ [x]).
Proof. intros A l r w x H. induction H; cbn [app]; repeat constructor; assumption. Qed.
Lemma weave_right : forall A (l r w : list A) x, weave l r w -> weave l (r ++ [x]) (w ++ [x]).
Proof. intros A l r w x H. induction H; cbn [app]; repeat constructor; assumption. Qed.

Definition taf_T (e : env) (ty temps : list str) (x : taf) : list (list str) := ty :: taf_lines e x ++ [temps].
Definition taf_lo : list nat := [0; 1; 2; 3; 4; 5; 6; 7; 8; 9; 12; 16].
Definition temps_said (x : taf) (temps : list str) : Prop :=
  weave (map taf_temp_str (gl_list (ta_max x))) (map taf_temp_str (gl_list (ta_min x))) temps.

Definition taf_R (e : env) (n : nat) (x : taf) : Prop :=
  exists ty temps, type_line (py "TAF") (ta_type x) ty /\ temps_said x temps
    /\ c_string (ta_common x) = lines (concat (taf_T e ty temps x)) /\ rest_empty taf_lo n (taf_T e ty temps x).

Lemma taf_line : forall e i f t n x x', taf_R e n x -> n <= i -> later_ok taf_lo i f = true ->
  c_string (ta_common x') = c_string (ta_common x) ++ t ++ [10%N] -> ta_type x' = ta_type x ->
  ta_max x' = ta_max x -> ta_min x' = ta_min x ->
  (forall ty temps, rest_empty taf_lo n (taf_T e ty temps x) ->
     taf_T e ty temps x' = set_nth f (nth f (taf_T e ty temps x) [] ++ [t]) (taf_T e ty temps x)) ->
  taf_R e (S i) x'.
Proof.
  intros e i f t n x x' (ty & temps & A & B & C & D) N L Es Et E1 E2 ET.
  destruct (advance taf_lo n i f (taf_T e ty temps x) _ t eq_refl L N D (ET ty temps D)) as [C' D'].
  exists ty, temps. rewrite Et. unfold temps_said. rewrite E1, E2. split; [exact A|]. split; [exact B|]. split; [|exact D'].
  rewrite C', lines_snoc, Es, C. reflexivity.
Qed.

Lemma taf_single : forall e f t n x x', n <= nth f taf_lo 99 ->
  (forall ty temps, taf_T e ty temps x' = set_nth f [t] (taf_T e ty temps x)) ->
  forall ty temps, rest_empty taf_lo n (taf_T e ty temps x) ->
     taf_T e ty temps x' = set_nth f (nth f (taf_T e ty temps x) [] ++ [t]) (taf_T e ty temps x).
Proof. intros e f t n x x' N H ty temps R. rewrite (R f N). cbn [app]. apply H. Qed.

Lemma taf_weather_line : forall e n i m x x', taf_R e n x -> n <= i -> 9 <= i < 12 -> tlift handle_weather m x = Ok x' -> taf_R e (S i) x'.
Proof.
  intros e n i m x x' H N I E. destruct (tlift_inv _ _ _ _ E) as (c & F & ->). destruct (metar_weather_str_step _ _ _ F) as (t & A & B & C & D & K).
  apply (taf_line e i 9 t n x); [exact H|exact N| |exact A|reflexivity|reflexivity|reflexivity|].
  - do 9 (destruct i as [|i]; [lia|]). do 3 (destruct i as [|i]; [reflexivity|]). lia.
  - intros ty temps _. unfold taf_T, taf_lines. cbn -[wind_line vis_line weather_lines cloud_lines]. rewrite B, C, D, K. reflexivity.
Qed.
Lemma taf_cloud_line : forall e n i m x x', taf_R e n x -> n <= i -> 12 <= i < 16 -> tlift handle_cloud m x = Ok x' -> taf_R e (S i) x'.
Proof.
  intros e n i m x x' H N I E. destruct (tlift_inv _ _ _ _ E) as (c & F & ->). destruct (metar_cloud_str_step _ _ _ F) as (t & A & B & C & D & K).
  apply (taf_line e i 10 t n x); [exact H|exact N| |exact A|reflexivity|reflexivity|reflexivity|].
  - do 12 (destruct i as [|i]; [lia|]). do 4 (destruct i as [|i]; [reflexivity|]). lia.
  - intros ty temps _. unfold taf_T, taf_lines. cbn -[wind_line vis_line weather_lines cloud_lines]. rewrite B, C, D, K. reflexivity.
Qed.

Lemma taf_temp_line : forall e n i m x x', taf_R e n x -> n <= i -> 16 <= i < 20 -> thandle_temperature m x = Ok x' -> taf_R e (S i) x'.
Proof.
  intros e n i m x x' (ty & temps & A & B & C & D) N I E.
  assert (X : exists t, c_string (ta_common x') = c_string (ta_common x) ++ t ++ [10%N] /\ ta_type x' = ta_type x
            /\ taf_lines e x' = taf_lines e x /\ temps_said x' (temps ++ [t])).
  { unfold thandle_temperature in E. destruct (taf_temp_new m _) as [t|]; [|discriminate E]. cbn [bind] in E. exists (taf_temp_str t).
    destruct (opt_str_eqb _ _).
    - destruct (gl_add t (ta_max x)) as [l|] eqn:G; [|discriminate E]. cbn [bind] in E. ending E. conjs; try reflexivity.
      unfold temps_said. cbn [tout_string tupd_common tupd_max ta_max ta_min]. rewrite (gl_add_list _ _ _ _ G), map_app. apply weave_left, B.
    - destruct (gl_add t (ta_min x)) as [l|] eqn:G; [|discriminate E]. cbn [bind] in E. ending E. conjs; try reflexivity.
      unfold temps_said. cbn [tout_string tupd_common tupd_min ta_max ta_min]. rewrite (gl_add_list _ _ _ _ G), map_app. apply weave_right, B. }
  destruct X as (t & X1 & X2 & X3 & X4).
  destruct (advance taf_lo n i 11 (taf_T e ty temps x) (taf_T e ty (temps ++ [t]) x') t eq_refl) as [C' D'].
  - do 16 (destruct i as [|i]; [lia|]). do 4 (destruct i as [|i]; [reflexivity|]). lia.
  - exact N.
  - exact D.
  - unfold taf_T. rewrite X3. reflexivity.
  - exists ty, (temps ++ [t]). rewrite X2. split; [exact A|]. split; [exact X4|]. split; [|exact D'].
    rewrite C', lines_snoc, X1, C. reflexivity.
Qed.

Ltac one_taf f t H N :=
  match goal with |- taf_R ?e (S ?i) _ =>
    apply (taf_line e i f t _ _ _ H N); [reflexivity|reflexivity|reflexivity|reflexivity|reflexivity|apply taf_single; [exact N|]]
  end;
  intros ty temps; unfold taf_T, taf_lines, tout_string;
  cbn [app set_nth tupd_common tupd_type tupd_station tupd_time tupd_modifier tupd_valid tupd_missing tupd_cancelled
       ta_common ta_type ta_station ta_time ta_modifier ta_valid ta_missing ta_cancelled].

Lemma taf_lines_ok : forall e y mo n i h m x x', nth_error (taf_handlers e y mo) i = Some h -> n <= i -> taf_R e n x ->
  h_handle h m x = Ok x' -> taf_R e (S i) x'.
Proof.
  intros e y mo n i h m x x' Hn N H E. unfold taf_handlers in Hn.
  each_slot i Hn ltac:(cbn [h_handle] in E).
  - destruct H as (ty & temps & A & B & C & D). assert (n = 0) by lia. subst n.
    assert (Z : ty = []) by exact (D 0 (le_n 0)). subst ty.
    unfold thandle_type in E. cbv zeta in E. ending E. exists [type_str (type_new (m_string m))], temps.
    split; [left; reflexivity|]. split; [exact B|].
    destruct (advance taf_lo 0 0 0 (taf_T e [] temps x) (taf_T e [type_str (type_new (m_string m))] temps x) (type_str (type_new (m_string m))) eq_refl eq_refl N D eq_refl) as [C' D'].
    split; [|exact D'].
    assert (K : c_string (ta_common (tout_string (type_str (type_new (m_string m))) (tupd_type (type_new (m_string m)) x)))
      = c_string (ta_common x) ++ type_str (type_new (m_string m)) ++ [10%N]) by reflexivity.
    rewrite K, C, <- lines_snoc, <- C'. reflexivity.
  - unfold thandle_modifier in E. cbv zeta in E. ending E. one_taf 1 (modifier_str (modifier_new (Some (m_string m)))) H N.
    rewrite modifier_code. reflexivity.
  - unfold thandle_station in E. cbv zeta in E. ending E. one_taf 2 (station_str e (station_new e (Some (m_string m)))) H N.
    rewrite station_code. reflexivity.
  - unfold thandle_time in E. destruct (time_from_metar e (Some m) y mo) as [v|] eqn:Ev; [|discriminate E]. cbn [bind] in E. ending E.
    one_taf 3 (time_str v) H N. rewrite (time_code _ _ _ _ _ Ev). reflexivity.
  - unfold thandle_missing in E. cbv zeta in E. ending E. one_taf 4 (modifier_str (mi_mod (missing_new (Some (m_string m))))) H N.
    rewrite missing_code. reflexivity.
  - unfold thandle_valid in E. destruct (valid_from_taf (Some m) _) as [v|] eqn:Ev; [|discriminate E]. cbn [bind] in E. ending E.
    one_taf 5 (valid_str v) H N. rewrite (valid_code _ _ _ Ev). reflexivity.
  - unfold thandle_cancelled in E. cbv zeta in E. ending E. one_taf 6 (cancelled_str (cancelled_new (Some m))) H N.
    rewrite cancelled_code. reflexivity.
  - destruct (tlift_inv _ _ _ _ E) as (c & F & ->). destruct (metar_wind_str_step _ _ _ F) as (t & A & B & C & D & K).
    apply (taf_line e 7 7 t _ _ _ H N); [reflexivity|exact A|reflexivity|reflexivity|reflexivity|apply taf_single; [exact N|]].
    intros ty temps. unfold taf_T, taf_lines. cbn -[wind_line vis_line weather_lines cloud_lines]. rewrite B, C, D, K. reflexivity.
  - destruct (tlift_inv _ _ _ _ E) as (c & F & ->). destruct (metar_vis_str_step _ _ _ F) as (t & A & B & C & D & K).
    apply (taf_line e 8 8 t _ _ _ H N); [reflexivity|exact A|reflexivity|reflexivity|reflexivity|apply taf_single; [exact N|]].
    intros ty temps. unfold taf_T, taf_lines. cbn -[wind_line vis_line weather_lines cloud_lines]. rewrite B, C, D, K. reflexivity.
  - exact (taf_weather_line _ _ _ _ _ _ H N ltac:(lia) E).
  - exact (taf_weather_line _ _ _ _ _ _ H N ltac:(lia) E).
  - exact (taf_weather_line _ _ _ _ _ _ H N ltac:(lia) E).
  - exact (taf_cloud_line _ _ _ _ _ _ H N ltac:(lia) E).
  - exact (taf_cloud_line _ _ _ _ _ _ H N ltac:(lia) E).
  - exact (taf_cloud_line _ _ _ _ _ _ H N ltac:(lia) E).
  - exact (taf_cloud_line _ _ _ _ _ _ H N ltac:(lia) E).
  - exact (taf_temp_line _ _ _ _ _ _ H N ltac:(lia) E).
  - exact (taf_temp_line _ _ _ _ _ _ H N ltac:(lia) E).
  - exact (taf_temp_line _ _ _ _ _ _ H N ltac:(lia) E).
  - exact (taf_temp_line _ _ _ _ _ _ H N ltac:(lia) E).
Qed.

Lemma taf_start_text : forall e raw x, taf_init e raw = Ok x -> taf_R e 0 x.
Proof.
  intros e raw x E. unfold taf_init in E.
  destruct (time_new e None None None None None None) as [t|] eqn:T; [|discriminate E]. cbn [bind] in E.
  assert (T1 : t_code t = None).
  { unfold time_new in T. cbv zeta in T. binds T. injection T as <-. reflexivity. }
  destruct (taf_split raw) as [body codes].
  destruct common_fresh as (c & Ec & C0 & C1 & C2 & C3 & C4). rewrite Ec in E. cbn [bind] in E.
  destruct (valid_from_taf None (t_dt t)) as [v|] eqn:V; [|discriminate E]. cbn [bind] in E.
  assert (V1 : va_code v = None).
  { unfold valid_from_taf in V. binds V. injection V as <-. reflexivity. }
  ending E. set (x := mk_taf _ _ _ _ _ _ _ _ _ _ _ _ _ _ _ _).
  assert (A : taf_T e [] [] x = repeat [] 12).
  { unfold taf_T, taf_lines, x. cbn [ta_type ta_modifier ta_station ta_time ta_missing ta_valid ta_cancelled ta_common].
    rewrite C1, C2, C3, C4, T1, V1. reflexivity. }
  exists [], []. split; [right; split; [reflexivity|unfold x; cbn [ta_type]; reflexivity]|]. split; [constructor|]. rewrite A.
  split; [exact C0|]. intros g _. do 12 (destruct g as [|g]; [reflexivity|]). destruct g; reflexivity.
Qed.

(** ** Changes *)

(** The translation of an FM indicator is its period. *)
Definition fm_said (p : change_fc) : Prop :=
  forall c, tc_code (cf_ind p) = Some c -> starts_with (py "FM") c = true -> tc_trans (cf_ind p) = Some (valid_str (tc_valid (cf_ind p))).
Definition is_fm (p : change_fc) : bool := match tc_code (cf_ind p) with Some c => starts_with (py "FM") c | None => false end.
(** The line of a FM change keeps its first end. *)
Definition said (U : time -> Prop) (p : change_fc) (l : str) : Prop :=
  fm_said p
  /\ if is_fm p
     then exists until, U until /\ l = py "from " ++ time_str (va_from (tc_valid (cf_ind p))) ++ py " until " ++ time_str until ++ [10%N]
     else l = change_fc_str p.
Definition first_end (U : time -> Prop) (p : change_fc) : Prop := is_fm p = true -> U (va_until (tc_valid (cf_ind p))).

Lemma said_new : forall U p, fm_said p -> first_end U p -> said U p (change_fc_str p).
Proof.
  intros U p F H. split; [exact F|]. unfold first_end in H. unfold is_fm in *. destruct (tc_code (cf_ind p)) as [c|] eqn:C; [|reflexivity].
  destruct (starts_with (py "FM") c) eqn:K; [|reflexivity]. exists (va_until (tc_valid (cf_ind p))). split; [exact (H eq_refl)|].
  unfold change_fc_str. rewrite (F c C K). cbn [translation_str concat_string app]. unfold concat_string. cbn [app]. unfold valid_str. rewrite <- !app_assoc. reflexivity.
Qed.
Lemma said_line : forall U p l, said U p l -> change_line p l.
Proof.
  intros U p l [_ H]. unfold is_fm in H. destruct (tc_code (cf_ind p)) as [c|] eqn:C; [|left; exact H].
  destruct (starts_with (py "FM") c) eqn:K; [|left; exact H]. destruct H as (until & _ & H). right. exists c, until. auto.
Qed.

Lemma fm_blanked : forall s, starts_with (py "FM") (blanked s) = starts_with (py "FM") s.
Proof.
  intro s. destruct s as [|a [|b s]]; [reflexivity| |]; cbn -[N.eqb].
  - destruct (N.eqb_spec a 95) as [->|]; [reflexivity|]. reflexivity.
  - destruct (N.eqb_spec a 95) as [->|]; destruct (N.eqb_spec b 95) as [->|]; reflexivity.
Qed.

Lemma change_fm_said : forall code v p, change_fc_new code v = Ok p -> fm_said p.
Proof.
  intros code t p E. unfold change_fc_new in E. cbv zeta in E.
  destruct common_fresh as (c & Ec & _). rewrite Ec in E. cbn [bind taf_ind_new] in E.
  destruct (parse_section change_handlers _ _) as [[p1 un]|] eqn:E1; [|discriminate E]. cbn [bind] in E. ending E.
  apply (parse_section_inv _ fm_said) in E1; [exact E1| |intros d K; discriminate K].
  intros h m s s' I Eh K. unfold change_handlers in I. cbn [In] in I.
  destruct I as [<-|[<-|I]].
  - cbn [h_handle] in Eh. unfold handle_change_indicator in Eh. destruct (taf_ind_new _ _) as [v|] eqn:Ev; [|discriminate Eh]. cbn [bind] in Eh. ending Eh.
    intros d. cbn [cf_set_ind cf_ind]. unfold taf_ind_new in Ev. destruct (starts_with (py "FM") (m_string m)) eqn:F.
    + binds Ev. cbv zeta in Ev. ending Ev. intros _ _. reflexivity.
    + destruct (change_indicator_new (Some m)) as [ct|] eqn:Ct; [|discriminate Ev]. cbn [bind] in Ev. ending Ev. cbn [tc_code].
      rewrite (change_ind_code _ _ Ct). intros Ed Sd. injection Ed as <-. rewrite fm_blanked, F in Sd. discriminate Sd.
  - cbn [h_handle] in Eh. unfold handle_change_valid in Eh. destruct (set_valid_period _ _ _) as [v|] eqn:Ev; [|discriminate Eh]. cbn [bind] in Eh. ending Eh.
    intros d. cbn [cf_set_ind cf_ind]. unfold set_valid_period in Ev. destruct (valid_from_taf (Some m) _) as [w|]; [|discriminate Ev]. cbn [bind] in Ev.
    destruct (tc_code (cf_ind s)) as [c0|] eqn:C0; [|discriminate Ev]. destruct (starts_with (py "FM") c0) eqn:F; ending Ev; [intros _ _; reflexivity|].
    cbn [tc_code]. intros Ed Sd. exfalso. apply (f_equal (fun o => match o with Some d => d | None => [] end)) in Ed.
    change (c0 ++ py " " ++ fmt_opt (va_code w) = d) in Ed. rewrite <- Ed in Sd. clear - F Sd.
    destruct c0 as [|a [|b c0]].
    + discriminate Sd.
    + change (starts_with (py "FM") ([a] ++ py " " ++ fmt_opt (va_code w))) with (N.eqb 70 a && false) in Sd. rewrite andb_false_r in Sd. discriminate Sd.
    + change (starts_with (py "FM") (a :: b :: c0) = true) in Sd. congruence.
  - repeat (destruct I as [<-|I]; [cbn [h_handle] in Eh|]); try contradiction;
      destruct (cf_lift_inv _ _ _ _ Eh) as (k & _ & ->); exact K.
Qed.

Lemma reset_said : forall U u p i l, reset_until_period u (cf_ind p) = Ok i -> said U p l -> said U (cf_set_ind i p) l.
Proof.
  intros U u p i l E [F L]. unfold reset_until_period in E. destruct (dt_add_hours _ _) as [d|]; [|discriminate E]. cbn [bind] in E. unfold is_fm in L.
  destruct (tc_code (cf_ind p)) as [c|] eqn:C; [|discriminate E]. destruct (starts_with (py "FM") c) eqn:K; cbv zeta in E; ending E.
  - split; [intros k _ _; reflexivity|]. unfold is_fm. cbn [cf_set_ind cf_ind tc_code tc_valid valid_new va_from]. rewrite K. exact L.
  - split; [exact F|]. unfold is_fm. change (cf_ind (cf_set_ind (cf_ind p) p)) with (cf_ind p). rewrite C, K. exact L.
Qed.

Lemma Forall2_refl : forall A (R : A -> A -> Prop) l, (forall x, R x x) -> Forall2 R l l.
Proof. intros A R l H. induction l; constructor; auto. Qed.

Definition keeps_said (p q : change_fc) : Prop := forall U l, said U q l -> said U p l.
Lemma pop_said : forall u rl temp rl' temp', pop_changes u rl temp = Ok (rl', temp') -> Forall2 keeps_said (rev rl' ++ temp') (rev rl ++ temp).
Proof.
  assert (R : forall l, Forall2 keeps_said l l) by (intro l; apply Forall2_refl; intros x U k; auto).
  intros u rl. induction rl as [|p rl IH]; intros temp rl' temp' E; cbn [pop_changes] in E.
  - injection E as <- <-. apply R.
  - destruct (tc_code (cf_ind p)) as [c|] eqn:C; [|discriminate E]. cbn [rev]. rewrite <- app_assoc.
    destruct (starts_with (py "PROB") c || starts_with (py "TEMPO") c); [exact (IH _ _ _ E)|].
    destruct (starts_with (py "FM") c) eqn:S.
    + destruct (reset_until_period u (cf_ind p)) as [i|] eqn:Ri; [|discriminate E]. cbn [bind] in E. injection E as <- <-.
      apply Forall2_app; [apply R|]. constructor; [|apply R]. intros U l K. exact (reset_said _ _ _ _ _ Ri K).
    + injection E as <- <-. apply R.
Qed.
Lemma changes_said : forall p g g', changes_add p g = Ok g' -> exists l, gl_list g' = l ++ [p] /\ Forall2 keeps_said l (gl_list g).
Proof.
  intros p g g' E. unfold changes_add in E. cbv zeta in E.
  destruct (_ && _).
  - destruct (pop_changes _ _ _) as [[rl temp]|] eqn:P; [|discriminate E]. cbn [bind] in E.
    destruct (gl_add_all _ _) as [g1|] eqn:G; [|discriminate E]. cbn [bind] in E.
    exists (gl_list g1). split; [exact (gl_add_list _ _ _ _ E)|]. rewrite (gl_add_all_list _ _ _ _ G). cbn [gl_list].
    apply pop_said in P. rewrite rev_involutive, app_nil_r in P. exact P.
  - exists (gl_list g). split; [exact (gl_add_list _ _ _ _ E)|]. apply Forall2_refl. intros x U k; auto.
Qed.
Lemma said_list : forall U ps qs ls, Forall2 keeps_said ps qs -> Forall2 (said U) qs ls -> Forall2 (said U) ps ls.
Proof.
  intros U ps qs ls H. revert ls. induction H as [|p q ps qs K H IH]; intros ls S; inversion S; subst; constructor; auto.
Qed.

Lemma Forall2_snoc : forall A B (R : A -> B -> Prop) l k a b, Forall2 R l k -> R a b -> Forall2 R (l ++ [a]) (k ++ [b]).
Proof. intros A B R l k a b H K. apply Forall2_app; [exact H|]. constructor; [exact K|constructor]. Qed.

Lemma changes_text : forall e U l x x' ls, handle_changes l x = Ok x' -> (forall code p, change_fc_new code (ta_valid x) = Ok p -> first_end U p) ->
  Forall2 (said U) (gl_list (ta_changes x)) ls ->
  gl_n (ta_changes x') = gl_n (ta_changes x)
  /\ exists ms, Forall2 (said U) (gl_list (ta_changes x')) (ls ++ ms)
       /\ c_string (ta_common x') = c_string (ta_common x) ++ lines ms
       /\ (forall ty temps, taf_T e ty temps x' = taf_T e ty temps x) /\ ta_type x' = ta_type x
       /\ ta_max x' = ta_max x /\ ta_min x' = ta_min x.
Proof.
  intros e U l. induction l as [|w l IH]; intros x x' ls E New F; cbn [handle_changes] in E.
  - injection E as <-. split; [reflexivity|]. exists []. unfold lines. cbn [map concat]. rewrite !app_nil_r. auto 8.
  - destruct w as [|c w]; [exact (IH _ _ _ E New F)|]. unfold handle_change_forecasted in E.
    destruct (change_fc_new (c :: w) _) as [p|] eqn:C; [|discriminate E]. cbn [bind] in E. pose proof (New _ _ C) as C'. apply change_fm_said in C.
    destruct (changes_add p (ta_changes x)) as [g|] eqn:G; [|discriminate E]. cbn [bind] in E.
    destruct (changes_same _ _ _ G) as (Gn & _). destruct (changes_said _ _ _ G) as (l0 & Gl & Gs).
    destruct (IH _ _ (ls ++ [change_fc_str p]) E New) as (N & ms & P & S & T & Ty & T1 & T2).
    { cbn [tout_string tupd_common tupd_changes ta_changes]. rewrite Gl. apply Forall2_snoc; [exact (said_list _ _ _ _ Gs F)|].
      exact (said_new _ _ C C'). }
    split; [rewrite N; exact Gn|]. exists (change_fc_str p :: ms). rewrite <- app_assoc in P.
    split; [exact P|]. split.
    { rewrite S. change (change_fc_str p :: ms) with ([change_fc_str p] ++ ms).
      rewrite lines_app. unfold lines at 2. cbn [map concat]. rewrite app_nil_r, app_assoc. reflexivity. }
    split; [exact T|]. split; [exact Ty|]. split; [exact T1|exact T2].
Qed.

Lemma changes_valid : forall l x x', handle_changes l x = Ok x' -> ta_valid x' = ta_valid x.
Proof.
  intros l. induction l as [|w l IH]; intros x x' E; cbn [handle_changes] in E; [congruence|].
  destruct w as [|c w]; [exact (IH _ _ E)|]. unfold handle_change_forecasted in E.
  destruct (change_fc_new (c :: w) _) as [p|]; [|discriminate E]. cbn [bind] in E.
  destruct (changes_add p (ta_changes x)) as [g|]; [|discriminate E]. cbn [bind] in E. exact (IH _ _ E).
Qed.

Lemma taf_text_by : forall e code y mo tr x U, taf_parse e code y mo tr = Ok x ->
  (forall w p, change_fc_new w (ta_valid x) = Ok p -> first_end U p) ->
  exists ty temps changes, type_line (py "TAF") (ta_type x) ty
    /\ weave (map taf_temp_str (gl_list (ta_max x))) (map taf_temp_str (gl_list (ta_min x))) temps
    /\ Forall2 (said U) (gl_list (ta_changes x)) changes
    /\ taf_str x = strip (lines (ty ++ concat (taf_lines e x) ++ temps ++ changes)).
Proof.
  intros e code y mo tr x U E New. unfold taf_parse in E. destruct (report_raw_code code) as [raw|]; [|discriminate E]. cbn [bind] in E.
  destruct (taf_init e raw) as [x0|] eqn:E0; [|discriminate E]. cbn [bind] in E.
  pose proof (taf_fresh _ _ _ E0) as (_ & _ & _ & F4 & _). apply taf_start_text in E0.
  unfold taf_parse_body in E. destruct (parse_section (taf_handlers e y mo) _ x0) as [[x1 un]|] eqn:E1; [|discriminate E]. cbn [bind] in E.
  assert (K1 : ta_changes x1 = ta_changes x0).
  { apply (parse_section_inv _ (fun x => ta_changes x = ta_changes x0)) in E1; [exact E1| |auto].
    intros h m s s' I Eh K. destruct (taf_frame _ _ _ _ _ _ _ I Eh) as (L1 & _). rewrite L1. exact K. }
  destruct (ordered_inv _ _ (taf_R e) (taf_lines_ok e y mo) _ _ _ _ E1 E0) as (n & ty & temps & A & B & C & _).
  unfold parse_changes_forecasted in E. destruct (handle_changes _ _) as [x2|] eqn:E2; [|discriminate E]. cbn [bind] in E.
  assert (V : ta_valid x = ta_valid x1).
  { pose proof (changes_valid _ _ _ E2) as V. cbn [ta_valid tupd_unparsed] in V. rewrite <- V. clear - E. destruct (gl_collect (ta_changes x2)) as [l g]. cbv zeta in E.
    assert (X : x = tupd_unparsed (ta_unparsed x2 ++ flat_map cf_unparsed l) (tupd_changes g x2)).
    { destruct (ta_unparsed (tupd_unparsed _ _)) as [|u us] in E; [congruence|]. destruct tr; [discriminate E|congruence]. }
    rewrite X. reflexivity. }
  destruct (changes_text e U _ _ _ [] E2) as (N & ms & P & S & T & Ty & T1 & T2).
  { intros w p. cbn [ta_valid tupd_unparsed]. rewrite <- V. exact (New w p). }
  { cbn [ta_changes tupd_unparsed]. rewrite K1, F4. constructor. }
  cbn [ta_changes tupd_unparsed] in N. rewrite K1, F4 in N. cbn in N. cbn [app] in P.
  rewrite (gl_collect_fresh _ N) in E. cbv zeta in E.
  set (x3 := tupd_unparsed _ _) in E.
  assert (X : x = x3) by (destruct (ta_unparsed x3); [congruence|]; destruct tr; [discriminate E|congruence]).
  rewrite X. exists ty, temps, ms. change (ta_type x3) with (ta_type x2). change (ta_max x3) with (ta_max x2). change (ta_min x3) with (ta_min x2).
  rewrite Ty, T1, T2. split; [exact A|]. split; [exact B|].
  change (gl_list (ta_changes x3)) with (gl_list (ta_changes x2)).
  split; [exact P|].
  change (taf_lines e x3) with (taf_lines e x2).
  unfold taf_str. change (c_string (ta_common x3)) with (c_string (ta_common x2)). rewrite S.
  change (c_string (ta_common (tupd_unparsed _ x1))) with (c_string (ta_common x1)). rewrite C.
  change (taf_T e ty temps x1) with (taf_T e ty temps (tupd_unparsed (ta_unparsed x1 ++ un) x1)).
  rewrite <- T. unfold taf_T. rewrite <- lines_app. cbn [concat]. rewrite !concat_app. cbn [concat].
  rewrite <- !app_assoc. cbn [app]. reflexivity.
Qed.

Lemma taf_text_ok : forall e code y mo tr x, taf_parse e code y mo tr = Ok x -> taf_text e x.
Proof.
  intros e code y mo tr x E. destruct (taf_text_by _ _ _ _ _ _ (fun _ => True) E) as (ty & temps & changes & A & B & C & D).
  { intros w p _ _. exact I. }
  exists ty, temps, changes. split; [exact A|]. split; [exact B|]. split; [|exact D].
  clear - C. induction C as [|p l ps ls K C IH]; constructor; [exact (said_line _ _ _ K)|exact IH].
Qed.
