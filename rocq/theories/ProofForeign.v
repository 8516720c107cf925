(** * A word that is no group of a report: proof *)
From Coq Require Import String Ascii.
From Coq Require Import List NArith ZArith Bool Lia.
From Verif Require Import PyBase PyRegex AeroRegex PyTime Utils Base MetarGroups Trend Metar Taf SpecText SpecWords SpecApart SpecJoined
  ProofText ProofSections ProofTafText ProofProb ProofMerge ProofWords ProofApart ProofJoined SpecForeign.
Import ListNotations.
Local Open Scope string_scope.
Local Open Scope nat_scope.
Local Open Scope list_scope.

(** ** Sections of any kind *)

Lemma remove_inserted : forall q g l l', g <> q -> inserted q l l' -> inserted q (list_remove g (l ++ [g])) (list_remove g (l' ++ [g])).
Proof.
  intros q g l l' N (a & b & -> & ->). rewrite <- !app_assoc. cbn [app]. induction a as [|x a IH].
  - cbn [app list_remove]. destruct (str_eqb g q) eqn:E; [apply str_eqb_eq in E; contradiction|].
    exists [], (list_remove g (b ++ [g])). split; reflexivity.
  - cbn [app list_remove]. destruct (str_eqb g x); [exists a, (b ++ [g]); split; reflexivity|].
    destruct IH as (a' & b' & -> & ->). exists (x :: a'), b'. split; reflexivity.
Qed.

Lemma first_match_accepts : forall S (hs : list (handler S)) c g r, first_match hs c g = Some r ->
  exists h m, In h hs /\ re_match (h_regexp h) g = Some m.
Proof.
  intros S hs. induction hs as [|h hs IH]; intros c g r E; cbn [first_match] in E; [discriminate E|].
  destruct (re_match (h_regexp h) g) as [m|] eqn:M; [exists h, m; split; [left; reflexivity|exact M]|].
  destruct (IH _ _ _ E) as (h' & m & I & M'). exists h', m. split; [right; exact I|exact M'].
Qed.

Lemma in_skipn : forall A (l : list A) n x, In x (skipn n l) -> In x l.
Proof. intros A l n x H. rewrite <- (firstn_skipn n l). apply in_or_app. right. exact H. Qed.

Lemma inserted_after : forall S (hs : list (handler S)) q, (forall h, In h hs -> re_match (h_regexp h) q = None) ->
  forall gs i u u' st, inserted q u u' -> related q (parse_groups hs gs i u st) (parse_groups hs gs i u' st).
Proof.
  intros S hs q F gs. induction gs as [|g gs IH]; intros i u u' st I; cbn [parse_groups]; [split; [reflexivity|exact I]|]. cbv zeta.
  destruct (first_match (skipn i hs) 0 g) as [[[n h] m]|] eqn:M.
  - assert (N : g <> q).
    { intros ->. destruct (first_match_accepts _ _ _ _ _ M) as (h' & m' & J & K). rewrite (F h' (in_skipn _ _ _ _ J)) in K. discriminate K. }
    destruct (h_handle h m st) as [st'|]; cbn [bind]; [|reflexivity]. apply IH. apply remove_inserted; assumption.
  - apply IH. destruct I as (a & b & -> & ->). exists a, (b ++ [g]). rewrite <- !app_assoc. split; reflexivity.
Qed.

Lemma first_match_none : forall S (hs : list (handler S)) g, (forall h, In h hs -> re_match (h_regexp h) g = None) ->
  forall c, first_match hs c g = None.
Proof.
  intros S hs g. induction hs as [|h hs IH]; intros F c; cbn [first_match]; [reflexivity|].
  rewrite (F h (or_introl eq_refl)). apply IH. intros h' I. apply F. right. exact I.
Qed.

Theorem foreign_groups : forall S (hs : list (handler S)) q, (forall h, In h hs -> re_match (h_regexp h) q = None) ->
  forall A B i u st, related q (parse_groups hs (A ++ B) i u st) (parse_groups hs (A ++ q :: B) i u st).
Proof.
  intros S hs q F A. induction A as [|g A IH]; intros B i u st; cbn [app parse_groups]; cbv zeta.
  - rewrite (first_match_none S (skipn i hs) q) by (intros h I; apply F; exact (in_skipn _ _ _ _ I)).
    apply inserted_after; [exact F|]. exists u, []. rewrite app_nil_r. split; reflexivity.
  - destruct (first_match (skipn i hs) 0 g) as [[[n h] m]|]; [|apply IH].
    destruct (h_handle h m st) as [st'|]; cbn [bind]; [apply IH|reflexivity].
Qed.

(** ** METAR *)

Lemma unparsed_trends : forall u l x, handle_trends l (upd_unparsed u x) = on_ok (upd_unparsed u) (handle_trends l x).
Proof.
  intros u l. induction l as [|w l IH]; intros x; cbn [handle_trends]; [reflexivity|].
  destruct w as [|c w]; [apply IH|]. unfold handle_weather_trend. cbn [me_time me_trends upd_unparsed].
  destruct (change_period_new (c :: w) _) as [p|]; cbn [bind]; [|reflexivity].
  destruct (gl_add p (me_trends x)) as [g|]; cbn [bind]; [|reflexivity].
  exact (IH (out_string (change_period_str p) (upd_out (me_out x ++ cp_out p) (upd_trends g x)))).
Qed.

Lemma trends_unparsed : forall l x x', handle_trends l x = Ok x' -> me_unparsed x' = me_unparsed x.
Proof.
  intros l x x' E. pose proof (unparsed_trends (me_unparsed x) l x) as K.
  assert (X : upd_unparsed (me_unparsed x) x = x) by (destruct x; reflexivity). rewrite X, E in K. cbn [on_ok] in K.
  injection K as K. rewrite K. reflexivity.
Qed.

Lemma handler_patterns : forall e y mo q, foreign metar_patterns q ->
  forall h, In h (metar_handlers e y mo) -> re_match (h_regexp h) q = None.
Proof.
  intros e y mo q F h I. apply (proj1 (Forall_forall _ _) F). unfold metar_handlers in I. cbn [In] in I.
  repeat (destruct I as [<-|I]; [cbn [h_regexp]; unfold metar_patterns; cbn [In]; tauto|]). contradiction.
Qed.

Lemma inserted_app : forall q l l' t, inserted q l l' -> inserted q (l ++ t) (l' ++ t).
Proof. intros q l l' t (a & b & -> & ->). exists a, (b ++ t). rewrite <- !app_assoc. split; reflexivity. Qed.
Lemma inserted_before : forall q l l' t, inserted q l l' -> inserted q (t ++ l) (t ++ l').
Proof. intros q l l' t (a & b & -> & ->). exists (t ++ a), b. rewrite <- !app_assoc. split; reflexivity. Qed.

Lemma foreign_read : forall e y mo q trend b1 b2 A B, foreign metar_patterns q ->
  (forall st, parse_section (metar_handlers e y mo) (sanitize_body b1) st = parse_groups (metar_handlers e y mo) (A ++ B) 0 [] st) ->
  (forall st, parse_section (metar_handlers e y mo) (sanitize_body b2) st = parse_groups (metar_handlers e y mo) (A ++ q :: B) 0 [] st) ->
  same_but q (metar_read e y mo false b1 trend) (metar_read e y mo false b2 trend)
  /\ forall x, metar_read e y mo true b2 trend <> Ok x.
Proof.
  intros e y mo q trend b1 b2 A B F G1 G2. unfold metar_read, metar_bodied. destruct (metar_init e [] y mo) as [x0|]; cbn [bind]; [|split; [reflexivity|discriminate]].
  rewrite G1, G2. pose proof (foreign_groups _ _ q (handler_patterns e y mo q F) A B 0 [] x0) as R. unfold related in R.
  destruct (parse_groups _ (A ++ B) 0 [] x0) as [[x1 u1]|]; destruct (parse_groups _ (A ++ q :: B) 0 [] x0) as [[x2 u2]|]; try contradiction; cbn [bind].
  2:{ split; [exact R|discriminate]. }
  destruct R as [-> I]. assert (J : inserted q (me_unparsed x1 ++ u1) (me_unparsed x1 ++ u2)) by (apply inserted_before; exact I).
  revert J. generalize (me_unparsed x1 ++ u1), (me_unparsed x1 ++ u2). intros v1 v2 J. unfold metar_trended. rewrite !unparsed_trends.
  destruct (handle_trends _ x1) as [x3|]; cbn [on_ok bind]; [|split; [reflexivity|discriminate]]. cbn [me_trends upd_unparsed me_unparsed].
  destruct (gl_collect (me_trends x3)) as [l g]. cbv zeta. cbn [me_unparsed upd_unparsed upd_trends].
  assert (K : inserted q (v1 ++ flat_map cp_unparsed l) (v2 ++ flat_map cp_unparsed l)) by (apply inserted_app; exact J).
  revert K. generalize (v1 ++ flat_map cp_unparsed l), (v2 ++ flat_map cp_unparsed l). intros z1 z2 K.
  assert (N : z2 <> []) by (destruct K as (a & b & _ & ->); destruct a; discriminate).
  destruct z2 as [|c z2]; [contradiction|]. split; [|discriminate]. destruct z1; (split; [reflexivity|exact K]).
Qed.

Lemma piece_body : forall ws, ws <> [] -> Forall plain_word ws -> Forall (fun v => ~ opening v) ws ->
  pieces section_words (sentence ws) [sentence ws] /\ begins_any section_words (sentence ws) = false.
Proof.
  intros ws N P O. assert (F : Forall (fun v => begins_any section_words v = false) ws).
  { eapply Forall_impl; [|exact O]. intros v Hv. cbv beta in Hv. unfold opening in Hv. destruct (begins_any section_words v); [contradiction Hv; reflexivity|reflexivity]. }
  assert (W : Forall (fun w => ~ In 32%N w) ws).
  { eapply Forall_impl; [|exact P]. intros v [[_ Z] _] I. apply (proj1 (Forall_forall _ _) Z _ I). reflexivity. }
  split.
  - split; [reflexivity|]. split; [discriminate|]. split; [|constructor]. constructor; [|constructor]. apply uncut_words; [exact W|].
    destruct ws; [constructor|exact (Forall_inv_tail F)].
  - destruct ws as [|w ws]; [contradiction|]. pose proof (Forall_inv F) as Fw. cbv beta in Fw. destruct ws as [|v ws]; [exact Fw|].
    change (sentence (w :: v :: ws)) with (w ++ 32%N :: sentence (v :: ws)).
    destruct (begins_any section_words (w ++ _)) eqn:X; [|reflexivity]. rewrite <- not_true_iff_false in Fw. exfalso. apply Fw.
    unfold begins_any in *. rewrite existsb_exists in *. destruct X as (k & I & K). exists k. split; [exact I|].
    exact (starts_cut _ _ _ (proj1 (Forall_forall _ _) section_words_plain _ I) K).
Qed.

(** The sections of a body followed by trends and remark. *)
Lemma body_sections : forall ts, appendix ts -> exists trend, forall ws, ws <> [] -> Forall plain_word ws -> Forall (fun v => ~ opening v) ws ->
  section 0 (metar_sections (sentence (ws ++ ts))) = sentence ws /\ section 1 (metar_sections (sentence (ws ++ ts))) = trend.
Proof.
  intros ts [Pt Ot]. destruct ts as [|w ts].
  - exists []. intros ws N P O. rewrite app_nil_r. destruct (piece_body ws N P O) as [Pc Bg].
    destruct (metar_sections_spec _ (plain_bars _ P)) as (ps & _ & U & ->). rewrite <- (U _ Pc). cbn [section nth body_of]. rewrite Bg.
    split; [reflexivity|]. unfold trends_of. cbn [filter]. unfold section_words, begins_any in Bg. rewrite existsb_app in Bg.
    apply orb_false_iff in Bg. destruct Bg as [Bg _]. unfold begins_any. rewrite Bg. reflexivity.
  - destruct (metar_sections_spec _ (plain_bars _ Pt)) as (qs & Hq & Uq & _). exists (strip (sentence (trends_of qs))). intros ws N P O.
    destruct (piece_body ws N P O) as [Pc Bg].
    destruct (appended_pieces ws w ts) as (ps & qs' & S1 & S2 & _ & M); [apply Forall_app; split; assumption|exact N|exact Ot|].
    assert (Ep : ps = [sentence ws]).
    { destruct (metar_sections_spec _ (plain_bars _ P)) as (rs & _ & U & _). rewrite (U _ S1), (U _ Pc). reflexivity. }
    rewrite (Uq _ S2) in M. rewrite M, Ep. cbn [app section nth body_of]. rewrite Bg. split; [reflexivity|].
    unfold trends_of. cbn [filter]. unfold section_words, begins_any in Bg. rewrite existsb_app in Bg.
    apply orb_false_iff in Bg. destruct Bg as [Bg _]. unfold begins_any at 1. rewrite Bg. reflexivity.
Qed.

Theorem metar_foreign : forall e w l1 q l2 ts t1 t2 y mo, kept_apart w (l1 ++ l2) -> kept_apart w (l1 ++ MWord q :: l2) ->
  foreign metar_patterns q -> appendix ts ->
  written (body_words w (l1 ++ l2) ++ ts) t1 -> written (body_words w (l1 ++ MWord q :: l2) ++ ts) t2 ->
  same_but q (metar_parse e t1 y mo false) (metar_parse e t2 y mo false)
  /\ forall x, metar_parse e t2 y mo true <> Ok x.
Proof.
  intros e w l1 q l2 ts t1 t2 y mo K1 K2 F Ap W1 W2. destruct (body_sections ts Ap) as (trend & Hs).
  assert (G : forall l, kept_apart w l ->
    (forall t, written (body_words w l ++ ts) t -> report_raw_code t = Ok (sentence (body_words w l ++ ts)))
    /\ section 0 (metar_sections (sentence (body_words w l ++ ts))) = sentence (body_words w l)
    /\ section 1 (metar_sections (sentence (body_words w l ++ ts))) = trend
    /\ forall S (hs : list (handler S)) st, parse_section hs (sanitize_body (sentence (body_words w l))) st = parse_groups hs (w :: map m_joined l) 0 [] st).
  { intros l (H1 & H2 & H3 & H4 & H5 & H6 & H7 & H8). assert (N : body_words w l <> []) by discriminate.
    destruct (Hs _ N H7 H8) as [S0 S1]. split; [|split; [exact S0|split; [exact S1|]]].
    - intros t Wt. apply (written_raw _ _ Wt). apply Forall_app. split; [exact H7|exact (proj1 Ap)].
    - intros S hs st. apply (body_groups hs st w l); try assumption. exact (proj1 (Forall_inv H7)). }
  destruct (G _ K1) as (R1 & A0 & A1 & G1). destruct (G _ K2) as (R2 & B0 & B1 & G2).
  destruct (foreign_read e y mo q trend (sentence (body_words w (l1 ++ l2))) (sentence (body_words w (l1 ++ MWord q :: l2)))
    (w :: map m_joined l1) (map m_joined l2) F) as [Q1 Q2].
  { intros st. rewrite G1, map_app. reflexivity. }
  { intros st. rewrite G2, map_app. reflexivity. }
  rewrite (metar_factor e t1 y mo false _ (R1 _ W1)), (metar_factor e t2 y mo false _ (R2 _ W2)), A0, A1, B0, B1. split.
  - revert Q1. unfold same_but. destruct (metar_read e y mo false _ trend) as [x|]; destruct (metar_read e y mo false _ trend) as [x'|];
      cbn [on_ok]; intros Q1; try contradiction; exact Q1.
  - intros x. rewrite (metar_factor e t2 y mo true _ (R2 _ W2)), B0, B1.
    destruct (metar_read e y mo true _ trend) as [x'|] eqn:E; cbn [on_ok]; [|discriminate]. destruct (Q2 x' eq_refl).
Qed.

(** ** Words with an odd first character *)

(** No match takes the character. *)
Fixpoint idle (c : N) (r : regex) : bool :=
  match r with
  | Eps | Bos | Eos => true
  | Chr k => negb (in_cls c k)
  | Seq a b => idle c a && idle c b
  | Alt a b => idle c a && idle c b
  | Star k => negb (in_cls c k)
  | Grp _ a => idle c a
  end.
(** There is no match. *)
Fixpoint stuck (c : N) (r : regex) : bool :=
  match r with
  | Chr k => negb (in_cls c k)
  | Seq a b => stuck c a || (idle c a && stuck c b)
  | Alt a b => stuck c a && stuck c b
  | Grp _ a => stuck c a
  | Eos => negb (c =? 10)%N
  | _ => false
  end.

Lemma idle_run : forall c s r, idle c r = true -> forall pos p t k, In (p, t, k) (run r pos (c :: s)) -> t = c :: s.
Proof.
  intros c s r. induction r as [|k|a IHa b IHb|a IHa b IHb|k|n a IHa| |]; intros H pos p t sp I; cbn [idle run run_star] in *.
  - destruct I as [E|[]]. injection E as _ <- _. reflexivity.
  - apply negb_true_iff in H. rewrite H in I. destruct I.
  - apply andb_prop in H. destruct H as [Ha Hb]. apply in_flat_map in I. destruct I as ([[p1 s1] k1] & I1 & I2).
    apply in_map_iff in I2. destruct I2 as ([[p2 s2] k2] & E & I2). injection E as _ <- _.
    apply (IHa Ha) in I1. subst s1. exact (IHb Hb _ _ _ _ I2).
  - apply andb_prop in H. destruct H as [Ha Hb]. apply in_app_or in I. destruct I as [I|I]; [exact (IHa Ha _ _ _ _ I)|exact (IHb Hb _ _ _ _ I)].
  - apply negb_true_iff in H. rewrite H in I. destruct I as [E|[]]. injection E as _ <- _. reflexivity.
  - apply in_map_iff in I. destruct I as ([[p1 s1] k1] & E & I). injection E as _ <- _. exact (IHa H _ _ _ _ I).
  - destruct (Nat.eqb pos 0); [|destruct I]. destruct I as [E|[]]. injection E as _ <- _. reflexivity.
  - destruct (at_end (c :: s)); [|destruct I]. destruct I as [E|[]]. injection E as _ <- _. reflexivity.
Qed.

Lemma stuck_run : forall c s r, stuck c r = true -> forall pos, run r pos (c :: s) = [].
Proof.
  intros c s r. induction r as [|k|a IHa b IHb|a IHa b IHb|k|n a IHa| |]; intros H pos; cbn [stuck run] in *; try discriminate H.
  - apply negb_true_iff in H. rewrite H. reflexivity.
  - apply orb_prop in H. destruct H as [H|H]; [rewrite (IHa H); reflexivity|]. apply andb_prop in H. destruct H as [Ha Hb].
    pose proof (idle_run c s a Ha pos) as K. induction (run a pos (c :: s)) as [|[[p1 s1] k1] l IHl]; [reflexivity|]. cbn [flat_map].
    rewrite (K p1 s1 k1 (or_introl eq_refl)), (IHb Hb). cbn [map app]. apply IHl. intros p t sp I. exact (K p t sp (or_intror I)).
  - apply andb_prop in H. destruct H as [Ha Hb]. rewrite (IHa Ha), (IHb Hb). reflexivity.
  - rewrite (IHa H). reflexivity.
  - apply negb_true_iff in H. unfold at_end. destruct s; [rewrite H|]; reflexivity.
Qed.

Lemma stuck_patterns : forallb (fun c => forallb (stuck c) metar_patterns) odd_characters = true.
Proof. vm_compute. reflexivity. Qed.

Theorem odd_foreign : forall c s, In c odd_characters -> foreign metar_patterns (c :: s).
Proof.
  intros c s I. pose proof (proj1 (forallb_forall _ _) stuck_patterns c I) as H. cbv beta in H. apply Forall_forall. intros r Hr.
  unfold re_match. rewrite (stuck_run c s r (proj1 (forallb_forall _ _) H r Hr)). reflexivity.
Qed.

Lemma stuck_taf_patterns : forallb (fun c => forallb (stuck c) taf_patterns) odd_characters = true.
Proof. vm_compute. reflexivity. Qed.

Theorem odd_foreign_taf : forall c s, In c odd_characters -> foreign taf_patterns (c :: s).
Proof.
  intros c s I. pose proof (proj1 (forallb_forall _ _) stuck_taf_patterns c I) as H. cbv beta in H. apply Forall_forall. intros r Hr.
  unfold re_match. rewrite (stuck_run c s r (proj1 (forallb_forall _ _) H r Hr)). reflexivity.
Qed.

(** ** Joining around the word *)

Lemma joined_not_frac : forall u x, number u = true -> frac_like (u ++ 95%N :: x) = false.
Proof.
  intros u x H. destruct (frac_like (u ++ 95%N :: x)) eqn:E; [|reflexivity]. apply frac_like_iff in E. destruct E as (a & b & t & E & _).
  destruct u as [|c u]; [discriminate H|]. cbn [number forallb] in H. apply andb_prop in H. destruct H as [_ H].
  destruct u as [|d u]; cbn [app] in E; [discriminate E|]. injection E as _ -> _. cbn [forallb] in H. discriminate H.
Qed.

Lemma left_over_app : forall v A B, A <> [] -> left_over v (A ++ B) = left_over v A ++ B.
Proof.
  intros v A B N. unfold left_over. destruct (skipn 5 v); [|reflexivity]. destruct A; [contradiction|reflexivity].
Qed.

Lemma join_cons : forall u v rest, join_first (u :: v :: rest) = if number u && frac_like v
  then Some ((u ++ py "_" ++ firstn 5 v) :: left_over v rest) else option_map (cons u) (join_first (v :: rest)).
Proof. reflexivity. Qed.

Definition good_head (l : list str) : Prop := match l with v :: _ => frac_like v = false | [] => True end.

Lemma join_head : forall B B', good_head B -> join_first B = Some B' -> good_head B' /\ B' <> [].
Proof.
  intros B B' G J. destruct B as [|u [|v rest]]; [discriminate J|discriminate J|]. rewrite join_cons in J.
  destruct (number u && frac_like v) eqn:E.
  - injection J as <-. apply andb_prop in E. destruct E as [E _]. split; [|discriminate]. exact (joined_not_frac u _ E).
  - destruct (join_first (v :: rest)); [|discriminate J]. injection J as <-. split; [exact G|discriminate].
Qed.

Lemma join_right : forall B q, number q = false -> join_first (q :: B) = option_map (cons q) (join_first B).
Proof. intros B q N. destruct B as [|v B]; [reflexivity|]. rewrite join_cons, N. reflexivity. Qed.

Lemma last_app_ne : forall A (l m : list A) d, m <> [] -> last (l ++ m) d = last m d.
Proof.
  intros A l m d N. induction l as [|x l IH]; [reflexivity|]. cbn [app]. rewrite <- IH. destruct (l ++ m) eqn:E; [|reflexivity].
  apply app_eq_nil in E. destruct E as [_ E]. contradiction.
Qed.

(** One round, with the word and without it. *)
Lemma join_insert : forall A q B, off_miles A q B ->
  (join_first (A ++ B) = None /\ join_first (A ++ q :: B) = None)
  \/ exists A' B', join_first (A ++ B) = Some (A' ++ B') /\ join_first (A ++ q :: B) = Some (A' ++ q :: B') /\ off_miles A' q B'.
Proof.
  intros A q B. revert q B. induction A as [|u A IH]; intros q B (Nq & Fq & H).
  - cbn [app]. rewrite join_right by exact Nq. destruct (join_first B) as [B'|] eqn:J; [|left; split; reflexivity].
    right. exists [], B'. split; [reflexivity|]. split; [reflexivity|].
    assert (G : good_head B) by (destruct B; [exact I|exact H]). destruct (join_head B B' G J) as [G' N'].
    split; [exact Nq|]. split; [exact Fq|]. destruct B' as [|b B']; [contradiction|exact G'].
  - destruct A as [|v A].
    + cbn [app]. assert (K1 : join_first (u :: q :: B) = option_map (cons u) (join_first (q :: B))).
      { rewrite join_cons, Fq, andb_false_r. reflexivity. }
      assert (K0 : join_first (u :: B) = option_map (cons u) (join_first B)).
      { destruct B as [|b B]; [reflexivity|]. rewrite join_cons, H, andb_false_r. reflexivity. }
      rewrite K0, K1, join_right by exact Nq. destruct (join_first B) as [B'|] eqn:J; [|left; split; reflexivity].
      right. exists [u], B'. split; [reflexivity|]. split; [reflexivity|].
      assert (G : good_head B) by (destruct B; [exact I|exact H]). destruct (join_head B B' G J) as [G' N'].
      split; [exact Nq|]. split; [exact Fq|]. destruct B' as [|b B']; [contradiction|exact G'].
    + cbn [app]. rewrite !join_cons. destruct (number u && frac_like v) eqn:E.
      * right. assert (Z : exists A'', left_over v (A ++ B) = A'' ++ B /\ left_over v (A ++ q :: B) = A'' ++ q :: B
          /\ (B = [] -> last A'' [] = last (v :: A) [] /\ A'' <> [])).
        { destruct A as [|a A].
          - cbn [app]. destruct B as [|b B].
            + exfalso. apply andb_prop in E. destruct E as [_ E]. cbn [last] in H. congruence.
            + unfold left_over. destruct (skipn 5 v) as [|c s]; [exists []|exists [c :: s]]; (split; [reflexivity|split; [reflexivity|discriminate]]).
          - rewrite !left_over_app by discriminate. exists (left_over v (a :: A)). split; [reflexivity|]. split; [reflexivity|]. intros _.
            unfold left_over. destruct (skipn 5 v); (split; [reflexivity|discriminate]). }
        destruct Z as (A'' & Z1 & Z2 & Z3). exists ((u ++ py "_" ++ firstn 5 v) :: A''), B. rewrite Z1, Z2. split; [reflexivity|]. split; [reflexivity|].
        split; [exact Nq|]. split; [exact Fq|]. destruct B as [|b B]; [|exact H]. destruct (Z3 eq_refl) as [L N].
        cbn [last] in *. destruct A''; [contradiction|]. rewrite L. exact H.
      * assert (O : off_miles (v :: A) q B) by (split; [exact Nq|split; [exact Fq|destruct B; exact H]]).
        destruct (IH q B O) as [[J1 J2]|(A' & B' & J1 & J2 & O')]; cbn [app] in J1, J2; rewrite J1, J2; [left; split; reflexivity|].
        right. exists (u :: A'), B'. split; [reflexivity|]. split; [reflexivity|]. destruct O' as (_ & _ & O').
        split; [exact Nq|]. split; [exact Fq|]. destruct B' as [|b B']; [|exact O']. destruct A' as [|a A']; [|exact O'].
        exfalso. cbn [app] in J1. destruct (A ++ B) as [|a l]; [discriminate J1|]. rewrite join_cons in J1.
        destruct (number v && frac_like a); [discriminate J1|]. destruct (join_first (a :: l)); discriminate J1.
Qed.

Lemma join_times_insert : forall n A q B, off_miles A q B ->
  exists A' B', join_times n (A ++ B) = A' ++ B' /\ join_times n (A ++ q :: B) = A' ++ q :: B'.
Proof.
  induction n as [|n IH]; intros A q B O; [exists A, B; split; reflexivity|]. cbn [join_times].
  destruct (join_insert A q B O) as [[J1 J2]|(A' & B' & J1 & J2 & O')]; rewrite J1, J2; [exists A, B; split; reflexivity|apply IH; exact O'].
Qed.

(** ** TAF *)

Lemma tswap_changes : forall raw body codes secs l x,
  handle_changes l (tswap raw body codes secs x) = on_ok (tswap raw body codes secs) (handle_changes l x).
Proof.
  intros raw body codes secs l. induction l as [|w l IH]; intros x; cbn [handle_changes]; [reflexivity|].
  destruct w as [|c w]; [apply IH|]. unfold handle_change_forecasted. cbn [ta_valid ta_changes tswap].
  destruct (change_fc_new (c :: w) _) as [p|]; cbn [bind]; [|reflexivity].
  destruct (changes_add p (ta_changes x)) as [g|]; cbn [bind]; [|reflexivity].
  exact (IH (tout_string (change_fc_str p) (tupd_changes g x))).
Qed.

Definition taf_changed (tr : bool) (codes : list str) (x : taf) : result taf :=
  x <- handle_changes codes x ;;
  let (l, g) := gl_collect (ta_changes x) in
  let x := tupd_unparsed (ta_unparsed x ++ flat_map cf_unparsed l) (tupd_changes g x) in
  match ta_unparsed x with
  | _ :: _ => if tr then Raise ParserError else Ok x
  | [] => Ok x
  end.
Definition taf_read (e : env) (y mo : option Z) (tr : bool) (body : str) (codes : list str) : result taf :=
  x <- taf_bodied e y mo body ;; taf_changed tr codes x.

Lemma taf_factored : forall e code y mo tr raw body codes, report_raw_code code = Ok raw -> taf_split raw = (body, codes) ->
  taf_parse e code y mo tr = on_ok (tswap raw body codes (taf_sections body codes)) (taf_read e y mo tr body codes).
Proof.
  intros e code y mo tr raw body codes R Sp. unfold taf_parse, taf_read, taf_bodied. rewrite R. cbn [bind]. set (secs := taf_sections body codes).
  assert (I : taf_init e raw = on_ok (tswap raw body codes secs) (taf_start e)).
  { unfold taf_init, taf_start. rewrite Sp.
    repeat (match goal with |- bind ?r _ = on_ok _ (bind ?r _) => destruct r; cbn [bind]; [|reflexivity] end). reflexivity. }
  rewrite I. destruct (taf_start e) as [x0|]; cbn [on_ok bind]; [|reflexivity].
  unfold taf_parse_body, parse_section. cbn [ta_body tswap].
  rewrite (parse_groups_map _ _ (tswap raw body codes secs) (fun h m s => tswap_handlers raw body codes secs e y mo h m s)).
  destruct (parse_groups _ _ 0 [] x0) as [[x1 un]|]; cbn [on_ok bind fst snd]; [|reflexivity].
  change (tupd_unparsed (ta_unparsed (tswap raw body codes secs x1) ++ un) (tswap raw body codes secs x1))
    with (tswap raw body codes secs (tupd_unparsed (ta_unparsed x1 ++ un) x1)).
  generalize (tupd_unparsed (ta_unparsed x1 ++ un) x1). intros x2. unfold parse_changes_forecasted, taf_changed. cbn [ta_codes tswap].
  rewrite tswap_changes. destruct (handle_changes codes x2) as [x3|]; cbn [on_ok bind]; [|reflexivity].
  cbn [ta_changes ta_unparsed tswap]. destruct (gl_collect (ta_changes x3)) as [l g]. cbv zeta. cbn [ta_unparsed tupd_unparsed].
  destruct (ta_unparsed x3 ++ flat_map cf_unparsed l); [reflexivity|]. destruct tr; reflexivity.
Qed.

Lemma unparsed_changes : forall u l x, handle_changes l (tupd_unparsed u x) = on_ok (tupd_unparsed u) (handle_changes l x).
Proof.
  intros u l. induction l as [|w l IH]; intros x; cbn [handle_changes]; [reflexivity|].
  destruct w as [|c w]; [apply IH|]. unfold handle_change_forecasted. cbn [ta_valid ta_changes tupd_unparsed].
  destruct (change_fc_new (c :: w) _) as [p|]; cbn [bind]; [|reflexivity].
  destruct (changes_add p (ta_changes x)) as [g|]; cbn [bind]; [|reflexivity].
  exact (IH (tout_string (change_fc_str p) (tupd_changes g x))).
Qed.

Lemma taf_handler_patterns : forall e y mo q, foreign taf_patterns q ->
  forall h, In h (taf_handlers e y mo) -> re_match (h_regexp h) q = None.
Proof.
  intros e y mo q F h I. apply (proj1 (Forall_forall _ _) F). unfold taf_handlers in I. cbn [In] in I.
  repeat (destruct I as [<-|I]; [cbn [h_regexp]; unfold taf_patterns; cbn [In]; tauto|]). contradiction.
Qed.

Lemma taf_foreign_read : forall e y mo q codes b1 b2 A B, foreign taf_patterns q ->
  (forall st, parse_section (taf_handlers e y mo) (sanitize_visibility b1) st = parse_groups (taf_handlers e y mo) (A ++ B) 0 [] st) ->
  (forall st, parse_section (taf_handlers e y mo) (sanitize_visibility b2) st = parse_groups (taf_handlers e y mo) (A ++ q :: B) 0 [] st) ->
  same_forecast_but q (taf_read e y mo false b1 codes) (taf_read e y mo false b2 codes)
  /\ forall x, taf_read e y mo true b2 codes <> Ok x.
Proof.
  intros e y mo q codes b1 b2 A B F G1 G2. unfold taf_read, taf_bodied. destruct (taf_start e) as [x0|]; cbn [bind]; [|split; [reflexivity|discriminate]].
  rewrite G1, G2. pose proof (foreign_groups _ _ q (taf_handler_patterns e y mo q F) A B 0 [] x0) as R. unfold related in R.
  destruct (parse_groups _ (A ++ B) 0 [] x0) as [[x1 u1]|]; destruct (parse_groups _ (A ++ q :: B) 0 [] x0) as [[x2 u2]|]; try contradiction; cbn [bind].
  2:{ split; [exact R|discriminate]. }
  destruct R as [-> I]. assert (J : inserted q (ta_unparsed x1 ++ u1) (ta_unparsed x1 ++ u2)) by (apply inserted_before; exact I).
  revert J. generalize (ta_unparsed x1 ++ u1), (ta_unparsed x1 ++ u2). intros v1 v2 J. unfold taf_changed. rewrite !unparsed_changes.
  destruct (handle_changes _ x1) as [x3|]; cbn [on_ok bind]; [|split; [reflexivity|discriminate]]. cbn [ta_changes tupd_unparsed ta_unparsed].
  destruct (gl_collect (ta_changes x3)) as [l g]. cbv zeta. cbn [ta_unparsed tupd_unparsed tupd_changes].
  assert (K : inserted q (v1 ++ flat_map cf_unparsed l) (v2 ++ flat_map cf_unparsed l)) by (apply inserted_app; exact J).
  revert K. generalize (v1 ++ flat_map cf_unparsed l), (v2 ++ flat_map cf_unparsed l). intros z1 z2 K.
  assert (N : z2 <> []) by (destruct K as (a & b & _ & ->); destruct a; discriminate).
  destruct z2 as [|c z2]; [contradiction|]. split; [|discriminate]. destruct z1; (split; [reflexivity|exact K]).
Qed.

Lemma chunks_body : forall ws ms, Forall (fun v => opens (Plain v) = false) ws -> match ms with [] => True | t :: _ => opens t = true end ->
  chunks (map Plain ws ++ ms) = (map Plain ws, snd (chunks ms)).
Proof.
  intros ws ms H O. induction H as [|w ws Hw H IH].
  - cbn [map app]. destruct ms as [|t ms]; [reflexivity|]. cbn [chunks]. destruct (chunks ms) as [b cs]. rewrite O. reflexivity.
  - cbn [map app chunks]. rewrite IH, Hw. reflexivity.
Qed.

Lemma plain_words : forall ws, flat_map ct_words (map Plain ws) = ws.
Proof. induction ws as [|w ws IH]; [reflexivity|]. cbn [map flat_map ct_words app]. rewrite IH. reflexivity. Qed.
Lemma plain_pairs : forall ws ms, filter is_pair (map Plain ws ++ ms) = filter is_pair ms.
Proof. induction ws as [|w ws IH]; intros ms; [reflexivity|]. exact (IH ms). Qed.

Lemma forecast_cut : forall w ws ms, forecast_apart w ws ms ->
  taf_split (sentence (forecast_words w ws ms)) = (sentence (py "TAF" :: w :: ws), map (fun c => sentence (map ct_joined c)) (snd (chunks ms)))
  /\ Forall solid (py "TAF" :: w :: ws).
Proof.
  intros w ws ms (H1 & H2 & H3 & H4 & H5 & H6 & H7). split.
  - destruct (taf_split_sections w (map Plain ws ++ ms) (map Plain ws) (snd (chunks ms)) H1) as (S1 & S2 & _);
      [rewrite plain_pairs; exact H2|exact H3|exact (chunks_body ws ms H4 H5)|exact H6|].
    rewrite flat_map_app, plain_words in S1, S2. unfold forecast_words. cbn zeta in S1, S2.
    destruct (taf_split (sentence (py "TAF" :: w :: ws ++ flat_map ct_words ms))) as [b c]. cbn [fst snd] in S1, S2. subst b c. reflexivity.
  - apply Forall_forall. intros v I. assert (J : In v (forecast_words w ws ms)).
    { unfold forecast_words. destruct I as [<-|[<-|I]]; [left; reflexivity|right; left; reflexivity|right; right; apply in_or_app; left; exact I]. }
    exact (proj2 (proj1 (proj1 (Forall_forall _ _) H7 v J))).
Qed.

Theorem taf_foreign : forall e w ws1 q ws2 ms t1 t2 y mo, forecast_apart w (ws1 ++ ws2) ms -> forecast_apart w (ws1 ++ q :: ws2) ms ->
  off_miles (w :: ws1) q ws2 -> foreign taf_patterns q ->
  written (forecast_words w (ws1 ++ ws2) ms) t1 -> written (forecast_words w (ws1 ++ q :: ws2) ms) t2 ->
  same_forecast_but q (taf_parse e t1 y mo false) (taf_parse e t2 y mo false)
  /\ forall x, taf_parse e t2 y mo true <> Ok x.
Proof.
  intros e w ws1 q ws2 ms t1 t2 y mo K1 K2 Om F W1 W2.
  pose proof (written_raw _ _ W1 (proj2 (proj2 (proj2 (proj2 (proj2 (proj2 K1))))))) as R1.
  pose proof (written_raw _ _ W2 (proj2 (proj2 (proj2 (proj2 (proj2 (proj2 K2))))))) as R2.
  destruct (forecast_cut _ _ _ K1) as [C1 D1]. destruct (forecast_cut _ _ _ K2) as [C2 D2].
  destruct (join_times_insert 3 (w :: ws1) q ws2 Om) as (A & B & J1 & J2).
  destruct (taf_foreign_read e y mo q (map (fun c => sentence (map ct_joined c)) (snd (chunks ms)))
    (sentence (py "TAF" :: w :: ws1 ++ ws2)) (sentence (py "TAF" :: w :: ws1 ++ q :: ws2)) (py "TAF" :: A) B F) as [Q1 Q2].
  { intros st. rewrite (mixed_groups _ _ st _ _ D1). cbn [app] in J1. rewrite J1. reflexivity. }
  { intros st. rewrite (mixed_groups _ _ st _ _ D2). cbn [app] in J2. rewrite J2. reflexivity. }
  rewrite (taf_factored e t1 y mo false _ _ _ R1 C1), (taf_factored e t2 y mo false _ _ _ R2 C2). split.
  - revert Q1. unfold same_forecast_but. destruct (taf_read e y mo false _ _) as [x|]; destruct (taf_read e y mo false _ _) as [x'|];
      cbn [on_ok]; intros Q1; try contradiction; exact Q1.
  - intros x. rewrite (taf_factored e t2 y mo true _ _ _ R2 C2).
    destruct (taf_read e y mo true _ _) as [x'|] eqn:E; cbn [on_ok]; [|discriminate]. destruct (Q2 x' eq_refl).
Qed.
