(** * The characters and the length of a group (C70) *)
From Coq Require Import String Ascii.
From Coq Require Import List NArith ZArith Bool Lia.
From Verif Require Import PyBase PyRegex AeroRegex PyTime Utils Base MetarGroups Trend Metar Taf SpecText SpecKept SpecForeign SpecAlphabet
  StrFacts Keeps OutTafHead OutTaf ProofText ProofValues ProofProb ProofFailures ProofAbsent ProofAbsentTaf ProofVerdict ProofKeptText ProofKept ProofKeptReport ProofKeptMetar ProofKeptTaf.
Import ListNotations.
Local Open Scope string_scope.
Local Open Scope nat_scope.
Local Open Scope list_scope.

(** ** What a pattern consumes *)

Fixpoint classes (r : regex) : list cls :=
  match r with
  | Chr k | Star k => [k]
  | Seq a b | Alt a b => classes a ++ classes b
  | Grp _ r => classes r
  | _ => []
  end.
(** Every match ends at the end of the text. *)
Fixpoint ends (r : regex) : bool :=
  match r with
  | Eos => true
  | Seq a b => ends b
  | Alt a b => ends a && ends b
  | Grp _ r => ends r
  | _ => false
  end.
(** At most this many characters; [None] for a repetition. *)
Fixpoint longest (r : regex) : option nat :=
  match r with
  | Eps | Bos | Eos => Some 0
  | Chr _ => Some 1
  | Star _ => None
  | Seq a b => match longest a, longest b with Some m, Some n => Some (m + n) | _, _ => None end
  | Alt a b => match longest a, longest b with Some m, Some n => Some (Nat.max m n) | _, _ => None end
  | Grp _ r => longest r
  end.

Definition of_classes (ks : list cls) (x : str) : Prop := Forall (fun c => exists k, In k ks /\ in_cls c k = true) x.
Lemma of_more : forall ks ks' x, of_classes ks x -> (forall k, In k ks -> In k ks') -> of_classes ks' x.
Proof. intros ks ks' x H I. eapply Forall_impl; [|exact H]. intros c (k & K & C). exists k. auto. Qed.

Lemma star_consumes : forall k s pos p s2 sp, In (p, s2, sp) (run_star k pos s) ->
  exists x, s = x ++ s2 /\ of_classes [k] x.
Proof.
  intros k s. induction s as [|c s IH]; intros pos p s2 sp H; cbn [run_star] in H.
  - destruct H as [H|[]]. injection H as _ <- _. exists []. split; [reflexivity|constructor].
  - destruct (in_cls c k) eqn:C.
    + apply in_app_or in H. destruct H as [H|[H|[]]].
      * apply IH in H. destruct H as (x & -> & K). exists (c :: x). split; [reflexivity|].
        constructor; [|exact K]. exists k. split; [left; reflexivity|exact C].
      * injection H as _ <- _. exists []. split; [reflexivity|constructor].
    + destruct H as [H|[]]. injection H as _ <- _. exists []. split; [reflexivity|constructor].
Qed.

Lemma consumes : forall r s pos p s2 sp, In (p, s2, sp) (run r pos s) ->
  exists x, s = x ++ s2 /\ of_classes (classes r) x
    /\ match longest r with Some n => length x <= n | None => True end
    /\ (ends r = true -> at_end s2 = true).
Proof.
  induction r as [|k|a IHa b IHb|a IHa b IHb|k|n r IH| |]; intros s pos p s2 sp H; cbn [run] in H;
    cbn [classes longest ends].
  - destruct H as [H|[]]. injection H as _ <- _. exists []. repeat split; [constructor|cbn; lia|discriminate].
  - destruct s as [|c s]; [destruct H|]. destruct (in_cls c k) eqn:C; [|destruct H].
    destruct H as [H|[]]. injection H as _ <- _. exists [c]. split; [reflexivity|]. split; [|split; [cbn; lia|discriminate]].
    constructor; [|constructor]. exists k. split; [left; reflexivity|exact C].
  - apply in_flat_map in H. destruct H as ([[p1 s1] k1] & H1 & H2). apply in_map_iff in H2.
    destruct H2 as ([[p2 s3] k2] & E & H2). injection E as -> -> _.
    apply IHa in H1. apply IHb in H2. destruct H1 as (x1 & -> & A1 & A2 & _). destruct H2 as (x2 & -> & B1 & B2 & B3).
    exists (x1 ++ x2). split; [apply app_assoc|]. split.
    { apply Forall_app. split; [apply (of_more _ _ _ A1)|apply (of_more _ _ _ B1)]; intros k K; apply in_or_app; auto. }
    split; [|exact B3]. destruct (longest a); [|exact I]. destruct (longest b); [|exact I]. rewrite app_length. lia.
  - apply in_app_or in H. destruct H as [H|H].
    + apply IHa in H. destruct H as (x & -> & A1 & A2 & A3). exists x. split; [reflexivity|]. split.
      { apply (of_more _ _ _ A1). intros k K. apply in_or_app. auto. }
      split; [destruct (longest a); [|exact I]; destruct (longest b); [lia|exact I]|].
      intro E. apply andb_prop in E. exact (A3 (proj1 E)).
    + apply IHb in H. destruct H as (x & -> & A1 & A2 & A3). exists x. split; [reflexivity|]. split.
      { apply (of_more _ _ _ A1). intros k K. apply in_or_app. auto. }
      split; [destruct (longest a); [|exact I]; destruct (longest b); [lia|exact I]|].
      intro E. apply andb_prop in E. exact (A3 (proj2 E)).
  - apply star_consumes in H. destruct H as (x & -> & A). exists x. repeat split; [exact A|discriminate].
  - apply in_map_iff in H. destruct H as ([[p1 s1] k1] & E & H). injection E as -> -> _. apply IH in H. exact H.
  - destruct (Nat.eqb pos 0); [|destruct H]. destruct H as [H|[]]. injection H as _ <- _. exists [].
    repeat split; [constructor|cbn; lia|discriminate].
  - destruct (at_end s) eqn:E; [|destruct H]. destruct H as [H|[]]. injection H as _ <- _. exists [].
    repeat split; [constructor|cbn; lia|intros _; exact E].
Qed.

(** ** The patterns *)

Definition item_coded (i : citem) : bool :=
  match i with
  | CRange a b => ((65 <=? a) && (b <=? 90))%N || ((48 <=? a) && (b <=? 57))%N
                  || ((a =? b)%N && existsb (N.eqb a) (py "+-/_"))
  | CDigit => true
  | CSpace => false
  end.
Definition closed_by (n : nat) (r : regex) : bool :=
  forallb (forallb item_coded) (classes r) && ends r
  && match longest r with Some k => Nat.leb k n | None => false end.

Lemma ascii_digits : forallb (fun c => is_digit c) (map N.of_nat (seq 48 10)) = true.
Proof. vm_compute. reflexivity. Qed.
Lemma item_coded_ok : forall i c, item_coded i = true -> in_citem c i = true -> coded c.
Proof.
  intros [a b| |] c H C; cbn [item_coded in_citem] in *; [|right; left; exact C|discriminate].
  apply andb_prop in C. destruct C as [C1 C2]. apply N.leb_le in C1, C2.
  apply orb_prop in H. destruct H as [H|H]; [apply orb_prop in H; destruct H as [H|H]|].
  - apply andb_prop in H. destruct H as [H1 H2]. apply N.leb_le in H1, H2. left. lia.
  - apply andb_prop in H. destruct H as [H1 H2]. apply N.leb_le in H1, H2. right. left.
    refine (proj1 (forallb_forall _ _) ascii_digits c _). apply in_map_iff. exists (N.to_nat c).
    split; [apply N2Nat.id|]. apply in_seq. lia.
  - apply andb_prop in H. destruct H as [H1 H2]. apply N.eqb_eq in H1. right. right.
    apply existsb_exists in H2. destruct H2 as (d & I & E). apply N.eqb_eq in E. replace c with d by lia. exact I.
Qed.

Lemma closed_match : forall n r q m, closed_by n r = true -> ~ In 10%N q -> re_match r q = Some m ->
  Forall coded q /\ length q <= n.
Proof.
  intros n r q m C W M. unfold re_match in M. destruct (run r 0 q) as [|[[e t] sp] l] eqn:R; [discriminate|].
  assert (H : In (e, t, sp) (run r 0 q)) by (rewrite R; left; reflexivity).
  apply consumes in H. destruct H as (x & E & A & L & Z).
  unfold closed_by in C. apply andb_prop in C. destruct C as [C C3]. apply andb_prop in C. destruct C as [C1 C2].
  specialize (Z C2).
  assert (T : t = []).
  { destruct t as [|c [|d t]]; [reflexivity| |discriminate Z]. cbn [at_end] in Z. apply N.eqb_eq in Z. subst c.
    exfalso. apply W. rewrite E. apply in_or_app. right. left. reflexivity. }
  rewrite T, app_nil_r in E. subst x. split.
  - eapply Forall_impl; [|exact A]. intros c (k & K & I). rewrite forallb_forall in C1. specialize (C1 k K).
    unfold in_cls in I. apply existsb_exists in I. destruct I as (i & J & I). rewrite forallb_forall in C1.
    exact (item_coded_ok i c (C1 i J) I).
  - destruct (longest r) as [k|]; [|discriminate]. apply Nat.leb_le in C3. lia.
Qed.


Lemma all_closed : forallb (closed_by 19) (metar_patterns ++ trend_patterns ++ closed_taf_patterns ++ closed_change_patterns) = true.
Proof. vm_compute. reflexivity. Qed.
Lemma closed_pattern : forall r q m, In r (metar_patterns ++ trend_patterns ++ closed_taf_patterns ++ closed_change_patterns) ->
  ~ In 10%N q -> re_match r q = Some m -> Forall coded q /\ length q <= 19.
Proof. intros r q m I. apply closed_match. exact (proj1 (forallb_forall _ _) all_closed r I). Qed.

(** ** Foreign words *)

Lemma unlike_foreign : forall q, ~ In 10%N q -> Exists (fun c => ~ coded c) q \/ 19 < length q ->
  foreign (metar_patterns ++ trend_patterns ++ closed_taf_patterns ++ closed_change_patterns) q.
Proof.
  intros q N H. unfold foreign. rewrite Forall_forall. intros r I.
  destruct (re_match r q) as [m|] eqn:M; [|reflexivity]. exfalso.
  destruct (closed_pattern r q m I N M) as [A B]. destruct H as [H|H]; [|lia].
  apply Exists_exists in H. destruct H as (c & Ic & H). rewrite Forall_forall in A. exact (H (A c Ic)).
Qed.

(** ** Words of a section *)

Lemma remove_other : forall q g l, In q l -> g <> q -> In q (list_remove g l).
Proof.
  intros q g l. induction l as [|x l IH]; intros I N; [destruct I|]. cbn [list_remove].
  destruct (str_eqb g x) eqn:E.
  - apply str_eqb_eq in E. subst x. destruct I as [I|I]; [contradiction|exact I].
  - destruct I as [I|I]; [left; exact I|right; exact (IH I N)].
Qed.

Lemma left_or_read : forall S (hs : list (handler S)) gs i u st st' u' q, parse_groups hs gs i u st = Ok (st', u') ->
  In q (u ++ gs) -> (forall h, In h hs -> re_match (h_regexp h) q = None) -> In q u'.
Proof.
  intros S hs gs. induction gs as [|g gs IH]; intros i u st st' u' q E I F; cbn [parse_groups] in E.
  - injection E as _ <-. rewrite app_nil_r in I. exact I.
  - destruct (first_match (skipn i hs) 0 g) as [[[k h] m]|] eqn:M.
    + destruct (h_handle h m st) as [st1|]; [|discriminate E]. cbn [bind] in E.
      apply first_match_in in M. destruct M as (M1 & M2 & _).
      assert (N : g <> q).
      { intros ->. rewrite (F h) in M2; [discriminate M2|]. rewrite <- (firstn_skipn i hs). apply in_or_app. right. exact M1. }
      refine (IH _ _ _ _ _ _ E _ F). apply in_or_app. apply in_app_or in I. destruct I as [I|[I|I]].
      * left. apply remove_other; [|exact N]. apply in_or_app. left. exact I.
      * contradiction.
      * right. exact I.
    + refine (IH _ _ _ _ _ _ E _ F). rewrite <- app_assoc. exact I.
Qed.

Lemma section_left : forall S (hs : list (handler S)) sec st st' q, parse_section hs sec st = Ok (st', []) -> In q (split_on 32 sec) ->
  exists h m, In h hs /\ re_match (h_regexp h) q = Some m.
Proof.
  intros S hs sec st st' q E I.
  assert (D : (exists h m, In h hs /\ re_match (h_regexp h) q = Some m) \/ forall h, In h hs -> re_match (h_regexp h) q = None).
  { clear E. induction hs as [|h hs IH]; [right; intros h []|]. destruct (re_match (h_regexp h) q) as [m|] eqn:M.
    - left. exists h, m. split; [left; reflexivity|exact M].
    - destruct IH as [(h' & m & I' & M')|IH]; [left; exists h', m; split; [right; exact I'|exact M']|right].
      intros h' [<-|I']; [exact M|exact (IH h' I')]. }
  destruct D as [D|D]; [exact D|]. destruct (left_or_read _ hs _ 0 [] st st' [] q E I D).
Qed.

(** ** What the fields show *)

Lemma blanked_showable : forall g, Forall coded g /\ length g <= 19 -> showable (blanked g).
Proof.
  intros g [A B]. split; [|unfold blanked; rewrite map_length; exact B].
  unfold blanked. rewrite Forall_map. eapply Forall_impl; [|exact A]. intros c C. cbv beta. destruct (N.eqb c 95); auto.
Qed.

Lemma steps_showable : forall S (hs : list (handler S)) accs fld upd (free : nat -> bool),
  faithful_step hs accs fld upd ->
  (forall i o g, free (fld i g) = true \/ upd i o g = o \/ upd i o g = [blanked g] \/ upd i o g = o ++ [blanked g]) ->
  (forall i h g m, nth_error hs i = Some h -> re_match (h_regexp h) g = Some m -> ~ In 10%N g ->
     free (fld i g) = true \/ (upd i = fun o _ => o) \/ (Forall coded g /\ length g <= 19)) ->
  forall sec st st' un, ~ In 10%N sec -> (forall f, free f = false -> Forall showable (nth f (accs st) [])) ->
  parse_section hs sec st = Ok (st', un) -> forall f, free f = false -> Forall showable (nth f (accs st') []).
Proof.
  intros S hs accs fld upd free Hs Hu Hc sec st st' un N H E.
  apply (parse_groups_from S (fun s => forall f, free f = false -> Forall showable (nth f (accs s) [])) (fun g => ~ In 10%N g)
    hs (split_on 32 sec) 0 [] st st' un); [| |exact H|exact E].
  - intros h g m s s' I G M Eh K f Ff. cbn [skipn] in I. apply In_nth_error in I. destruct I as (i & I).
    rewrite (Hs i h g m s s' I M Eh).
    destruct (Nat.eq_dec (fld i g) f) as [Ef|Nf]; [|rewrite nth_set_other by exact Nf; exact (K f Ff)].
    destruct (Nat.lt_ge_cases (fld i g) (length (accs s))) as [L|L].
    2:{ rewrite nth_overflow; [constructor|]. rewrite set_nth_length. lia. }
    rewrite Ef in *. rewrite nth_set_same by exact L.
    destruct (Hc i h g m I M G) as [C|[C|C]]; [rewrite Ef, Ff in C; discriminate C|rewrite C; exact (K f Ff)|].
    apply blanked_showable in C. pose proof (K f Ff) as Kf.
    destruct (Hu i (nth f (accs s) []) g) as [U|[U|[U|U]]]; [rewrite Ef, Ff in U; discriminate U| | |]; rewrite U; [exact Kf|constructor; [exact C|constructor]|].
    apply Forall_app. split; [exact Kf|constructor; [exact C|constructor]].
  - rewrite Forall_forall. intros g G J. apply N. apply split_on_part in G. destruct G as (a & b & ->).
    apply in_or_app. right. apply in_or_app. left. exact J.
Qed.

Lemma take_upd_cases : forall fld l i o g, take_upd fld l i o g = o \/ take_upd fld l i o g = [blanked g] \/ take_upd fld l i o g = o ++ [blanked g].
Proof. intros. unfold take_upd. destruct (several _ _); auto. Qed.

(** ** METAR *)

Lemma metar_handler_pattern : forall e y mo h, In h (metar_handlers e y mo) -> In (h_regexp h) metar_patterns.
Proof.
  intros e y mo h I. unfold metar_handlers in I. cbn [In] in I. unfold metar_patterns.
  repeat (destruct I as [<-|I]; [cbn [h_regexp In]; tauto|]). destruct I.
Qed.
Lemma metar_closed : forall r q m, In r metar_patterns -> ~ In 10%N q -> re_match r q = Some m -> Forall coded q /\ length q <= 19.
Proof. intros r q m I. apply closed_pattern. apply in_or_app. left. exact I. Qed.

Lemma trends_accs : forall l x x', handle_trends l x = Ok x' ->
  metar_accs x' = metar_accs x /\ me_sections x' = me_sections x /\ me_unparsed x' = me_unparsed x.
Proof.
  induction l as [|w l IH]; intros x x' E; cbn [handle_trends] in E; [injection E as <-; auto|].
  destruct w as [|c w]; [exact (IH _ _ E)|]. unfold handle_weather_trend in E.
  destruct (change_period_new (c :: w) _) as [p|]; [|discriminate E]. cbn [bind] in E.
  destruct (gl_add p (me_trends x)) as [g|]; [|discriminate E]. cbn [bind] in E.
  exact (IH _ _ E).
Qed.

Lemma init_sections : forall e raw y mo x, metar_init e raw y mo = Ok x -> me_sections x = metar_sections raw.
Proof. intros e raw y mo x E. unfold metar_init in E. binds E. injection E as <-. reflexivity. Qed.

Lemma metar_run : forall e code y mo tr x, metar_parse e code y mo tr = Ok x ->
  exists x0 x1 un, metar_accs x0 = [py "METAR"] :: repeat [] 16
    /\ parse_section (metar_handlers e y mo) (sanitize_body (nth 0 (me_sections x) [])) x0 = Ok (x1, un)
    /\ metar_accs x = metar_accs x1 /\ ~ In 10%N (sanitize_body (nth 0 (me_sections x) []))
    /\ (tr = true -> un = []).
Proof.
  intros e code y mo tr x E. unfold metar_parse in E. destruct (report_raw_code code) as [raw|] eqn:Er; [|discriminate E]. cbn [bind] in E.
  destruct (metar_init e raw y mo) as [x0|] eqn:E0; [|discriminate E]. cbn [bind] in E.
  destruct (metar_fresh _ _ _ _ _ E0) as (F1 & F2 & F3). pose proof (init_sections _ _ _ _ _ E0) as F4. clear E0.
  unfold parse_body in E. destruct (parse_section (metar_handlers e y mo) _ x0) as [[x1 un]|] eqn:E1; [|discriminate E]. cbn [bind] in E.
  assert (K : me_sections x1 = me_sections x0 /\ me_unparsed x1 = me_unparsed x0).
  { apply (parse_section_inv _ (fun x => me_sections x = me_sections x0 /\ me_unparsed x = me_unparsed x0)) in E1; [exact E1| |auto].
    intros h m s s' I Eh (K2 & K3). destruct (metar_frame _ _ _ _ _ _ _ I Eh) as (_ & L2 & L3). rewrite L2, L3. auto. }
  destruct K as (K2 & K3). rewrite K3, F2 in E. cbn [app] in E.
  unfold parse_weather_trend in E. destruct (handle_trends _ _) as [x2|] eqn:E2; [|discriminate E]. cbn [bind] in E.
  destruct (trends_accs _ _ _ E2) as (B & S & U). cbn [me_sections me_unparsed upd_unparsed] in S, U.
  destruct (gl_collect (me_trends x2)) as [l g]. cbv zeta in E. set (x3 := upd_unparsed _ _) in E.
  assert (X : x = x3 /\ (tr = true -> me_unparsed x3 = [])).
  { destruct (me_unparsed x3) as [|u us]; [split; [congruence|reflexivity]|].
    destruct tr; [discriminate E|]. split; [congruence|discriminate]. }
  destruct X as [X Z]. assert (Sx : me_sections x = me_sections x0) by (rewrite X; exact (eq_trans S K2)).
  exists x0, x1, un. rewrite Sx. split; [exact F1|]. split; [exact E1|]. split; [rewrite X; exact B|]. split.
  - intro J. apply (weaker_char _ _ 10%N (body_weaker _) eq_refl) in J. rewrite F4 in J.
    apply (weaker_char _ _ 10%N (proj1 (sections_weaker raw)) eq_refl) in J. exact (proj1 (raw_clean _ _ Er) J).
  - intro T. specialize (Z T). unfold x3 in Z. cbn [me_unparsed upd_unparsed upd_trends] in Z. rewrite U in Z.
    apply app_eq_nil in Z. exact (proj1 Z).
Qed.

Lemma METAR_showable : showable (py "METAR").
Proof. split; [|cbn; lia]. repeat (constructor; [left; left; split; [vm_compute; discriminate|vm_compute; discriminate]|]). constructor. Qed.

Lemma metar_shows : forall e code y mo tr x, metar_parse e code y mo tr = Ok x -> Forall showable (metar_fields x).
Proof.
  intros e code y mo tr x E. destruct (metar_run _ _ _ _ _ _ E) as (x0 & x1 & un & F & P & A & N & _).
  assert (K : forall f, Forall showable (nth f (metar_accs x) [])).
  { intro f. rewrite A.
    refine (steps_showable _ _ metar_accs metar_fld metar_upd (fun _ => false) (metar_slots e y mo) (fun i o g => or_intror (take_upd_cases _ _ i o g)) _ _ x0 x1 un N _ P f eq_refl).
    - intros i h g m I M G. right. right. apply nth_error_In in I.
      exact (metar_closed _ _ _ (metar_handler_pattern _ _ _ _ I) G M).
    - intros k _. rewrite F. destruct k as [|k]; [constructor; [exact METAR_showable|constructor]|].
      cbn [nth]. rewrite nth_repeat. constructor. }
  unfold metar_fields, metar_codes_before, metar_codes_after, common_codes.
  pose proof (fun f => K f) as J. unfold metar_accs in J.
  repeat (apply Forall_app; split);
  first [exact (J 0)|exact (J 1)|exact (J 2)|exact (J 3)|exact (J 4)|exact (J 5)|exact (J 6)|exact (J 7)|exact (J 8)|exact (J 9)
    |exact (J 10)|exact (J 11)|exact (J 12)|exact (J 13)|exact (J 14)|exact (J 15)|exact (J 16)].
Qed.

(** ** The text of a report read with truncation *)

Lemma coded_upper : forall s, forallb (fun c => (65 <=? c)%N && (c <=? 90)%N) s = true -> Forall coded s.
Proof.
  intros s H. rewrite Forall_forall. intros c I. rewrite forallb_forall in H. apply H in I. apply andb_prop in I.
  destruct I as [I1 I2]. apply N.leb_le in I1, I2. left. lia.
Qed.

Lemma joined_chars : forall s s', joined s s' -> forall c, In c s -> In c s' \/ coded c \/ blank c.
Proof.
  intros s s' J. induction J as [s|a b1 i b2 f b3 t s H1 H2 H3 H4 H5 J IH|a b1 b2 t s H1 H2 J IH
    |a b r n t s H1 H2 H3 J IH|a p b t s H1 H2 J IH]; intros c I; [left; exact I| | | |].
  - apply in_app_or in I. destruct I as [I|[<-|I]]; [|right; right; exact H1|].
    { apply IH. apply in_or_app. left. exact I. }
    apply in_app_or in I. destruct I as [I|[<-|I]]; [|right; right; exact H3|].
    { apply IH. apply in_or_app. right. apply in_or_app. right. apply in_or_app. left. exact I. }
    apply in_app_or in I. destruct I as [I|I].
    { apply IH. apply in_or_app. right. apply in_or_app. right. apply in_or_app. right. apply in_or_app. right. apply in_or_app. left. exact I. }
    apply in_app_or in I. destruct I as [I|I].
    { right. right. destruct H5 as [->|(d & -> & D)]; [destruct I|destruct I as [<-|[]]; exact D]. }
    apply IH. do 6 (apply in_or_app; right). exact I.
  - apply in_app_or in I. destruct I as [I|I]; [apply IH, in_or_app; left; exact I|].
    apply in_app_or in I. destruct I as [I|[<-|I]]; [right; left|right; right; exact H1|].
    { exact (proj1 (Forall_forall _ _) (coded_upper (py "WS") eq_refl) c I). }
    apply in_app_or in I. destruct I as [I|[<-|I]]; [right; left|right; right; exact H2|].
    { exact (proj1 (Forall_forall _ _) (coded_upper (py "ALL") eq_refl) c I). }
    apply in_app_or in I. destruct I as [I|I]; [right; left|].
    { exact (proj1 (Forall_forall _ _) (coded_upper (py "RWY") eq_refl) c I). }
    apply IH. do 2 (apply in_or_app; right). exact I.
  - apply in_app_or in I. destruct I as [I|I]; [apply IH, in_or_app; left; exact I|].
    apply in_app_or in I. destruct I as [I|[<-|I]]; [right; left|right; right; exact H1|].
    { exact (proj1 (Forall_forall _ _) (coded_upper (py "WS") eq_refl) c I). }
    apply in_app_or in I. destruct I as [I|I]; [right; left|].
    { destruct H2 as [<-|[<-|[]]]; [exact (proj1 (Forall_forall _ _) (coded_upper (py "R") eq_refl) c I)
        |exact (proj1 (Forall_forall _ _) (coded_upper (py "RWY") eq_refl) c I)]. }
    apply IH. do 2 (apply in_or_app; right). exact I.
  - apply in_app_or in I. destruct I as [I|I]; [apply IH, in_or_app; left; exact I|].
    apply in_app_or in I. destruct I as [I|[<-|I]]; [|right; right; exact H2|].
    { apply IH, in_or_app. right. apply in_or_app. left. exact I. }
    apply in_app_or in I. destruct I as [I|I]; [right; left|].
    { exact (proj1 (Forall_forall _ _) (coded_upper (py "TEMPO") eq_refl) c I). }
    apply IH. do 3 (apply in_or_app; right). exact I.
Qed.

Lemma in_join : forall (a : N) (ws : list str) c, In c (join [a] ws) -> c = a \/ exists w, In w ws /\ In c w.
Proof.
  intros a ws c. induction ws as [|w ws IH]; intro I; [destruct I|].
  destruct ws as [|w2 ws]; [right; exists w; split; [left; reflexivity|exact I]|].
  rewrite join_cons in I by discriminate. apply in_app_or in I. destruct I as [I|I]; [right; exists w; split; [left; reflexivity|exact I]|].
  apply in_app_or in I. destruct I as [[<-|[]]|I]; [left; reflexivity|].
  destruct (IH I) as [K|(v & V & K)]; [left; exact K|right; exists v; split; [right; exact V|exact K]].
Qed.

Lemma truncated_text : forall e code y mo x, metar_parse e code y mo true = Ok x ->
  Forall (fun c => coded c \/ blank c) (nth 0 (me_sections x) []).
Proof.
  intros e code y mo x E. destruct (metar_run _ _ _ _ _ _ E) as (x0 & x1 & un & F & P & A & N & Z).
  rewrite (Z eq_refl) in P. rewrite Forall_forall. intros c I.
  destruct (joined_chars _ _ (body_joined _) c I) as [K|[K|K]]; [|left; exact K|right; exact K].
  rewrite <- (join_split 32) in K. destruct (in_join _ _ _ K) as [->|(w & W & J)]; [right; reflexivity|left].
  destruct (section_left _ _ _ _ _ w P W) as (h & m & Hh & M).
  assert (Nw : ~ In 10%N w).
  { intro T. apply N. apply split_on_part in W. destruct W as (a & b & Ew). unfold str in *. rewrite Ew.
    apply in_or_app. right. apply in_or_app. left. exact T. }
  destruct (metar_closed _ _ _ (metar_handler_pattern _ _ _ _ Hh) Nw M) as [Q _].
  exact (proj1 (Forall_forall _ _) Q c J).
Qed.

(** ** TAF *)

Lemma taf_handler_pattern : forall e y mo i h, nth_error (taf_handlers e y mo) i = Some h ->
  i = 8 \/ taf_upd i = (fun o _ => o) \/ In (h_regexp h) closed_taf_patterns.
Proof.
  intros e y mo i h I. unfold taf_handlers in I. unfold closed_taf_patterns.
  do 20 (destruct i as [|i]; [cbn [nth_error] in I; injection I as <-;
    first [left; reflexivity|right; left; reflexivity|right; right; cbn [h_regexp In]; tauto]|]).
  destruct i; discriminate I.
Qed.

Lemma changes_accs : forall l x x', handle_changes l x = Ok x' -> taf_accs x' = taf_accs x.
Proof.
  induction l as [|w l IH]; intros x x' E; cbn [handle_changes] in E; [injection E as <-; auto|].
  destruct w as [|c w]; [exact (IH _ _ E)|]. unfold handle_change_forecasted in E.
  destruct (change_fc_new (c :: w) _) as [p|]; [|discriminate E]. cbn [bind] in E.
  destruct (changes_add p (ta_changes x)) as [g|]; [|discriminate E]. cbn [bind] in E.
  exact (IH _ _ E).
Qed.

Lemma TAF_showable : showable (py "TAF").
Proof. split; [|cbn; lia]. repeat (constructor; [left; left; split; [vm_compute; discriminate|vm_compute; discriminate]|]). constructor. Qed.

Lemma taf_init_body : forall e raw x, taf_init e raw = Ok x -> ta_body x = fst (taf_split raw).
Proof.
  intros e raw x E. unfold taf_init in E. destruct (taf_split raw) as [bp cs]. binds E. injection E as <-. reflexivity.
Qed.

Lemma taf_shows : forall e code y mo tr x, taf_parse e code y mo tr = Ok x -> Forall showable (taf_fields x).
Proof.
  intros e code y mo tr x E. unfold taf_parse in E. destruct (report_raw_code code) as [raw|] eqn:Er; [|discriminate E]. cbn [bind] in E.
  destruct (taf_init e raw) as [x0|] eqn:E0; [|discriminate E]. cbn [bind] in E.
  destruct (taf_fresh _ _ _ E0) as (F1 & _). pose proof (taf_init_body _ _ _ E0) as F4. clear E0.
  unfold taf_parse_body in E. destruct (parse_section (taf_handlers e y mo) _ x0) as [[x1 un]|] eqn:P; [|discriminate E]. cbn [bind] in E.
  unfold parse_changes_forecasted in E. destruct (handle_changes _ _) as [x2|] eqn:E2; [|discriminate E]. cbn [bind] in E.
  apply changes_accs in E2.
  destruct (gl_collect (ta_changes x2)) as [l g]. cbv zeta in E. set (x3 := tupd_unparsed _ _) in E.
  assert (X : x = x3) by (destruct (ta_unparsed x3); [congruence|]; destruct tr; [discriminate E|congruence]).
  assert (A : taf_accs x = taf_accs x1) by (rewrite X; exact E2).
  assert (N : ~ In 10%N (sanitize_visibility (ta_body x0))).
  { intro J. apply (weaker_char _ _ 10%N (vis_weaker _) eq_refl) in J. rewrite F4 in J.
    apply (weaker_char _ _ 10%N (body_part_weaker raw) eq_refl) in J. exact (proj1 (raw_clean _ _ Er) J). }
  assert (K : forall f, Nat.eqb f 8 = false -> Forall showable (nth f (taf_accs x) [])).
  { rewrite A.
    refine (steps_showable _ _ taf_accs taf_fld taf_upd (fun f => Nat.eqb f 8) (taf_slots e y mo) _ _ _ x0 x1 un N _ P).
    - intros i o v. right. unfold taf_upd. destruct (Nat.leb 16 i); [left; reflexivity|apply take_upd_cases].
    - intros i h v m I M G. destruct (taf_handler_pattern _ _ _ _ _ I) as [->|[U|C]]; [left; reflexivity|right; left; exact U|right; right].
      apply (closed_pattern (h_regexp h) v m); [|exact G|exact M]. apply in_or_app. right. apply in_or_app. right. apply in_or_app. left. exact C.
    - intros k _. rewrite F1. destruct k as [|k]; [constructor; [exact TAF_showable|constructor]|].
      cbn [nth]. rewrite nth_repeat. constructor. }
  unfold taf_fields, common_codes. unfold taf_accs in K.
  repeat (apply Forall_app; split);
  first [exact (K 0 eq_refl)|exact (K 1 eq_refl)|exact (K 2 eq_refl)|exact (K 3 eq_refl)|exact (K 4 eq_refl)|exact (K 5 eq_refl)
    |exact (K 6 eq_refl)|exact (K 7 eq_refl)|exact (K 9 eq_refl)|exact (K 10 eq_refl)].
Qed.

(** ** Trends and changes *)

Lemma blanked_char : forall s c, c <> 32%N -> In c (blanked s) -> In c s.
Proof.
  intros s c N I. unfold blanked in I. apply in_map_iff in I. destruct I as (d & E & I).
  destruct (N.eqb d 95); [congruence|]. subst d. exact I.
Qed.

Lemma trend_pattern : forall i h, nth_error trend_handlers i = Some h ->
  (forall g, Nat.eqb (trend_fld i g) 0 = true) \/ In (h_regexp h) trend_patterns.
Proof.
  intros i h I. unfold trend_handlers in I. unfold trend_patterns.
  do 12 (destruct i as [|i]; [cbn [nth_error] in I; injection I as <-;
    first [left; intro g; reflexivity|right; cbn [h_regexp In]; tauto]|]).
  destruct i; discriminate I.
Qed.
Lemma change_pattern : forall i h, nth_error change_handlers i = Some h ->
  (forall g, Nat.eqb (change_fld i g) 0 = true) \/ In (h_regexp h) closed_change_patterns.
Proof.
  intros i h I. unfold change_handlers in I. unfold closed_change_patterns.
  do 11 (destruct i as [|i]; [cbn [nth_error] in I; injection I as <-;
    first [left; intro g; reflexivity|right; cbn [h_regexp In]; tauto]|]).
  destruct i; discriminate I.
Qed.

Lemma trend_shows : forall code t p, change_period_new code t = Ok p -> ~ In 10%N code -> Forall showable (weather_fields (cp_common p)).
Proof.
  intros code t p E N. unfold change_period_new in E. cbv zeta in E. rewrite replace_blanked in E.
  assert (C : exists c, common_new [] = Ok c /\ w_code (c_wind c) = None /\ v_code (c_vis c) = None
            /\ c_weathers c = gl_new 3 /\ gl_list (c_clouds c) = []).
  { eexists. split; [vm_compute; reflexivity|]. vm_compute. auto. }
  destruct C as (c & Ec & C1 & C2 & C3 & C4). rewrite Ec in E. cbn [bind] in E.
  destruct (trend_ind_new None t) as [i|] eqn:Ei; [|discriminate E]. cbn [bind] in E. clear Ei.
  set (p0 := mk_cp (Some (blanked code)) (time_at t) c i [] []) in *.
  destruct (parse_section trend_handlers (sanitize_visibility (blanked code)) p0) as [[p1 un]|] eqn:P; [|discriminate E]. cbn [bind] in E.
  injection E as <-.
  assert (M : ~ In 10%N (sanitize_visibility (blanked code))).
  { intro J. apply (weaker_char _ _ 10%N (vis_weaker _) eq_refl) in J. apply blanked_char in J; [exact (N J)|discriminate]. }
  assert (K : forall f, Nat.eqb f 0 = false -> Forall showable (nth f (trend_accs p1) [])).
  { refine (steps_showable _ _ trend_accs trend_fld trend_upd (fun f => Nat.eqb f 0) trend_slots _ _ _ p0 p1 un M _ P).
    - intros k o v. do 5 (destruct k as [|k]; [first [left; reflexivity|right; right; left; reflexivity]|]). right. right. right. reflexivity.
    - intros k h v m I Mm G. destruct (trend_pattern _ _ I) as [U|U]; [left; apply U|right; right].
      apply (closed_pattern (h_regexp h) v m); [|exact G|exact Mm]. apply in_or_app. right. apply in_or_app. left. exact U.
    - intros k Hk. unfold trend_accs, p0, code_of_list. cbn [cp_ind cp_common]. rewrite C1, C2, C3, C4.
      destruct k as [|k]; [discriminate Hk|]. do 5 (destruct k as [|k]; [constructor|]). constructor. }
  unfold weather_fields, common_codes. cbn [cp_common]. unfold trend_accs in K.
  repeat (apply Forall_app; split); first [exact (K 1 eq_refl)|exact (K 2 eq_refl)|exact (K 3 eq_refl)|exact (K 4 eq_refl)].
Qed.

Lemma change_shows : forall code t p, change_fc_new code t = Ok p -> ~ In 10%N code -> Forall showable (weather_fields (cf_common p)).
Proof.
  intros code t p E N. unfold change_fc_new in E. cbv zeta in E. rewrite replace_blanked in E.
  assert (C : exists c, common_new [] = Ok c /\ w_code (c_wind c) = None /\ v_code (c_vis c) = None
            /\ c_weathers c = gl_new 3 /\ gl_list (c_clouds c) = []).
  { eexists. split; [vm_compute; reflexivity|]. vm_compute. auto. }
  destruct C as (c & Ec & C1 & C2 & C3 & C4). rewrite Ec in E. cbn [bind taf_ind_new] in E.
  set (i := mk_tci (group_code None) None t) in E.
  set (p0 := mk_cf (Some (blanked code)) t c i []) in *.
  destruct (parse_section change_handlers _ p0) as [[p1 un]|] eqn:P; [|discriminate E]. cbn [bind] in E.
  injection E as <-.
  assert (M : ~ In 10%N (sanitize_visibility (sanitize_change_indicator (blanked code)))).
  { intro J. apply (weaker_char _ _ 10%N (vis_weaker _) eq_refl) in J. apply (weaker_char _ _ 10%N (prob_weaker _) eq_refl) in J.
    apply blanked_char in J; [exact (N J)|discriminate]. }
  assert (K : forall f, Nat.eqb f 0 = false -> Forall showable (nth f (change_accs p1) [])).
  { refine (steps_showable _ _ change_accs change_fld change_upd (fun f => Nat.eqb f 0) change_slots _ _ _ p0 p1 un M _ P).
    - intros k o v. do 4 (destruct k as [|k]; [first [left; reflexivity|right; right; left; reflexivity]|]). right. right. right. reflexivity.
    - intros k h v m I Mm G. destruct (change_pattern _ _ I) as [U|U]; [left; apply U|right; right].
      apply (closed_pattern (h_regexp h) v m); [|exact G|exact Mm]. apply in_or_app. right. apply in_or_app. right. apply in_or_app. right. exact U.
    - intros k Hk. unfold change_accs, p0, code_of_list. cbn [cf_ind cf_common]. rewrite C1, C2, C3, C4.
      destruct k as [|k]; [discriminate Hk|]. do 5 (destruct k as [|k]; [constructor|]). constructor. }
  unfold weather_fields, common_codes. cbn [cf_common]. unfold change_accs in K.
  repeat (apply Forall_app; split); first [exact (K 1 eq_refl)|exact (K 2 eq_refl)|exact (K 3 eq_refl)|exact (K 4 eq_refl)].
Qed.

Definition trend_neat (p : change_period) : Prop := Forall showable (weather_fields (cp_common p)).
Definition change_neat (p : change_fc) : Prop := Forall showable (weather_fields (cf_common p)).

Lemma trends_neat : forall l x x', handle_trends l x = Ok x' -> Forall (fun w => ~ In 10%N w) l ->
  Forall trend_neat (gl_list (me_trends x)) -> Forall trend_neat (gl_list (me_trends x')).
Proof.
  induction l as [|w l IH]; intros x x' E N H; cbn [handle_trends] in E; [injection E as <-; exact H|].
  assert (Nw := Forall_inv N). apply Forall_inv_tail in N. cbv beta in Nw.
  destruct w as [|c w]; [exact (IH _ _ E N H)|]. unfold handle_weather_trend in E.
  destruct (change_period_new (c :: w) _) as [p|] eqn:C; [|discriminate E]. cbn [bind] in E. apply trend_shows in C; [|exact Nw].
  destruct (gl_add p (me_trends x)) as [g|] eqn:G; [|discriminate E]. cbn [bind] in E.
  apply IH in E; [exact E|exact N|]. exact (gl_add_forall _ _ _ _ _ G C H).
Qed.

Lemma metar_trends_show : forall e code y mo tr x, metar_parse e code y mo tr = Ok x ->
  Forall (fun p => Forall showable (weather_fields (cp_common p))) (gl_list (me_trends x)).
Proof.
  intros e code y mo tr x E. unfold metar_parse in E. destruct (report_raw_code code) as [raw|] eqn:Er; [|discriminate E]. cbn [bind] in E.
  destruct (metar_init e raw y mo) as [x0|] eqn:E0; [|discriminate E]. cbn [bind] in E.
  destruct (metar_fresh _ _ _ _ _ E0) as (F1 & F2 & F3). pose proof (init_sections _ _ _ _ _ E0) as F4. clear E0.
  unfold parse_body in E. destruct (parse_section (metar_handlers e y mo) _ x0) as [[x1 un]|] eqn:E1; [|discriminate E]. cbn [bind] in E.
  assert (K : me_sections x1 = me_sections x0 /\ me_trends x1 = me_trends x0).
  { apply (parse_section_inv _ (fun x => me_sections x = me_sections x0 /\ me_trends x = me_trends x0)) in E1; [exact E1| |auto].
    intros h m s s' I Eh (K2 & K3). destruct (metar_frame _ _ _ _ _ _ _ I Eh) as (L1 & L2 & L3). rewrite L2, L1. auto. }
  destruct K as (K2 & K3).
  unfold parse_weather_trend in E. destruct (handle_trends _ _) as [x2|] eqn:E2; [|discriminate E]. cbn [bind] in E.
  apply trends_neat in E2.
  2:{ cbn [me_sections upd_unparsed]. rewrite K2, F4. rewrite Forall_forall. intros w I J.
      apply (weaker_char _ _ 10%N (code_weaker _ w I) eq_refl) in J.
      apply (weaker_char _ _ 10%N (proj2 (sections_weaker raw)) eq_refl) in J. exact (proj1 (raw_clean _ _ Er) J). }
  2:{ cbn [me_trends upd_unparsed]. rewrite K3, F3. constructor. }
  pose proof (collect_list _ (me_trends x2)) as Cl. destruct (gl_collect (me_trends x2)) as [l g]. cbn [snd] in Cl. cbv zeta in E.
  set (x3 := upd_unparsed _ _) in E.
  assert (X : x = x3) by (destruct (me_unparsed x3); [congruence|]; destruct tr; [discriminate E|congruence]).
  rewrite X. cbn [me_trends x3 upd_unparsed upd_trends]. rewrite Cl. exact E2.
Qed.

Lemma pop_neat : forall u rl temp a b, pop_changes u rl temp = Ok (a, b) -> Forall change_neat rl -> Forall change_neat temp ->
  Forall change_neat a /\ Forall change_neat b.
Proof.
  intros u rl. induction rl as [|l rl IH]; intros temp a b E H T; cbn [pop_changes] in E; [injection E as <- <-; auto|].
  inversion H as [|? ? Hl Hr]; subst. destruct (tc_code (cf_ind l)) as [c|] eqn:Ec; [|discriminate].
  destruct (_ || _); [exact (IH _ _ _ E Hr (Forall_cons _ Hl T))|].
  destruct (starts_with (py "FM") c) eqn:F; [|injection E as <- <-; split; [exact Hr|constructor; assumption]].
  unfold reset_until_period in E. binds E. injection E as <- <-. split; [exact Hr|]. constructor; [exact Hl|exact T].
Qed.

Lemma changes_add_neat : forall p g g', changes_add p g = Ok g' -> change_neat p -> Forall change_neat (gl_list g) ->
  Forall change_neat (gl_list g').
Proof.
  intros p g g' E Hp Hg. unfold changes_add in E. cbv zeta in E. destruct (_ && _); [|exact (gl_add_forall _ _ _ _ _ E Hp Hg)].
  destruct (pop_changes _ (rev (gl_list g)) []) as [[rl temp]|] eqn:P; [|discriminate]. cbn [bind] in E.
  apply pop_neat in P; [|apply Forall_rev; exact Hg|constructor]. destruct P as [P1 P2].
  destruct (gl_add_all temp _) as [g1|] eqn:A; [|discriminate]. cbn [bind] in E.
  apply (add_all_kept _ change_neat) in A; [|exact P2|cbn [gl_list]; apply Forall_rev; exact P1].
  exact (gl_add_forall _ _ _ _ _ E Hp A).
Qed.

Lemma changes_neat : forall l x x', handle_changes l x = Ok x' -> Forall (fun w => ~ In 10%N w) l ->
  Forall change_neat (gl_list (ta_changes x)) -> Forall change_neat (gl_list (ta_changes x')).
Proof.
  induction l as [|w l IH]; intros x x' E N H; cbn [handle_changes] in E; [injection E as <-; exact H|].
  assert (Nw := Forall_inv N). apply Forall_inv_tail in N. cbv beta in Nw.
  destruct w as [|c w]; [exact (IH _ _ E N H)|]. unfold handle_change_forecasted in E.
  destruct (change_fc_new (c :: w) _) as [p|] eqn:C; [|discriminate E]. cbn [bind] in E. apply change_shows in C; [|exact Nw].
  destruct (changes_add p (ta_changes x)) as [g|] eqn:G; [|discriminate E]. cbn [bind] in E.
  apply IH in E; [exact E|exact N|]. exact (changes_add_neat _ _ _ G C H).
Qed.

Lemma taf_init_codes : forall e raw x, taf_init e raw = Ok x -> ta_codes x = snd (taf_split raw).
Proof.
  intros e raw x E. unfold taf_init in E. destruct (taf_split raw) as [bp cs]. binds E. injection E as <-. reflexivity.
Qed.

Lemma taf_changes_show : forall e code y mo tr x, taf_parse e code y mo tr = Ok x ->
  Forall (fun p => Forall showable (weather_fields (cf_common p))) (gl_list (ta_changes x)).
Proof.
  intros e code y mo tr x E. unfold taf_parse in E. destruct (report_raw_code code) as [raw|] eqn:Er; [|discriminate E]. cbn [bind] in E.
  destruct (taf_init e raw) as [x0|] eqn:E0; [|discriminate E]. cbn [bind] in E.
  destruct (taf_fresh _ _ _ E0) as (_ & _ & _ & F4 & _). pose proof (taf_init_codes _ _ _ E0) as F5. clear E0.
  unfold taf_parse_body in E. destruct (parse_section (taf_handlers e y mo) _ x0) as [[x1 un]|] eqn:E1; [|discriminate E]. cbn [bind] in E.
  assert (K : ta_changes x1 = ta_changes x0 /\ ta_codes x1 = ta_codes x0).
  { apply (parse_section_inv _ (fun x => ta_changes x = ta_changes x0 /\ ta_codes x = ta_codes x0)) in E1; [exact E1| |auto].
    intros h m s s' I Eh (K1 & K4). destruct (taf_frame _ _ _ _ _ _ _ I Eh) as (L1 & _ & _ & L4). rewrite L1, L4. auto. }
  destruct K as (K1 & K4).
  unfold parse_changes_forecasted in E. destruct (handle_changes _ _) as [x2|] eqn:E2; [|discriminate E]. cbn [bind] in E.
  apply changes_neat in E2.
  2:{ cbn [ta_codes tupd_unparsed]. rewrite K4, F5. rewrite Forall_forall. intros w I J.
      apply (weaker_char _ _ 10%N (code_part_weaker raw w I) eq_refl) in J. exact (proj1 (raw_clean _ _ Er) J). }
  2:{ cbn [ta_changes tupd_unparsed]. rewrite K1, F4. constructor. }
  pose proof (collect_list _ (ta_changes x2)) as Cl. destruct (gl_collect (ta_changes x2)) as [l g]. cbn [snd] in Cl. cbv zeta in E.
  set (x3 := tupd_unparsed _ _) in E.
  assert (X : x = x3) by (destruct (ta_unparsed x3); [congruence|]; destruct tr; [discriminate E|congruence]).
  rewrite X. cbn [ta_changes x3 tupd_unparsed tupd_changes]. rewrite Cl. exact E2.
Qed.
