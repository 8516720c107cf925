(** * Groups written in several words, whatever the words *)
From Coq Require Import String Ascii.
From Coq Require Import List NArith ZArith Bool Lia.
From Verif Require Import PyBase PyRegex AeroRegex Utils StrFacts SpecText SpecWords SpecJoined SpecFused ProofText TextFacts
  RegexPaths MergeFacts ProofWords ProofJoined Base Metar.
Import ListNotations.
Local Open Scope string_scope.
Local Open Scope nat_scope.
Local Open Scope list_scope.

Section Fusing.
Variable r : regex.
Variables lt rt : str -> bool.
Variable k : nat.
Variable fuse : str -> str -> str.
Variable repl : rmatch -> str.
Hypothesis Hbos : nobos r = true.
Hypothesis Hnil : mlen r [] = None.
Hypothesis Hlink : forall x, den r x -> exists l b m1 m2, x = l ++ b :: m1 ++ m2 /\ length l = S k /\ ink l
  /\ is_space b = true /\ ink m1 /\ (forall w, lt (w ++ l) = true) /\ (forall v, rt (m1 ++ v) = true).
Hypothesis Hhit : forall u v t, lt u = true -> rt v = true -> bfirst t -> exists a l mv rv m,
  u = a ++ l /\ length l = S k /\ v = mv ++ rv /\ re_match r ((l ++ 32%N :: mv) ++ rv ++ t) = Some m
  /\ m_end m = length (l ++ 32%N :: mv) /\ forall m', (forall n, group m' n = group m n) -> a ++ repl m' ++ rv = fuse u v.
Hypothesis Hfuse : forall u v, ink u -> ink v -> lt u = true -> rt v = true -> ink (fuse u v).

Definition one_step (s : str) : option str :=
  match re_search r s with Some m => Some (re_sub r (repl m) s (Some 1)) | None => None end.

Lemma link_weak : forall x, den r x -> exists l b m1 m2, x = l ++ b :: m1 ++ m2 /\ l <> [] /\ ink l
  /\ is_space b = true /\ ink m1 /\ (forall w, lt (w ++ l) = true) /\ (forall v, rt (m1 ++ v) = true).
Proof.
  intros x D. destruct (Hlink x D) as (l & b & m1 & m2 & E & L & R). exists l, b, m1, m2. split; [exact E|]. split; [|exact R].
  intros ->. discriminate L.
Qed.

Lemma fuse_some : forall ws ws', fuse_first lt rt fuse ws = Some ws' -> exists A u v B, ws = A ++ u :: v :: B
  /\ lt u = true /\ rt v = true /\ apart lt rt A u /\ ws' = A ++ fuse u v :: B.
Proof.
  induction ws as [|u [|v B] IH]; intros ws' H; [discriminate H|discriminate H|].
  change (fuse_first lt rt fuse (u :: v :: B)) with (if lt u && rt v then Some (fuse u v :: B)
    else option_map (cons u) (fuse_first lt rt fuse (v :: B))) in H.
  destruct (lt u && rt v) eqn:E.
  - apply andb_prop in E. destruct E as [E1 E2]. injection H as <-. exists [], u, v, B. cbn [app apart]. auto.
  - destruct (fuse_first lt rt fuse (v :: B)) as [l|]; [|discriminate H]. cbn [option_map] in H. injection H as <-.
    destruct (IH l eq_refl) as (A & u' & v' & B' & Ew & L & R & P & ->). exists (u :: A), u', v', B'. rewrite Ew.
    split; [reflexivity|]. split; [exact L|]. split; [exact R|]. split; [|reflexivity]. split; [|exact P].
    destruct A as [|z A]; injection Ew as -> _; exact E.
Qed.

Lemma fuse_none : forall ws, fuse_first lt rt fuse ws = None -> forall A u v B, ws = A ++ u :: v :: B -> lt u && rt v = false.
Proof.
  intros ws H A. revert ws H. induction A as [|a A IH]; intros ws H u v B ->.
  - cbn [app fuse_first] in H. destruct (lt u && rt v); [discriminate H|reflexivity].
  - cbn [app] in H. destruct (A ++ u :: v :: B) as [|b l] eqn:E; [destruct A; discriminate E|].
    change (fuse_first lt rt fuse (a :: b :: l)) with (if lt a && rt b then Some (fuse a b :: l)
      else option_map (cons a) (fuse_first lt rt fuse (b :: l))) in H.
    destruct (lt a && rt b); [discriminate H|]. destruct (fuse_first lt rt fuse (b :: l)) eqn:F; [discriminate H|].
    rewrite <- E in F. exact (IH _ F u v B eq_refl).
Qed.

Lemma before_quiet : forall a l t, ink (a ++ l) -> length l = S k -> quiet r a (l ++ 32%N :: t).
Proof.
  intros a l t I L a1 c a2 ->. apply mlen_none. intros x t' Ex D.
  destruct (Hlink x D) as (l' & b & m1 & m2 & -> & L' & I' & Hb & _).
  assert (F : (c :: a2 ++ l) ++ 32%N :: t = l' ++ b :: (m1 ++ m2) ++ t').
  { rewrite <- app_assoc in Ex. cbn [app] in *. rewrite <- app_assoc. exact Ex. }
  apply first_blank in F; [|apply (ink_app_r a1); rewrite <- app_assoc in I; exact I|exact I'|reflexivity|exact Hb].
  destruct F as (F & _). apply (f_equal (@length N)) in F. cbn [length] in F. rewrite app_length in F. lia.
Qed.

Lemma fuse_step : forall ws, Forall ink ws -> one_step (sentence ws) = option_map sentence (fuse_first lt rt fuse ws).
Proof.
  intros ws H. unfold one_step. destruct (fuse_first lt rt fuse ws) as [ws'|] eqn:F; cbn [option_map].
  - destruct (fuse_some ws ws' F) as (A & u & v & B & -> & L & R & P & ->). apply Forall_app in H. destruct H as [HA H].
    inversion H as [|u0 l0 Hu H2]; subst. inversion H2 as [|v0 l1 Hv HB]; subst.
    destruct (Hhit u v (tails B) L R (tails_bfirst B)) as (a & l & mv & rv & m & -> & Ll & -> & M & Me & G).
    assert (T : sentence (A ++ @cons str (a ++ l) (@cons str (mv ++ rv) B)) = (pre A ++ a) ++ (l ++ 32%N :: mv) ++ (rv ++ tails B)).
    { rewrite sentence_pre, sentence_tails. cbn [tails flat_map]. fold (tails B). rewrite <- !app_assoc. cbn [app]. rewrite <- !app_assoc. reflexivity. }
    assert (Q : quiet r (pre A ++ a) ((l ++ 32%N :: mv) ++ rv ++ tails B)).
    { apply quiet_app.
      - pose proof (quiet_pre r lt rt link_weak A (a ++ l) (32%N :: mv ++ rv ++ tails B) HA Hu) as K.
        rewrite <- !app_assoc in *. cbn [app] in *. rewrite <- ?app_assoc in K. apply K; [right; eexists; reflexivity|exact P].
      - rewrite <- !app_assoc. cbn [app]. apply before_quiet; [exact Hu|exact Ll]. }
    rewrite T. destruct (step_at r (repl m) (pre A ++ a) (l ++ 32%N :: mv) (rv ++ tails B) m Hbos Hnil Q) as (_ & m' & S2 & S3);
      [destruct l; discriminate|exact M|exact Me|].
    destruct (step_at r (repl m') (pre A ++ a) (l ++ 32%N :: mv) (rv ++ tails B) m Hbos Hnil Q) as (S1 & _);
      [destruct l; discriminate|exact M|exact Me|].
    rewrite S2, S1. f_equal. rewrite sentence_pre, sentence_tails, <- (G m' S3), <- !app_assoc. reflexivity.
  - rewrite (re_search_none r _ Hbos Hnil); [reflexivity|].
    apply (sentence_quiet r lt rt link_weak); [exact H|]. exact (fuse_none ws F).
Qed.

Lemma fuse_inks : forall ws ws', Forall ink ws -> fuse_first lt rt fuse ws = Some ws' -> Forall ink ws'.
Proof.
  intros ws ws' H F. destruct (fuse_some ws ws' F) as (A & u & v & B & -> & L & R & _ & ->). apply Forall_app in H. destruct H as [HA H].
  inversion H as [|u0 l0 Hu H2]; subst. inversion H2 as [|v0 l1 Hv HB]; subst. apply Forall_app. split; [exact HA|].
  constructor; [apply Hfuse; assumption|exact HB].
Qed.

Lemma fuse_times_ink : forall n ws, Forall ink ws -> Forall ink (fuse_times n lt rt fuse ws).
Proof.
  induction n as [|n IH]; intros ws H; [exact H|]. cbn [fuse_times]. destruct (fuse_first lt rt fuse ws) as [ws'|] eqn:F; [|exact H].
  apply IH. exact (fuse_inks ws ws' H F).
Qed.

Fixpoint steps (n : nat) (s : str) : str :=
  match n with O => s | S n' => match one_step s with Some s' => steps n' s' | None => s end end.
Lemma fuse_steps : forall n ws, Forall ink ws -> steps n (sentence ws) = sentence (fuse_times n lt rt fuse ws).
Proof.
  induction n as [|n IH]; intros ws H; [reflexivity|]. cbn [steps fuse_times]. rewrite (fuse_step ws H).
  destruct (fuse_first lt rt fuse ws) as [ws'|] eqn:F; [|reflexivity]. cbn [option_map]. apply IH. exact (fuse_inks ws ws' H F).
Qed.
End Fusing.

(** ** Windshear *)

Lemma ends_with_iff : forall p s, ends_with p s = true <-> exists a, s = a ++ p.
Proof.
  intros p s. unfold ends_with. rewrite starts_with_app. split; intros (t & E).
  - exists (rev t). rewrite <- (rev_involutive s), E, rev_app_distr, rev_involutive. reflexivity.
  - exists (rev t). rewrite E, rev_app_distr. reflexivity.
Qed.

Lemma ends_ws_iff : forall u, ends_ws u = true <-> exists a, u = a ++ py "WS".
Proof. intro u. apply ends_with_iff. Qed.

Lemma names_runway_iff : forall v, names_runway v = true <->
  exists p a b s, v = p ++ a :: b :: s /\ is_digit a = true /\ is_digit b = true /\ after_rwy v = a :: b :: s
    /\ (p = py "R" \/ p = py "RWY").
Proof.
  intro v. unfold names_runway. split.
  - intro H. apply andb_prop in H. destruct H as [R H]. apply starts_with_app in R. destruct R as (t & ->).
    unfold after_rwy in *. destruct (starts_with (py "RWY") (py "R" ++ t)) eqn:W.
    + apply starts_with_app in W. destruct W as (t' & W). rewrite W in *. change (skipn 3 (py "RWY" ++ t')) with t' in *.
      destruct t' as [|a [|b s]]; [discriminate H|discriminate H|]. apply andb_prop in H. destruct H as [A B].
      exists (py "RWY"), a, b, s. auto 6.
    + change (skipn 1 (py "R" ++ t)) with t in *. destruct t as [|a [|b s]]; [discriminate H|discriminate H|].
      apply andb_prop in H. destruct H as [A B]. exists (py "R"), a, b, s. auto 6.
  - intros (p & a & b & s & -> & A & B & E & P). rewrite E, A, B. destruct P as [-> | ->]; reflexivity.
Qed.

Lemma runway_after : forall a b s, is_digit a = true -> after_rwy (py "R" ++ a :: b :: s) = a :: b :: s.
Proof.
  intros a b s A. unfold after_rwy. destruct (starts_with (py "RWY") (py "R" ++ a :: b :: s)) eqn:W; [|reflexivity].
  apply starts_with_app in W. destruct W as (t & W). injection W as -> _. vm_compute in A. discriminate A.
Qed.

Lemma runway_link : forall x, den r_SAN_WS x -> exists l b m1 m2, x = l ++ b :: m1 ++ m2 /\ length l = 2 /\ ink l
  /\ is_space b = true /\ ink m1 /\ (forall w, ends_ws (w ++ l) = true) /\ (forall v, names_runway (m1 ++ v) = true).
Proof.
  intros x D. unfold r_SAN_WS in D. cbn [den] in D.
  destruct D as (x1 & x2 & -> & (c1 & -> & H1) & (x3 & x4 & -> & (c2 & -> & H2) & (x5 & x6 & -> & (b & -> & Hb)
    & (x7 & x8 & -> & (c3 & -> & H3) & (x9 & x10 & -> & Hwy & (x11 & x12 & -> & (y1 & y2 & -> & (d1 & -> & D1) & (d2 & -> & D2)) & _)))))).
  apply in_one_eq in H1, H2, H3. subst. rewrite in_space in Hb. rewrite in_digit in D1, D2.
  assert (I1 := is_digit_space _ D1). assert (I2 := is_digit_space _ D2).
  exists (py "WS"), b, (82%N :: x9 ++ [d1; d2]), x12.
  split; [cbn [app]; rewrite <- ?app_assoc; reflexivity|]. split; [reflexivity|]. split; [repeat constructor|]. split; [exact Hb|].
  destruct Hwy as [(y3 & y4 & -> & (c4 & -> & H4) & (c5 & -> & H5)) | ->].
  - apply in_one_eq in H4, H5. subst. split; [repeat constructor; assumption|].
    split; [intro w; apply ends_ws_iff; exists w; reflexivity|].
    intro v. apply names_runway_iff. exists (py "RWY"), d1, d2, v. auto 6.
  - split; [repeat constructor; assumption|]. split; [intro w; apply ends_ws_iff; exists w; reflexivity|].
    intro v. apply names_runway_iff. exists (py "R"), d1, d2, v. split; [reflexivity|]. split; [exact D1|]. split; [exact D2|].
    split; [apply (runway_after d1 d2 v D1)|left; reflexivity].
Qed.

Definition side_cls : cls := [CRange 67 67; CRange 76 76; CRange 82 82].
Lemma runway_hit : forall u v t, ends_ws u = true -> names_runway v = true -> bfirst t -> exists a l mv rv m,
  u = a ++ l /\ length l = 2 /\ v = mv ++ rv /\ re_match r_SAN_WS ((l ++ 32%N :: mv) ++ rv ++ t) = Some m
  /\ m_end m = length (l ++ 32%N :: mv)
  /\ forall m', (forall n, group m' n = group m n) -> a ++ (py "WS_R" ++ fmt_opt (group m' "name")) ++ rv = fuse_runway u v.
Proof.
  intros u v t Hu Hv Ht. apply ends_ws_iff in Hu. destruct Hu as (a & ->). unfold fuse_runway.
  apply names_runway_iff in Hv. destruct Hv as (p & d1 & d2 & s & -> & D1 & D2 & -> & P).
  assert (S : exists sd rv, s = sd ++ rv /\ (sd = [] /\ (match rv ++ t with [] => True | c :: _ => in_cls c side_cls = false end)
     \/ exists c, sd = [c] /\ in_cls c side_cls = true)).
  { destruct s as [|c s].
    - exists [], []. split; [reflexivity|]. left. split; [reflexivity|]. destruct Ht as [-> |(t2 & ->)]; [exact I|reflexivity].
    - destruct (in_cls c side_cls) eqn:C; [exists [c], s; split; [reflexivity|right; exists c; auto]|].
      exists [], (c :: s). split; [reflexivity|]. left. split; [reflexivity|exact C]. }
  destruct S as (sd & rv & -> & Hs).
  exists a, (py "WS"), (p ++ d1 :: d2 :: sd), rv.
  set (s := (py "WS" ++ 32%N :: p ++ d1 :: d2 :: sd) ++ rv ++ t).
  assert (Es : s = 87%N :: 83%N :: 32%N :: p ++ d1 :: d2 :: sd ++ rv ++ t).
  { unfold s. change (py "WS") with [87; 83]%N. cbn [app]. rewrite <- app_assoc. reflexivity. }
  assert (H : exists sps, heads r_SAN_WS 0 s (5 + length p + length sd) (rv ++ t) sps
    /\ span_of "name" sps = Some (3 + length p, 5 + length p + length sd)).
  { rewrite Es. unfold r_SAN_WS.
    assert (N : forall q, exists e, heads (Alt (Chr side_cls) Eps) q (sd ++ rv ++ t) e (rv ++ t) [] /\ e = q + length sd).
    { intro q. destruct Hs as [(-> & Hc)|(c & -> & Hc)].
      - exists q. split; [|cbn; lia]. apply heads_alt2; [|exists []; reflexivity]. cbn [app run].
        destruct (rv ++ t) as [|c z]; [reflexivity|]. rewrite Hc. reflexivity.
      - exists (S q). split; [|cbn; lia]. apply heads_alt, heads_chr. exact Hc. }
    assert (F : forall q, exists e sps, heads (Grp "name" (Seq (Seq (Chr [CDigit]) (Chr [CDigit])) (Alt (Chr side_cls) Eps))) q
        (d1 :: d2 :: sd ++ rv ++ t) e (rv ++ t) sps /\ e = 2 + q + length sd /\ span_of "name" sps = Some (q, e)).
    { intro q. destruct (N (2 + q)) as (e & N1 & Ne). exists e. eexists. split; [|split; [exact Ne|]].
      - apply heads_grp. eapply heads_seq; [|exact N1]. eapply heads_seq; apply heads_chr; rewrite in_digit; assumption.
      - reflexivity. }
    destruct P as [-> | ->].
    - destruct (F 4) as (e & sps & F1 & Fe & Fs). exists sps. replace (5 + length (py "R") + length sd) with e by (rewrite Fe; cbn; lia).
      rewrite Fs. split; [|reflexivity]. rewrite <- (app_nil_r sps).
      eapply heads_seq; [apply heads_chr; reflexivity|]. rewrite <- (app_nil_r sps).
      eapply heads_seq; [apply heads_chr; reflexivity|]. rewrite <- (app_nil_r sps).
      eapply heads_seq; [apply heads_chr; reflexivity|]. rewrite <- (app_nil_r sps).
      eapply heads_seq; [apply heads_chr; reflexivity|]. rewrite <- (app_nil_r sps).
      eapply heads_seq; [|exact F1]. apply heads_alt2; [|exists []; reflexivity]. cbn [app run].
      assert (W : in_cls d1 [CRange 87 87] = false).
      { destruct (in_cls d1 [CRange 87 87]) eqn:W; [|reflexivity]. apply in_one_eq in W. subst. vm_compute in D1. discriminate D1. }
      rewrite W. reflexivity.
    - destruct (F 6) as (e & sps & F1 & Fe & Fs). exists sps. replace (5 + length (py "RWY") + length sd) with e by (rewrite Fe; cbn; lia).
      rewrite Fs. split; [|reflexivity]. rewrite <- (app_nil_r sps).
      eapply heads_seq; [apply heads_chr; reflexivity|]. rewrite <- (app_nil_r sps).
      eapply heads_seq; [apply heads_chr; reflexivity|]. rewrite <- (app_nil_r sps).
      eapply heads_seq; [apply heads_chr; reflexivity|]. rewrite <- (app_nil_r sps).
      eapply heads_seq; [apply heads_chr; reflexivity|]. rewrite <- (app_nil_r sps).
      eapply heads_seq; [|exact F1]. apply heads_alt. change (@nil (string * (nat * nat))) with (@nil (string * (nat * nat)) ++ []).
      eapply heads_seq; apply heads_chr; reflexivity. }
  destruct H as (sps & H & Sn). destruct (heads_match _ _ _ _ _ H) as (m & M & Me & G). exists m.
  split; [reflexivity|]. split; [reflexivity|]. split; [rewrite <- app_assoc; reflexivity|]. split; [exact M|].
  split; [rewrite Me; change (py "WS") with [87; 83]%N; cbn [app length]; rewrite app_length; cbn [length]; lia|].
  intros m' G'. rewrite G', G, Sn. cbn [fmt_opt].
  assert (X : substr s (3 + length p) (5 + length p + length sd) = d1 :: d2 :: sd).
  { rewrite Es. unfold substr. replace (5 + length p + length sd - (3 + length p)) with (length (d1 :: d2 :: sd)) by (cbn [length]; lia).
    change (87%N :: 83%N :: 32%N :: p ++ d1 :: d2 :: sd ++ rv ++ t) with ((87%N :: 83%N :: 32%N :: p) ++ (d1 :: d2 :: sd) ++ rv ++ t).
    change (3 + length p) with (length (87%N :: 83%N :: 32%N :: p)). rewrite skipn_app, skipn_all, Nat.sub_diag. cbn [app skipn].
    change (d1 :: d2 :: sd ++ rv ++ t) with ((d1 :: d2 :: sd) ++ rv ++ t).
    rewrite firstn_app, Nat.sub_diag, firstn_O, app_nil_r. apply firstn_all. }
  rewrite X. rewrite <- !app_assoc. reflexivity.
Qed.

Lemma after_ink : forall v, ink v -> ink (after_rwy v).
Proof. intros v H. unfold after_rwy. destruct (starts_with (py "RWY") v); [apply (ink_app_r (firstn 3 v))|apply (ink_app_r (firstn 1 v))]; rewrite firstn_skipn; exact H. Qed.
Lemma runway_fused_ink : forall u v, ink u -> ink v -> ends_ws u = true -> names_runway v = true -> ink (fuse_runway u v).
Proof.
  intros u v U V _ _. apply Forall_app. split; [exact U|]. apply Forall_app. split; [repeat constructor|apply after_ink; exact V].
Qed.

Definition shear_text (m : rmatch) : str := py "WS_R" ++ fmt_opt (group m "name").
Lemma shear_steps : forall s, sanitize_windshear_step (sanitize_windshear_step (sanitize_windshear_step s)) = steps r_SAN_WS shear_text 3 s.
Proof.
  assert (E : forall s, sanitize_windshear_step s = match one_step r_SAN_WS shear_text s with Some s' => s' | None => s end).
  { intro s. unfold sanitize_windshear_step, one_step. destruct (re_search r_SAN_WS s); reflexivity. }
  intro s. cbn [steps]. rewrite !E. destruct (one_step r_SAN_WS shear_text s) as [s1|] eqn:E1; [|rewrite E1, E1; reflexivity].
  destruct (one_step r_SAN_WS shear_text s1) as [s2|] eqn:E2; [|rewrite E2; reflexivity].
  destruct (one_step r_SAN_WS shear_text s2); reflexivity.
Qed.

Lemma shear_fused : forall ws, Forall ink ws ->
  sanitize_windshear_step (sanitize_windshear_step (sanitize_windshear_step (sentence ws)))
  = sentence (fuse_times 3 ends_ws names_runway fuse_runway ws).
Proof.
  intros ws H. rewrite shear_steps.
  apply (fuse_steps r_SAN_WS ends_ws names_runway 1 fuse_runway shear_text eq_refl eq_refl runway_link runway_hit runway_fused_ink 3 ws H).
Qed.

(** ** All runways *)

Lemma all_words : forall x, den r_SAN_WS_ALL x -> exists b b2, x = py "WS" ++ b :: py "ALL" ++ b2 :: py "RWY"
  /\ is_space b = true /\ is_space b2 = true.
Proof.
  intros x D. apply den_paths in D; [|reflexivity]. destruct D as (p & Hp & A).
  cbv in Hp. destruct Hp as [<-|[]]. read A. rewrite in_space in Hc, Hc0. exists c, c0. auto.
Qed.

Definition all_next (t : str) : bool := starts_with (py " ALL RWY") t.

Lemma all_quiet : forall u t, ink u -> bfirst t -> ends_ws u && all_next t = false ->
  (forall t2, t = 32%N :: py "ALL" ++ t2 -> bfirst t2 \/ match t2 with c :: _ => is_space c = false | [] => True end) ->
  quiet r_SAN_WS_ALL u t.
Proof.
  intros u t Hu Ht H Hb a1 c a2 E. apply mlen_none. intros x t' Ex D. destruct (all_words x D) as (b & b2 & -> & Sb & Sb2).
  assert (F : (c :: a2) ++ t = py "WS" ++ b :: py "ALL" ++ b2 :: py "RWY" ++ t').
  { cbn [app] in *. rewrite Ex. reflexivity. }
  assert (Ic : ink (c :: a2)) by (apply (ink_app_r a1); rewrite <- E; exact Hu).
  destruct Ht as [-> |(t2 & ->)].
  - rewrite app_nil_r in F. exact (ink_no_blank _ _ _ _ Ic Sb F).
  - apply first_blank in F; [|exact Ic|repeat constructor|reflexivity|exact Sb]. destruct F as (Fc & Fb & Ft).
    assert (U : ends_ws u = true) by (apply ends_ws_iff; exists a1; rewrite E, Fc; reflexivity).
    rewrite U in H. cbn [andb] in H. subst t2.
    destruct (Hb (b2 :: py "RWY" ++ t') eq_refl) as [[K|(t3 & K)]|K]; [discriminate K| |congruence].
    injection K as -> _. discriminate H.
Qed.

Lemma all_hit : forall t, mlen r_SAN_WS_ALL (py "WS ALL RWY" ++ t) = Some 10.
Proof. intro t. reflexivity. Qed.

Lemma tail_ws : forall v, ends_ws (py "RWY" ++ v) = ends_ws v.
Proof.
  intro v. apply eq_true_iff_eq. rewrite !ends_ws_iff. split.
  - intros (a & E). destruct a as [|c1 [|c2 [|c3 a]]]; [discriminate E|discriminate E| |].
    + change (py "RWY") with [82; 87; 89]%N in E. change (py "WS") with [87; 83]%N in E. cbn [app] in E. discriminate E.
    + change (py "RWY") with [82; 87; 89]%N in E. injection E as _ _ _ E. exists a. exact E.
  - intros (a & ->). exists (py "RWY" ++ a). rewrite <- app_assoc. reflexivity.
Qed.

Definition prefixed (p : str) (ws : list str) : list str := match ws with w :: rest => (p ++ w) :: rest | [] => [] end.
Lemma fuse_all_cons : forall u v w rest, fuse_all (u :: v :: w :: rest) =
  if ends_ws u && str_eqb v (py "ALL") && starts_with (py "RWY") w
  then match fuse_all (w :: rest) with w' :: l => (u ++ py "_ALL_" ++ w') :: l | [] => [] end
  else u :: fuse_all (v :: w :: rest).
Proof. reflexivity. Qed.
Lemma fuse_all_ne : forall (u : str) (ws : list str), fuse_all (@cons str u ws) <> [].
Proof.
  assert (K : forall n u ws, length ws <= n -> fuse_all (u :: ws) <> []).
  { induction n as [|n IH]; intros u [|v [|w rest]] L; [discriminate|cbn in L; lia|cbn in L; lia|discriminate|discriminate|].
    rewrite fuse_all_cons. destruct (ends_ws u && str_eqb v (py "ALL") && starts_with (py "RWY") w); [|discriminate]. pose proof (IH w rest) as N. cbn [length] in L.
    destruct (fuse_all (w :: rest)); [exact (fun _ => N ltac:(lia) eq_refl)|discriminate]. }
  intros u ws. exact (K (length ws) u ws (le_n _)).
Qed.
Lemma fuse_all_rwy : forall (v : str) (rest : list str), fuse_all (@cons str (py "RWY" ++ v) rest) = prefixed (py "RWY") (fuse_all (v :: rest)).
Proof.
  intros v [|a [|b rest]]; [reflexivity|reflexivity|]. rewrite !fuse_all_cons, tail_ws. destruct (ends_ws v && str_eqb a (py "ALL") && starts_with (py "RWY") b); [|reflexivity].
  destruct (fuse_all (b :: rest)); [reflexivity|]. cbn [prefixed]. rewrite <- app_assoc. reflexivity.
Qed.

Lemma all_next_words : forall v ws, ink v -> Forall ink ws ->
  all_next (tails (v :: ws)) = str_eqb v (py "ALL") && match ws with w :: _ => starts_with (py "RWY") w | [] => false end.
Proof.
  intros v ws Hv Hw. apply eq_true_iff_eq. unfold all_next. rewrite starts_with_app, andb_true_iff, str_eqb_eq. split.
  - intros (t & E). change (py " ALL RWY" ++ t) with (32%N :: py "ALL" ++ 32%N :: py "RWY" ++ t) in E.
    cbn [tails flat_map app] in E. fold (tails ws) in E. injection E as E. change (v ++ tails ws = py "ALL" ++ 32%N :: py "RWY" ++ t) in E. destruct ws as [|w ws].
    + cbn [tails flat_map] in E. rewrite app_nil_r in E. exfalso. exact (ink_no_blank v (py "ALL") 32%N _ Hv eq_refl E).
    + cbn [tails flat_map app] in E. fold (tails ws) in E.
      apply first_blank in E; [|exact Hv|repeat constructor|reflexivity|reflexivity]. destruct E as (-> & _ & E). split; [reflexivity|].
      inversion Hw as [|w0 l0 H1 H2]; subst. destruct (ink_starts (py "RWY") w (tails ws)) as (w' & ->); [repeat constructor|eexists; exact E|apply tails_bfirst|].
      apply starts_with_self.
  - intros (-> & H). destruct ws as [|w ws]; [discriminate H|]. apply starts_with_app in H. destruct H as (w' & ->).
    exists (w' ++ tails ws). cbn [tails flat_map app]. fold (tails ws). rewrite <- !app_assoc. reflexivity.
Qed.

Lemma all_fused : forall n u ws, length ws <= n -> ink u -> Forall ink ws ->
  re_sub r_SAN_WS_ALL (py "WS_ALL_RWY") (u ++ tails ws) None = sentence (fuse_all (u :: ws)).
Proof.
  assert (B0 : nobos r_SAN_WS_ALL = true) by reflexivity. assert (N0 : mlen r_SAN_WS_ALL [] = None) by reflexivity.
  assert (K : forall v ws t2, ink v -> Forall ink ws -> tails (v :: ws) = 32%N :: py "ALL" ++ t2 ->
     bfirst t2 \/ match t2 with c :: _ => is_space c = false | [] => True end).
  { intros v ws t2 Hv Hw E. cbn [tails flat_map app] in E. fold (tails ws) in E. injection E as E. change (v ++ tails ws = py "ALL" ++ t2) in E.
    destruct (ink_starts (py "ALL") v (tails ws)) as (v' & ->); [repeat constructor|eexists; exact E|apply tails_bfirst|].
    rewrite <- app_assoc in E. apply app_inv_head in E. subst t2. destruct v' as [|c v']; [left; apply tails_bfirst|].
    right. apply (ink_app_r (py "ALL")) in Hv. inversion Hv. assumption. }
  induction n as [|n IH]; intros u ws L Hu Hw.
  - destruct ws as [|v ws]; [|cbn in L; lia]. cbn [tails flat_map fuse_all sentence join].
    rewrite re_sub_quiet; [rewrite re_sub_nil by exact N0; apply app_nil_r|exact B0|].
    apply all_quiet; [exact Hu|left; reflexivity|apply andb_false_r|intros t2 E; discriminate E].
  - destruct ws as [|v ws].
    + apply IH; [cbn; lia|exact Hu|exact Hw].
    + inversion Hw as [|v0 l0 Hv Hw']; subst. assert (T := all_next_words v ws Hv Hw').
      destruct (ends_ws u && all_next (tails (v :: ws))) eqn:M.
      * apply andb_prop in M. destruct M as [U M]. rewrite T in M. apply andb_prop in M. destruct M as [V M].
        destruct ws as [|w ws]; [discriminate M|]. rewrite fuse_all_cons, U, V, M. cbn [andb].
        apply str_eqb_eq in V. subst v. apply starts_with_app in M. destruct M as (w' & ->).
        apply ends_ws_iff in U. destruct U as (a & ->). rewrite fuse_all_rwy.
        inversion Hw' as [|w0 l0 H1 H2]; subst. apply (ink_app_r (py "RWY")) in H1.
        assert (Et : (a ++ py "WS") ++ tails (@cons str (py "ALL") (@cons str (py "RWY" ++ w') ws)) = a ++ py "WS ALL RWY" ++ (w' ++ tails ws)).
        { cbn [tails flat_map app]. fold (tails ws). rewrite <- !app_assoc. reflexivity. }
        rewrite Et. rewrite (all_at _ _ a (py "WS ALL RWY") (w' ++ tails ws) 10 B0 N0); [|intros a1 c a2 E|discriminate|apply all_hit|reflexivity].
        -- rewrite IH; [|cbn [length] in L; lia|exact H1|exact H2]. pose proof (fuse_all_ne w' ws) as Ne.
           destruct (fuse_all (@cons str w' ws)) as [|z l]; [congruence|]. cbn [prefixed]. rewrite !sentence_tails. rewrite <- !app_assoc. reflexivity.
        -- apply mlen_none. intros x t' Ex D. destruct (all_words x D) as (b & b2 & -> & Sb & Sb2).
           assert (F : (c :: a2 ++ py "WS") ++ 32%N :: py "ALL RWY" ++ w' ++ tails ws = py "WS" ++ b :: py "ALL" ++ b2 :: py "RWY" ++ t').
           { cbn [app] in *. rewrite <- app_assoc. exact Ex. }
           apply first_blank in F; [|apply (ink_app_r a1); subst a; rewrite <- app_assoc in Hu; exact Hu|repeat constructor|reflexivity|exact Sb].
           destruct F as (F & _). apply (f_equal (@length N)) in F. cbn [length] in F. rewrite app_length in F. cbn in F. lia.
      * assert (Eq : fuse_all (u :: v :: ws) = u :: fuse_all (v :: ws)).
        { destruct ws as [|w ws]; [reflexivity|]. rewrite fuse_all_cons, <- andb_assoc, <- T, M. reflexivity. }
        rewrite Eq. rewrite re_sub_quiet; [|exact B0|apply all_quiet; [exact Hu|right; eexists; reflexivity|exact M|intros t2 E; exact (K v ws t2 Hv Hw' E)]].
        cbn [tails flat_map app]. fold (tails ws). rewrite re_sub_copy; [|exact B0|apply mlen_none; intros x t' Ex D].
        -- rewrite IH; [|cbn [length] in L; lia|exact Hv|exact Hw']. pose proof (fuse_all_ne v ws) as Ne.
           destruct (fuse_all (@cons str v ws)) as [|z l]; [congruence|]. rewrite !sentence_tails. reflexivity.
        -- destruct (all_words x D) as (b & b2 & -> & _). discriminate Ex.
Qed.

Lemma fuse_all_ink : forall ws, Forall ink ws -> Forall ink (fuse_all ws).
Proof.
  assert (K : forall n ws, length ws <= n -> Forall ink ws -> Forall ink (fuse_all ws)).
  { induction n as [|n IH]; intros ws L H; [destruct ws; [exact H|cbn in L; lia]|].
    destruct ws as [|u [|v [|w rest]]]; [exact H|exact H|exact H|]. rewrite fuse_all_cons. cbn [length] in L.
    inversion H as [|u0 l0 Hu H1]; subst. inversion H1 as [|v0 l1 Hv H2]; subst.
    destruct (ends_ws u && str_eqb v (py "ALL") && starts_with (py "RWY") w); [|constructor; [exact Hu|apply IH; [cbn [length]; lia|exact H1]]].
    assert (I2 : Forall ink (fuse_all (w :: rest))) by (apply IH; [cbn [length]; lia|exact H2]).
    destruct (fuse_all (w :: rest)) as [|w' l]; [constructor|]. inversion I2 as [|w0 l2 Hw3 H4]; subst. constructor; [|exact H4].
    apply Forall_app. split; [exact Hu|]. apply Forall_app. split; [repeat constructor|exact Hw3]. }
  intros ws. exact (K (length ws) ws (le_n _)).
Qed.

Theorem shear_text_exact : forall ws, ws <> [] -> Forall solid ws ->
  sanitize_windshear (sentence ws) = sentence (fuse_times 3 ends_ws names_runway fuse_runway (fuse_all ws)).
Proof.
  intros ws N H. apply solids in H. unfold sanitize_windshear. cbv zeta. destruct ws as [|u ws]; [congruence|].
  rewrite sentence_tails. inversion H as [|u0 l0 Hu Hw]; subst. rewrite (all_fused (length ws) u ws (le_n _) Hu Hw).
  apply shear_fused. apply fuse_all_ink. exact H.
Qed.

Lemma times_ne : forall n lt rt fuse ws, ws <> [] -> fuse_times n lt rt fuse ws <> [].
Proof.
  induction n as [|n IH]; intros lt rt fuse ws H; [exact H|]. cbn [fuse_times]. destruct (fuse_first lt rt fuse ws) as [l|] eqn:F; [|exact H].
  apply IH. intros ->. destruct ws as [|u [|v ws]]; [discriminate F|discriminate F|]. cbn [fuse_first] in F.
  destruct (lt u && rt v); [discriminate F|]. destruct (match ws with [] => None | _ => _ end); discriminate F.
Qed.

Theorem body_exact : forall w ws, Forall solid (w :: ws) -> sanitize_body (sentence (w :: ws)) = sentence (metar_fused w ws).
Proof.
  intros w ws H. unfold sanitize_body. rewrite (mixed_text w ws H). apply shear_text_exact; [discriminate|].
  apply solids in H. inversion H as [|w0 l0 H0 HW]; subst. apply (join_times_ink 3) in HW.
  assert (K : forall z, ink z -> solid z).
  { intros z Hz. eapply Forall_impl; [|exact Hz]. intros c Hc. unfold blank. rewrite Hc. discriminate. }
  constructor; [apply K; exact H0|]. eapply Forall_impl; [|exact HW]. exact K.
Qed.

Theorem body_groups_exact : forall S (hs : list (handler S)) st w ws, Forall solid (w :: ws) ->
  parse_section hs (sanitize_body (sentence (w :: ws))) st = parse_groups hs (metar_fused w ws) 0 [] st.
Proof.
  intros S hs st w ws H. rewrite (body_exact w ws H). unfold parse_section. apply solids in H. inversion H as [|w0 l0 H0 HW]; subst.
  rewrite split_sentence_ink; [reflexivity|apply times_ne, fuse_all_ne|].
  apply (fuse_times_ink ends_ws names_runway fuse_runway runway_fused_ink). apply fuse_all_ink. constructor; [exact H0|apply join_times_ink; exact HW].
Qed.

(** ** Probabilities *)

Definition percent (c : N) : Prop := c = 51%N \/ c = 52%N.
Lemma percent_cls : forall c, in_cls c [CRange 51 51; CRange 52 52] = true <-> percent c.
Proof.
  intro c. unfold in_cls, percent. cbn [existsb in_citem]. rewrite orb_false_r, orb_true_iff, !andb_true_iff, !N.leb_le. lia.
Qed.
Definition prob_of (c : N) : str := py "PROB" ++ [c; 48%N].
Lemma ends_prob_iff : forall u, ends_prob u = true <-> exists a c, u = a ++ prob_of c /\ percent c.
Proof.
  intro u. unfold ends_prob. rewrite orb_true_iff, !ends_with_iff. split.
  - intros [(a & ->)|(a & ->)]; [exists a, 51%N|exists a, 52%N]; (split; [reflexivity|]); unfold percent; auto.
  - intros (a & c & -> & [-> | ->]); [left|right]; exists a; reflexivity.
Qed.

Lemma prob_links : forall x, den r_SAN_PROB x -> exists l b m1 m2, x = l ++ b :: m1 ++ m2 /\ length l = 6 /\ ink l
  /\ is_space b = true /\ ink m1 /\ (forall w, ends_prob (w ++ l) = true) /\ (forall v, starts_with (py "TEMPO") (m1 ++ v) = true).
Proof.
  intros x D. unfold r_SAN_PROB in D. cbn [den] in D.
  destruct D as (x1 & x2 & -> & (c1 & -> & H1) & (x3 & x4 & -> & (c2 & -> & H2) & (x5 & x6 & -> & (c3 & -> & H3) & (x7 & x8 & -> & (c4 & -> & H4)
    & (x9 & x10 & -> & (y1 & y2 & -> & (d & -> & Hd) & (z & -> & Hz)) & (x11 & x12 & -> & (b & -> & Hb)
    & (x13 & x14 & -> & (e1 & -> & K1) & (x15 & x16 & -> & (e2 & -> & K2) & (x17 & x18 & -> & (e3 & -> & K3) & (x19 & x20 & -> & (e4 & -> & K4) & (e5 & -> & K5))))))))))).
  apply in_one_eq in H1, H2, H3, H4, Hz, K1, K2, K3, K4, K5. subst. rewrite in_space in Hb. apply percent_cls in Hd.
  exists (prob_of d), b, (py "TEMPO"), []. split; [reflexivity|]. split; [reflexivity|].
  split; [destruct Hd as [-> | ->]; repeat constructor|]. split; [exact Hb|]. split; [repeat constructor|].
  split; [intro w; apply ends_prob_iff; exists w, d; auto|intro v; apply starts_with_self].
Qed.

Definition prob_text (m : rmatch) : str := py "PROB" ++ fmt_opt (group m "percent") ++ py "_TEMPO".

Lemma prob_hits : forall u v t, ends_prob u = true -> starts_with (py "TEMPO") v = true -> bfirst t -> exists a l mv rv m,
  u = a ++ l /\ length l = 6 /\ v = mv ++ rv /\ re_match r_SAN_PROB ((l ++ 32%N :: mv) ++ rv ++ t) = Some m
  /\ m_end m = length (l ++ 32%N :: mv)
  /\ forall m', (forall n, group m' n = group m n) -> a ++ prob_text m' ++ rv = fuse_prob u v.
Proof.
  intros u v t Hu Hv _. apply ends_prob_iff in Hu. destruct Hu as (a & c & -> & Hc). apply starts_with_app in Hv. destruct Hv as (rv & ->).
  exists a, (prob_of c), (py "TEMPO"), rv. unfold prob_text, fuse_prob.
  destruct Hc as [-> | ->]; (eexists; split; [reflexivity|]; split; [reflexivity|]; split; [reflexivity|]; split; [reflexivity|];
    split; [reflexivity|]; intros m' G; rewrite G; rewrite <- (app_assoc a); reflexivity).
Qed.

Lemma prob_fused_ink : forall u v, ink u -> ink v -> ends_prob u = true -> starts_with (py "TEMPO") v = true -> ink (fuse_prob u v).
Proof. intros u v U V _ _. apply Forall_app. split; [exact U|]. constructor; [reflexivity|exact V]. Qed.

Lemma prob_steps : forall n s, sanitize_change_indicator_n n s = steps r_SAN_PROB prob_text n s.
Proof.
  induction n as [|n IH]; intro s; [reflexivity|]. cbn [sanitize_change_indicator_n steps]. unfold one_step.
  destruct (re_search r_SAN_PROB s); [apply IH|reflexivity].
Qed.

Theorem probs_exact : forall ws, Forall solid ws -> sanitize_change_indicator (sentence ws) = sentence (probs_fused ws).
Proof.
  intros ws H. apply solids in H. unfold sanitize_change_indicator. rewrite prob_steps.
  apply (fuse_steps r_SAN_PROB ends_prob (starts_with (py "TEMPO")) 5 fuse_prob prob_text eq_refl eq_refl prob_links prob_hits prob_fused_ink 5 ws H).
Qed.

Theorem change_groups_exact : forall S (hs : list (handler S)) st ws, ws <> [] -> Forall solid ws ->
  parse_section hs (sanitize_visibility (sanitize_change_indicator (sentence ws))) st = parse_groups hs (change_fused ws) 0 [] st.
Proof.
  intros S hs st ws N H. rewrite (probs_exact ws H). unfold change_fused.
  assert (Ne : probs_fused ws <> []) by (apply times_ne; exact N).
  assert (I : Forall ink (probs_fused ws)) by (apply (fuse_times_ink _ _ _ prob_fused_ink); apply solids; exact H).
  destruct (probs_fused ws) as [|w rest]; [congruence|]. apply mixed_groups.
  eapply Forall_impl; [|exact I]. intros z Hz. eapply Forall_impl; [|exact Hz]. intros c Hc. unfold blank. rewrite Hc. discriminate.
Qed.
