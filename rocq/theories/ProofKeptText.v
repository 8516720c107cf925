(** * Preparing a text only joins words (C60) *)
From Coq Require Import String Ascii.
From Coq Require Import List NArith ZArith Bool Lia.
From Verif Require Import PyBase PyRegex AeroRegex Utils Base SpecText StrFacts RegexPaths Captures
  TextFacts ProofText ProofWords ProofValues Keeps SpecKept.
Import ListNotations.
Local Open Scope string_scope.
Local Open Scope nat_scope.
Local Open Scope list_scope.

Lemma joined_trans : forall a b c, joined a b -> joined b c -> joined a c.
Proof.
  intros a b c H. induction H as [s|a b1 i b2 f b3 t s H1 H2 H3 H4 H5 J IH|a b1 b2 t s H1 H2 J IH
    |a b r n t s H1 H2 H3 J IH|a p b t s H1 H2 J IH]; intro K.
  - exact K.
  - apply j_mixed; auto.
  - apply j_all; auto.
  - apply j_runway; auto.
  - apply j_prob; auto.
Qed.

(** ** Substitution, for any relation that copies characters *)

Lemma sub_related : forall r w (R : str -> str -> Prop), nobos r = true -> mlen r [] = None ->
  R [] [] -> (forall s, R s s) -> (forall c out s, R out s -> R (c :: out) (c :: s)) ->
  (forall x out s, den r x -> R out s -> R (w ++ out) (x ++ s)) -> (forall x, den r x -> x <> []) ->
  forall n s cnt, length s <= n -> R (re_sub r w s cnt) s.
Proof.
  intros r w R Hb Hn H0 Hrefl Hc Hr Hx n. induction n as [|n IH]; intros s cnt L.
  - destruct s; [|cbn in L; lia]. rewrite re_sub_nil by exact Hn. exact H0.
  - destruct s as [|c s]; [rewrite re_sub_nil by exact Hn; exact H0|].
    assert (Z : cnt = Some 0 \/ cnt <> Some 0).
    { destruct cnt as [[|k]|]; [left; reflexivity|right; discriminate|right; discriminate]. }
    destruct Z as [->|Z]; [rewrite re_sub_zero; apply Hrefl|].
    destruct (mlen r (c :: s)) as [k|] eqn:E.
    + destruct (mlen_den r (c :: s) k E) as (x & t & Ex & -> & D). pose proof (Hx x D) as Nx. rewrite Ex in E |- *.
      rewrite re_sub_hit by assumption. apply Hr; [exact D|]. apply IH.
      assert (length (c :: s) = length x + length t) by (rewrite Ex; apply app_length).
      destruct x; [congruence|]. cbn [length] in *. lia.
    + rewrite re_sub_copy by assumption. apply Hc, IH. cbn in L. lia.
Qed.

(** The first match of a pattern without repetition. *)
Lemma sub_first_path : forall r s m w, starfree r = true -> nobos r = true -> mlen r [] = None -> nullable r = false ->
  re_search r s = Some m ->
  exists a x t q, s = a ++ x ++ t /\ In q (cpaths r) /\ along x (fst q)
    /\ (forall n, group m n = match span_of n (snd q) with Some (b, e) => Some (substr x b e) | None => None end)
    /\ re_sub r w s (Some 1) = a ++ w ++ t.
Proof.
  intros r s m w F Hb Hn Hu Es.
  destruct (sub_first r s m w Hb Hn Es) as (a & x & t & m0 & -> & M & Ee & G & Eq).
  assert (Nx : x <> []).
  { assert (L := re_match_mlen _ _ _ M). destruct (mlen_den _ _ _ L) as (x0 & t0 & E0 & L0 & D).
    apply (den_nonempty r) in D; [|exact Hu]. intros ->. cbn in Ee. rewrite Ee in L0. destruct x0; [contradiction|discriminate]. }
  destruct (match_follows_end _ _ _ F M) as (q & x' & t' & I & Fo & Ee').
  assert (X : x' = x /\ t' = t).
  { destruct Fo as (E & _). rewrite Ee in Ee'. assert (K := f_equal (firstn (length x)) E).
    rewrite firstn_app, firstn_all, Nat.sub_diag, firstn_O, app_nil_r in K. rewrite Ee' in K at 1.
    rewrite firstn_app, firstn_all, Nat.sub_diag, firstn_O, app_nil_r in K. subst x'. split; [reflexivity|].
    apply app_inv_head in E. symmetry. exact E. }
  destruct X as [-> ->]. destruct Fo as (_ & _ & A & Gn).
  exists a, x, t, q. split; [reflexivity|]. split; [exact I|]. split; [exact A|]. split; [|exact (Eq Nx)].
  intro n. rewrite (G n). apply Gn.
Qed.

(** ** Windshears *)

Lemma all_joined : forall s, joined s (re_sub r_SAN_WS_ALL (py "WS_ALL_RWY") s None).
Proof.
  intro s.
  assert (K : (fun out u => forall a, joined (a ++ u) (a ++ out)) (re_sub r_SAN_WS_ALL (py "WS_ALL_RWY") s None) s).
  { apply (sub_related r_SAN_WS_ALL (py "WS_ALL_RWY") (fun out u => forall a, joined (a ++ u) (a ++ out)) eq_refl eq_refl
      (fun a => j_same _) (fun u a => j_same _)) with (n := length s); [| | |lia].
    - intros c out u H a. specialize (H (a ++ [c])). rewrite <- !app_assoc in H. exact H.
    - intros x out u D H a.
      destruct (den_paths r_SAN_WS_ALL x eq_refl D) as (p & Ip & A). vm_compute in Ip. destruct Ip as [<-|[]]. read A.
      rewrite in_space in Hc, Hc0.
      match goal with |- joined (a ++ ?y ++ u) _ =>
        match y with (_ :: _ :: ?b1 :: _ :: _ :: _ :: ?b2 :: _) =>
          change (y ++ u) with (py "WS" ++ b1 :: py "ALL" ++ b2 :: py "RWY" ++ u) end end.
      apply j_all; [assumption|assumption|]. specialize (H (a ++ py "WS_ALL_RWY")). rewrite <- !app_assoc in H. exact H.
    - intros x D. apply (den_nonempty r_SAN_WS_ALL); [exact D|reflexivity]. }
  exact (K []).
Qed.

Lemma in_clr : forall c, in_cls c [CRange 67 67; CRange 76 76; CRange 82 82] = true -> c = 67%N \/ c = 76%N \/ c = 82%N.
Proof.
  intros c H. cbn in H. rewrite !orb_true_iff, !andb_true_iff, !N.leb_le in H.
  destruct H as [H|[H|[H|H]]]; [left; lia|right; left; lia|right; right; lia|discriminate H].
Qed.

Lemma shear_joined : forall s, joined s (sanitize_windshear_step s).
Proof.
  intro s. unfold sanitize_windshear_step. destruct (re_search r_SAN_WS s) as [m|] eqn:Es; [|apply j_same].
  destruct (sub_first_path r_SAN_WS s m (py "WS_R" ++ fmt_opt (group m "name")) eq_refl eq_refl eq_refl eq_refl Es)
    as (a & x & t & q & -> & I & A & G & ->).
  specialize (G "name"). rewrite G. clear G Es m.
  vm_compute in I.
  destruct I as [<-|[<-|[<-|[<-|[]]]]]; cbn [fst snd] in *;
    match goal with |- context [span_of "name" ?l] => let v := eval vm_compute in (span_of "name" l) in change (span_of "name" l) with v end;
    cbv iota; cbn [fmt_opt]; read A;
    repeat match goal with H : in_cls ?c [CSpace] = true |- _ => rewrite in_space in H
                    | H : in_cls ?c [CDigit] = true |- _ => rewrite in_digit in H end;
    unfold substr; cbn [firstn skipn Nat.sub app].
  - apply (j_runway a c (py "RWY") [c0; c1; c2] t); [exact Hc|right; left; reflexivity| |rewrite <- app_assoc; apply j_same].
    exists c0, c1, [c2]. conjs; try assumption; [|reflexivity].
    destruct (in_clr _ Hc2) as [->|[->| ->]]; [right; right; left|right; left|right; right; right; left]; reflexivity.
  - apply (j_runway a c (py "RWY") [c0; c1] t); [exact Hc|right; left; reflexivity| |rewrite <- app_assoc; apply j_same].
    exists c0, c1, []. conjs; try assumption; [|reflexivity]. left. reflexivity.
  - apply (j_runway a c (py "R") [c0; c1; c2] t); [exact Hc|left; reflexivity| |rewrite <- app_assoc; apply j_same].
    exists c0, c1, [c2]. conjs; try assumption; [|reflexivity].
    destruct (in_clr _ Hc2) as [->|[->| ->]]; [right; right; left|right; left|right; right; right; left]; reflexivity.
  - apply (j_runway a c (py "R") [c0; c1] t); [exact Hc|left; reflexivity| |rewrite <- app_assoc; apply j_same].
    exists c0, c1, []. conjs; try assumption; [|reflexivity]. left. reflexivity.
Qed.

Lemma windshear_joined : forall s, joined s (sanitize_windshear s).
Proof.
  intro s. unfold sanitize_windshear. cbv zeta. refine (joined_trans _ _ _ (all_joined s) _).
  refine (joined_trans _ _ _ (shear_joined _) _). refine (joined_trans _ _ _ (shear_joined _) _). apply shear_joined.
Qed.

(** ** PROBnn TEMPO *)

Lemma in_34 : forall c, in_cls c [CRange 51 51; CRange 52 52] = true -> c = 51%N \/ c = 52%N.
Proof.
  intros c H. cbn in H. rewrite !orb_true_iff, !andb_true_iff, !N.leb_le in H.
  destruct H as [H|[H|H]]; [left; lia|right; lia|discriminate H].
Qed.

Lemma prob_joined : forall n s, joined s (sanitize_change_indicator_n n s).
Proof.
  intro n. induction n as [|n IH]; intro s; cbn [sanitize_change_indicator_n]; [apply j_same|].
  destruct (re_search r_SAN_PROB s) as [m|] eqn:Es; [|apply j_same].
  refine (joined_trans _ _ _ _ (IH _)). clear IH.
  destruct (sub_first_path r_SAN_PROB s m (py "PROB" ++ fmt_opt (group m "percent") ++ py "_TEMPO") eq_refl eq_refl eq_refl eq_refl Es)
    as (a & x & t & q & -> & I & A & G & ->).
  specialize (G "percent"). rewrite G. clear G Es m.
  vm_compute in I.
  destruct I as [<-|[]]; cbn [fst snd] in *;
    match goal with |- context [span_of "percent" ?l] => let v := eval vm_compute in (span_of "percent" l) in change (span_of "percent" l) with v end;
    cbv iota; cbn [fmt_opt]; read A;
    repeat match goal with H : in_cls ?c [CSpace] = true |- _ => rewrite in_space in H end;
    unfold substr; cbn [firstn skipn Nat.sub app].
  destruct (in_34 _ Hc) as [->| ->].
  - apply (j_prob a (py "PROB30") _ t); [left; reflexivity|assumption|]. rewrite <- !app_assoc. apply j_same.
  - apply (j_prob a (py "PROB40") _ t); [right; left; reflexivity|assumption|]. rewrite <- !app_assoc. apply j_same.
Qed.

(** ** Mixed visibilities *)

Lemma run_seq : forall a b pos s e t sp, In (e, t, sp) (run (Seq a b) pos s) ->
  exists e1 t1 k1 k2, In (e1, t1, k1) (run a pos s) /\ In (e, t, k2) (run b e1 t1) /\ sp = k2 ++ k1.
Proof.
  intros a b pos s e t sp H. cbn [run] in H. apply in_flat_map in H. destruct H as ([[e1 t1] k1] & I1 & H).
  apply in_map_iff in H. destruct H as ([[e2 t2] k2] & E & I2). injection E as <- <- <-.
  exists e1, t1, k1, k2. auto.
Qed.
Lemma run_grp : forall n r pos s e t sp, In (e, t, sp) (run (Grp n r) pos s) ->
  exists k, In (e, t, k) (run r pos s) /\ sp = (n, (pos, e)) :: k.
Proof.
  intros n r pos s e t sp H. cbn [run] in H. apply in_map_iff in H. destruct H as ([[e1 t1] k1] & E & I).
  injection E as <- <- <-. exists k1. auto.
Qed.
Lemma run_chr : forall k pos s e t sp, In (e, t, sp) (run (Chr k) pos s) ->
  exists c, s = c :: t /\ in_cls c k = true /\ e = S pos /\ sp = [].
Proof.
  intros k pos s e t sp H. cbn [run] in H. destruct s as [|c s]; [destruct H|]. destruct (in_cls c k) eqn:E; [|destruct H].
  destruct H as [H|[]]. injection H as <- <- <-. exists c. auto.
Qed.
Lemma run_star_in : forall k s pos e t sp, In (e, t, sp) (run_star k pos s) ->
  exists x, s = x ++ t /\ Forall (fun c => in_cls c k = true) x /\ e = pos + length x /\ sp = [].
Proof.
  intros k s. induction s as [|c s IH]; intros pos e t sp H; cbn [run_star] in H.
  - destruct H as [H|[]]. injection H as <- <- <-. exists []. cbn. conjs; auto.
  - destruct (in_cls c k) eqn:E.
    + apply in_app_or in H. destruct H as [H|[H|[]]].
      * destruct (IH _ _ _ _ H) as (x & -> & F & -> & ->). exists (c :: x). cbn [app length]. conjs; auto; lia.
      * injection H as <- <- <-. exists []. cbn. conjs; auto.
    + destruct H as [H|[]]. injection H as <- <- <-. exists []. cbn. conjs; auto.
Qed.

Lemma substr_mid : forall (a b c : str) n, n = length a -> substr (a ++ b ++ c) n (n + length b) = b.
Proof.
  intros a b c n ->. unfold substr. rewrite skipn_app, skipn_all, Nat.sub_diag. cbn [skipn app].
  replace (length a + length b - length a) with (length b) by lia. rewrite firstn_app, firstn_all, Nat.sub_diag.
  cbn [firstn]. apply app_nil_r.
Qed.

Lemma vis_shape : forall s m, re_match r_SAN_VIS s = Some m ->
  exists b1 i b2 f b3 t, s = b1 :: i ++ b2 :: f ++ b3 ++ t /\ m_end m = length (b1 :: i ++ b2 :: f ++ b3)
    /\ group m "int" = Some i /\ group m "frac" = Some f
    /\ blank b1 /\ numerals i /\ blank b2 /\ mile_fraction f /\ (b3 = [] \/ exists c, b3 = [c] /\ blank c).
Proof.
  intros s m H. unfold re_match in H. destruct (run r_SAN_VIS 0 s) as [|[[e t] sp] l] eqn:E; [discriminate H|].
  assert (I : In (e, t, sp) (run r_SAN_VIS 0 s)) by (rewrite E; left; reflexivity).
  injection H as <-. clear E l. unfold r_SAN_VIS in I.
  apply run_seq in I. destruct I as (e1 & t1 & k1 & k2 & I1 & I & ->).
  apply run_chr in I1. destruct I1 as (b1 & -> & H1 & -> & ->).
  apply run_seq in I. destruct I as (e2 & t2 & k3 & k4 & I2 & I & ->).
  apply run_grp in I2. destruct I2 as (k5 & I2 & ->).
  apply run_seq in I2. destruct I2 as (e3 & t3 & k6 & k7 & I3 & I2 & ->).
  apply run_chr in I3. destruct I3 as (d & -> & H3 & -> & ->).
  cbn [run] in I2. apply run_star_in in I2. destruct I2 as (ds & -> & H4 & -> & ->).
  apply run_seq in I. destruct I as (e4 & t4 & k8 & k9 & I4 & I & ->).
  apply run_chr in I4. destruct I4 as (b2 & -> & H5 & -> & ->).
  apply run_seq in I. destruct I as (e5 & t5 & k10 & k11 & I5 & I & ->).
  apply run_grp in I5. destruct I5 as (k12 & I5 & ->).
  apply run_seq in I5. destruct I5 as (e6 & t6 & k13 & k14 & I6 & I5 & ->).
  apply run_chr in I6. destruct I6 as (f1 & -> & F1 & -> & ->).
  apply run_seq in I5. destruct I5 as (e6 & t7 & k13 & k15 & I6 & I5 & ->).
  apply run_chr in I6. destruct I6 as (f2 & -> & F2 & -> & ->).
  apply run_seq in I5. destruct I5 as (e6 & t8 & k13 & k16 & I6 & I5 & ->).
  apply run_chr in I6. destruct I6 as (f3 & -> & F3 & -> & ->).
  apply run_seq in I5. destruct I5 as (e6 & t9 & k13 & k17 & I6 & I5 & ->).
  apply run_chr in I6. destruct I6 as (f4 & -> & F4 & -> & ->).
  apply run_chr in I5. destruct I5 as (f5 & -> & F5 & -> & ->).
  apply in_one_eq in F2, F4, F5. subst f2 f4 f5.
  rewrite in_space in H1, H5. rewrite in_digit in H3, F1, F3.
  assert (B : exists b3, t5 = b3 ++ t /\ e = S (S (S (S (S (S (1 + 1 + length ds)))))) + length b3 /\ k11 = []
             /\ (b3 = [] \/ exists c, b3 = [c] /\ blank c)).
  { cbn [run] in I. apply in_app_or in I. destruct I as [I|I].
    - destruct t5 as [|c t5]; [destruct I|]. destruct (in_cls c [CSpace]) eqn:Ec; [|destruct I].
      destruct I as [I|[]]. injection I as <- <- <-. exists [c]. cbn [app length]. conjs; [reflexivity|lia|reflexivity|].
      right. exists c. split; [reflexivity|]. rewrite in_space in Ec. exact Ec.
    - destruct I as [I|[]]. injection I as <- <- <-. exists []. cbn [app length]. conjs; [reflexivity|lia|reflexivity|left; reflexivity]. }
  destruct B as (b3 & -> & -> & -> & B3).
  exists b1, (d :: ds), b2, [f1; 47%N; f3; 83%N; 77%N], b3, t.
  assert (FD : Forall (fun c => is_digit c = true) ds).
  { eapply Forall_impl; [|exact H4]. cbn beta. intros c Hc. rewrite in_digit in Hc. exact Hc. }
  conjs.
  - cbn [app]. rewrite <- ?app_assoc. reflexivity.
  - cbn [m_end length]. rewrite !app_length. cbn [length]. rewrite ?app_length. cbn [length]. lia.
  - unfold group. cbn [m_spans m_string app]. cbn [span_of]. cbn [String.eqb Ascii.eqb Bool.eqb]. cbv iota. f_equal.
    transitivity (substr ([b1] ++ (d :: ds) ++ (b2 :: f1 :: 47%N :: f3 :: 83%N :: 77%N :: b3 ++ t)) 1 (1 + length (d :: ds))).
    + f_equal.
    + apply substr_mid. reflexivity.
  - unfold group. cbn [m_spans m_string app]. cbn [span_of]. cbn [String.eqb Ascii.eqb Bool.eqb]. cbv iota. f_equal.
    transitivity (substr ((b1 :: d :: ds ++ [b2]) ++ [f1; 47%N; f3; 83%N; 77%N] ++ (b3 ++ t)) (S (S (S (length ds))))
                    (S (S (S (length ds))) + length [f1; 47%N; f3; 83%N; 77%N])).
    + f_equal; [|cbn [length]; lia]. cbn [app]. rewrite <- app_assoc. reflexivity.
    + apply substr_mid. cbn [length]. rewrite app_length. cbn [length]. lia.
  - exact H1.
  - split; [discriminate|]. constructor; assumption.
  - exact H5.
  - exists f1, f3. conjs; auto.
  - exact B3.
Qed.

Lemma mixed_joined_step : forall s s', sanitize_visibility_step s = Some s' -> joined s s'.
Proof.
  intros s s' H. unfold sanitize_visibility_step in H. destruct (re_search r_SAN_VIS s) as [m|] eqn:Es; [|discriminate H].
  destruct (group m "int") as [i|] eqn:Ei; [|discriminate H]. destruct (group m "frac") as [f|] eqn:Ef; [|discriminate H].
  assert (H' : re_sub r_SAN_VIS (py " " ++ i ++ py "_" ++ f ++ py " ") s (Some 1) = s') by congruence. clear H.
  destruct (sub_first r_SAN_VIS s m (py " " ++ i ++ py "_" ++ f ++ py " ") eq_refl eq_refl Es)
    as (a & x & t & m0 & -> & M & Ee & G & Eq).
  destruct (vis_shape _ _ M) as (b1 & i0 & b2 & f0 & b3 & t0 & Ex & El & Gi & Gf & B1 & Ni & B2 & Mf & B3).
  rewrite (G "int"), Gi in Ei. rewrite (G "frac"), Gf in Ef. injection Ei as ->. injection Ef as ->.
  assert (X : x = b1 :: i ++ b2 :: f ++ b3 /\ t = t0).
  { assert (E2 : x ++ t = (b1 :: i ++ b2 :: f ++ b3) ++ t0).
    { rewrite Ex. cbn [app]. rewrite <- !app_assoc. cbn [app]. rewrite <- !app_assoc. reflexivity. }
    assert (K := f_equal (firstn (length x)) E2).
    rewrite firstn_app, firstn_all, Nat.sub_diag, firstn_O, app_nil_r in K. rewrite Ee in El. rewrite El in K.
    rewrite firstn_app, firstn_all, Nat.sub_diag, firstn_O, app_nil_r in K. split; [exact K|].
    rewrite <- K in E2. apply app_inv_head in E2. exact E2. }
  destruct X as [Xx ->]. rewrite (Eq ltac:(rewrite Xx; discriminate)) in H'. subst s'. rewrite Xx.
  replace (a ++ (b1 :: i ++ b2 :: f ++ b3) ++ t0) with (a ++ b1 :: i ++ b2 :: f ++ b3 ++ t0)
    by (cbn [app]; rewrite <- !app_assoc; cbn [app]; rewrite <- !app_assoc; reflexivity).
  apply j_mixed; try assumption. rewrite <- !app_assoc. apply j_same.
Qed.

Lemma mixed_joined : forall s, joined s (sanitize_visibility s).
Proof.
  intro s. unfold sanitize_visibility. generalize 3 as n. intro n. revert s.
  induction n as [|n IH]; intro s; cbn [sanitize_visibility_n]; [apply j_same|].
  destruct (sanitize_visibility_step s) as [s'|] eqn:E; [|apply j_same].
  exact (joined_trans _ _ _ (mixed_joined_step s s' E) (IH s')).
Qed.

(** ** The trends of a section *)

Lemma sep_marked : forall kw s cnt, unbarred (re_sub (literal (32%N :: kw)) (124%N :: kw) s cnt) = unbarred s.
Proof.
  intros kw s cnt.
  apply (sub_related (literal (32%N :: kw)) (124%N :: kw) (fun a b => unbarred a = unbarred b)) with (n := length s); [| | | | | | |lia].
  - apply nobos_literal.
  - rewrite mlen_literal by discriminate. reflexivity.
  - reflexivity.
  - reflexivity.
  - intros c out u H. unfold unbarred in *. cbn [map]. rewrite H. reflexivity.
  - intros x out u D H. apply den_literal in D. subst x. unfold unbarred in *. cbn [app map]. rewrite !map_app, H. reflexivity.
  - intros x D. apply den_literal in D. subst x. discriminate.
Qed.

Lemma join_sep : forall (a b : N) (ws : list str), Forall (fun w => ~ In a w) ws ->
  map (fun c => if N.eqb c a then b else c) (join [a] ws) = join [b] ws.
Proof.
  intros a b ws H. induction H as [|w ws Hw H IH]; [reflexivity|].
  assert (E : map (fun c => if N.eqb c a then b else c) w = w).
  { clear H IH. induction w as [|c w IHw]; [reflexivity|]. cbn [map]. rewrite IHw by (intro K; apply Hw; right; exact K).
    destruct (N.eqb_spec c a) as [->|N]; [|reflexivity]. exfalso. apply Hw. left. reflexivity. }
  destruct ws as [|w2 ws]; [cbn [join]; exact E|].
  rewrite !join_cons by discriminate. rewrite !map_app, E, IH. cbn [map]. rewrite N.eqb_refl. reflexivity.
Qed.
