(** * Texts that survive the preparation of a report

    Stripping, collapsing blanks, joining groups with underscores and cutting
    into sections never make up a text without separators that was not there. *)
From Coq Require Import String Ascii.
From Coq Require Import List NArith ZArith Bool Lia.
From Verif Require Import PyBase PyRegex AeroRegex Utils Base MetarGroups Trend Metar SpecFailures
  StrFacts RegexPaths Captures Outcomes TextFacts ProofText OutTime.
Import ListNotations.
Local Open Scope string_scope.
Local Open Scope nat_scope.
Local Open Scope list_scope.

(** The characters written between or into groups: blank, underscore, bar and R. *)
Definition sepc (c : N) : bool := existsb (N.eqb c) [32; 95; 124; 82]%N.
Definition solid (x : str) : Prop := x <> [] /\ Forall (fun c => sepc c = false) x.

(** [keeps fresh s' s]: [s'] is [s] with separators written in and, next to
    them, characters left out. *)
Inductive keeps : bool -> str -> str -> Prop :=
| k_nil : forall b s, keeps b [] s
| k_copy : forall b c s' s, keeps false s' s -> keeps b (c :: s') (c :: s)
| k_sep : forall b c s' s, sepc c = true -> keeps true s' s -> keeps b (c :: s') s
| k_drop : forall c s' s, keeps true s' s -> keeps true s' (c :: s).

Lemma keeps_fresh : forall b s' s, keeps b s' s -> keeps true s' s.
Proof.
  intros b s' s H. induction H as [b s|b c s' s H IH|b c s' s Hc H IH|c s' s H IH].
  - apply k_nil.
  - apply k_copy. exact H.
  - apply k_sep; assumption.
  - apply k_drop. exact IH.
Qed.

Lemma keeps_refl : forall b s, keeps b s s.
Proof. intros b s. revert b. induction s as [|c s IH]; intro b; [apply k_nil|apply k_copy, IH]. Qed.

Lemma keeps_drops : forall x s' s, keeps true s' s -> keeps true s' (x ++ s).
Proof. intros x s' s H. induction x as [|c x IH]; [exact H|apply k_drop, IH]. Qed.

Lemma keeps_copies : forall x b s' s, keeps false s' s -> keeps b (x ++ s') (x ++ s).
Proof.
  intros x b s' s H. destruct x as [|c x]; cbn [app].
  - destruct b; [exact (keeps_fresh _ _ _ H)|exact H].
  - apply k_copy. clear c. induction x as [|c x IH]; [exact H|apply k_copy, IH].
Qed.

Lemma solid_tail : forall c x, solid (c :: x) -> x = [] \/ solid x.
Proof.
  intros c x [_ F]. inversion F as [|c0 x0 _ F0]; subst. destruct x as [|d x]; [left; reflexivity|right].
  split; [discriminate|exact F0].
Qed.

(** A solid prefix is found again; at the very place unless characters may be left out. *)
Lemma keeps_prefix : forall b s' s, keeps b s' s -> forall x u, solid x -> s' = x ++ u ->
  if b then contains s x else exists v, s = x ++ v.
Proof.
  intros b s' s H. induction H as [b s|b c s' s H IH|b c s' s Hc H IH|c s' s H IH]; intros x u Hx E.
  - destruct x; [destruct Hx as [Hx _]; contradiction|discriminate].
  - destruct x as [|d x]; [destruct Hx as [Hx _]; contradiction|]. cbn [app] in E. injection E as <- E.
    assert (K : exists v, c :: s = (c :: x) ++ v).
    { destruct (solid_tail c x Hx) as [->|Hx'].
      - exists s. reflexivity.
      - destruct (IH x u Hx' E) as (v & ->). exists v. reflexivity. }
    destruct b; [|exact K]. destruct K as (v & ->). exists [], v. reflexivity.
  - destruct x as [|d x]; [destruct Hx as [Hx _]; contradiction|]. cbn [app] in E. injection E as <- E.
    destruct Hx as [_ F]. inversion F; subst. congruence.
  - destruct (IH x u Hx E) as (p & q & ->). exists (c :: p), q. reflexivity.
Qed.

Lemma contains_cons : forall c s x, contains s x -> contains (c :: s) x.
Proof. intros c s x (p & q & ->). exists (c :: p), q. reflexivity. Qed.

Lemma keeps_contains : forall b s' s x, keeps b s' s -> solid x -> contains s' x -> contains s x.
Proof.
  intros b s' s x H Hx. induction H as [b s|b c s' s H IH|b c s' s Hc H IH|c s' s H IH]; intros (p & q & E).
  - destruct p; [|discriminate]. destruct x; [destruct Hx as [Hx _]; contradiction|discriminate].
  - destruct p as [|d p].
    + pose proof (keeps_prefix b _ _ (k_copy b c s' s H) x q Hx E) as K. destruct b; [exact K|].
      destruct K as (v & ->). exists [], v. reflexivity.
    + injection E as <- E. apply contains_cons, IH. exists p, q. exact E.
  - destruct p as [|d p].
    + destruct x as [|d x]; [destruct Hx as [Hx _]; contradiction|]. injection E as <- E.
      destruct Hx as [_ F]. inversion F; subst. congruence.
    + injection E as <- E. apply IH. exists p, q. exact E.
  - apply contains_cons, IH. exists p, q. exact E.
Qed.

(** Deleting the equal signs of both. *)
Lemma keeps_remove : forall b s' s, keeps b s' s -> keeps b (remove_char 61 s') (remove_char 61 s).
Proof.
  unfold remove_char. intros b s' s H. induction H as [b s|b c s' s H IH|b c s' s Hc H IH|c s' s H IH]; cbn [filter].
  - apply k_nil.
  - destruct (N.eqb c 61); cbn [negb].
    + destruct b; [exact (keeps_fresh _ _ _ IH)|exact IH].
    + apply k_copy, IH.
  - destruct (N.eqb_spec c 61) as [->|N]; [discriminate|]. cbn [negb]. apply k_sep; assumption.
  - destruct (N.eqb c 61); cbn [negb]; [exact IH|apply k_drop, IH].
Qed.

(** ** Substitution *)

Definition replaces (w x : str) : Prop := forall out rest, keeps false out rest -> keeps false (w ++ out) (x ++ rest).

Lemma sub_keeps : forall r w, nobos r = true -> mlen r [] = None -> (forall x, den r x -> x <> [] /\ replaces w x) ->
  forall n s cnt, length s <= n -> keeps false (re_sub r w s cnt) s.
Proof.
  intros r w Hb Hn Hr n. induction n as [|n IH]; intros s cnt L.
  - destruct s; [|cbn in L; lia]. rewrite re_sub_nil by exact Hn. apply k_nil.
  - destruct s as [|c s]; [rewrite re_sub_nil by exact Hn; apply k_nil|].
    assert (Z : cnt = Some 0 \/ cnt <> Some 0).
    { destruct cnt as [[|k]|]; [left; reflexivity|right; discriminate|right; discriminate]. }
    destruct Z as [->|Z]; [rewrite re_sub_zero; apply keeps_refl|].
    destruct (mlen r (c :: s)) as [k|] eqn:E.
    + destruct (mlen_den r (c :: s) k E) as (x & t & Ex & -> & D). destruct (Hr x D) as [Nx Rx]. rewrite Ex in E |- *.
      rewrite re_sub_hit by assumption. apply Rx. apply IH.
      assert (length (c :: s) = length x + length t) by (rewrite Ex; apply app_length).
      destruct x; [congruence|]. cbn [length] in *. lia.
    + rewrite re_sub_copy by assumption. apply k_copy, IH. cbn in L. lia.
Qed.

(** ** Searching *)

Lemma search_split : forall r s m, nobos r = true -> re_search r s = Some m ->
  exists a t m0, s = a ++ t /\ quiet r a t /\ re_match r t = Some m0 /\ (forall n, group m n = group m0 n).
Proof.
  intros r s m Hb H.
  assert (K : (exists a t m0, s = a ++ t /\ quiet r a t /\ re_match r t = Some m0) \/ (quiet r s [] /\ mlen r [] = None)).
  { clear H. induction s as [|c s IH].
    - destruct (re_match r []) as [m0|] eqn:E.
      + left. exists [], [], m0. split; [reflexivity|]. split; [apply quiet_nil|exact E].
      + right. split; [apply quiet_nil|]. unfold re_match, mlen in *. destruct (run r 0 []) as [|[[e0 t0] sp0] l0]; [reflexivity|discriminate].
    - destruct (re_match r (c :: s)) as [m0|] eqn:E.
      + left. exists [], (c :: s), m0. split; [reflexivity|]. split; [apply quiet_nil|exact E].
      + assert (E' : mlen r (c :: s) = None).
        { unfold re_match, mlen in *. destruct (run r 0 (c :: s)) as [|[[e0 t0] sp0] l0]; [reflexivity|discriminate]. }
        destruct IH as [(a & t & m0 & -> & Q & M)|[Q N]].
        * left. exists (c :: a), t, m0. split; [reflexivity|]. split; [apply quiet_cons; assumption|exact M].
        * right. split; [|exact N]. apply quiet_cons; [rewrite app_nil_r; exact E'|exact Q]. }
  destruct K as [(a & t & m0 & -> & Q & M)|[Q N]].
  - exists a, t, m0. split; [reflexivity|]. split; [exact Q|]. split; [exact M|].
    destruct (re_search_some r a t m0 Hb Q M) as (m' & E & G & _). rewrite E in H. injection H as ->. exact G.
  - rewrite (re_search_none r s Hb N Q) in H. discriminate.
Qed.

(** Replacing the first match. *)
Lemma sub_first : forall r s m w, nobos r = true -> mlen r [] = None -> re_search r s = Some m ->
  exists a x t m0, s = a ++ x ++ t /\ re_match r (x ++ t) = Some m0 /\ m_end m0 = length x
    /\ (forall n, group m n = group m0 n) /\ (x <> [] -> re_sub r w s (Some 1) = a ++ w ++ t).
Proof.
  intros r s m w Hb Hn H. destruct (search_split r s m Hb H) as (a & u & m0 & -> & Q & M & G).
  assert (L := re_match_mlen r u m0 M). destruct (mlen_den r u _ L) as (x & t & -> & E & D).
  exists a, x, t, m0. split; [reflexivity|]. split; [exact M|]. split; [exact E|]. split; [exact G|]. intro Nx.
  rewrite re_sub_quiet by assumption. f_equal. rewrite re_sub_hit; try assumption; [|discriminate|rewrite L, E; reflexivity].
  cbn [cnt_pred Nat.sub]. rewrite re_sub_zero. reflexivity.
Qed.

(** ** Each preparation step *)

Definition weaker (s' s : str) : Prop := forall x, solid x -> contains s' x -> contains s x.

Lemma weaker_refl : forall s, weaker s s.
Proof. intros s x _ H. exact H. Qed.
Lemma weaker_trans : forall a b c, weaker a b -> weaker b c -> weaker a c.
Proof. intros a b c H K x Hx C. apply K; [exact Hx|]. apply H; assumption. Qed.
Lemma weaker_keeps : forall b s' s, keeps b s' s -> weaker s' s.
Proof. intros b s' s H x Hx. exact (keeps_contains b s' s x H Hx). Qed.
Lemma weaker_part : forall s p, contains s p -> weaker p s.
Proof.
  intros s p (a & b & ->) x _ (c & d & ->). exists (a ++ c), (d ++ b). rewrite <- !app_assoc. reflexivity.
Qed.

Lemma split_on_part : forall c s w, In w (split_on c s) -> contains s w.
Proof.
  intros c s. induction s as [|d s IH]; intros w H; cbn [split_on] in H.
  - destruct H as [<-|[]]. exists [], []. reflexivity.
  - destruct (N.eqb d c).
    + destruct H as [<-|H]; [exists [], (d :: s); reflexivity|apply contains_cons, IH, H].
    + destruct (split_on c s) as [|v ws] eqn:E; [destruct H as [<-|[]]; exists [], s; reflexivity|].
      destruct H as [<-|H]; [|apply contains_cons, IH; right; exact H].
      (* the first piece is a prefix *)
      assert (P : exists t, s = v ++ t).
      { clear IH. revert v ws E. induction s as [|e s IH]; intros v ws E; cbn [split_on] in E.
        - injection E as <- _. exists []. reflexivity.
        - destruct (N.eqb e c); [injection E as <- _; exists (e :: s); reflexivity|].
          destruct (split_on c s) as [|v0 ws0]; injection E as <- _; [exists s; reflexivity|].
          destruct (IH v0 ws0 eq_refl) as (t & ->). exists t. reflexivity. }
      destruct P as (t & ->). exists [], t. reflexivity.
Qed.

Lemma lstrip_part : forall s, exists a, s = a ++ lstrip s.
Proof.
  induction s as [|c s (a & E)]; [exists []; reflexivity|]. cbn [lstrip]. destruct (is_space c).
  - exists (c :: a). cbn [app]. f_equal. exact E.
  - exists []. reflexivity.
Qed.
Lemma strip_part : forall s, contains s (strip s).
Proof.
  intro s. unfold strip. destruct (lstrip_part s) as (a & E). destruct (lstrip_part (rev (lstrip s))) as (b & F).
  exists a, (rev b). rewrite <- rev_app_distr, <- F, rev_involutive. exact E.
Qed.

Lemma sub_all_weaker : forall r w s cnt, nobos r = true -> mlen r [] = None ->
  (forall x, den r x -> x <> [] /\ replaces w x) -> keeps false (re_sub r w s cnt) s.
Proof. intros r w s cnt Hb Hn Hr. exact (sub_keeps r w Hb Hn Hr (length s) s cnt (le_n _)). Qed.

(** Patterns that never match the empty text. *)
Fixpoint nullable (r : regex) : bool :=
  match r with
  | Eps | Bos | Eos | Star _ => true
  | Chr _ => false
  | Seq a b => nullable a && nullable b
  | Alt a b => nullable a || nullable b
  | Grp _ r => nullable r
  end.
Lemma den_nonempty : forall r x, den r x -> nullable r = false -> x <> [].
Proof.
  induction r as [|k|a IHa b IHb|a IHa b IHb|k|n r IH| |]; intros x D H; cbn [nullable den] in *; try discriminate.
  - destruct D as (c & -> & _). discriminate.
  - destruct D as (x1 & x2 & -> & D1 & D2). apply andb_false_iff in H. intros E. apply app_eq_nil in E. destruct E as [E1 E2].
    destruct H as [H|H]; [exact (IHa x1 D1 H E1)|exact (IHb x2 D2 H E2)].
  - apply orb_false_iff in H. destruct H as [H1 H2]. destruct D as [D|D]; [exact (IHa x D H1)|exact (IHb x D H2)].
  - exact (IH x D H).
Qed.

Lemma norm_keeps : forall s, keeps false (norm s) s.
Proof.
  intro s. unfold norm. apply sub_all_weaker; [exact norm_nobos|exact norm_nil|].
  intros x D. split; [apply (den_nonempty r_NORMALISE); [exact D|reflexivity]|].
  intros out rest K. apply (k_sep false 32 out (x ++ rest) eq_refl).
  apply keeps_drops. exact (keeps_fresh _ _ _ K).
Qed.

Lemma keeps_more : forall b s' s q, keeps b s' s -> keeps b s' (s ++ q).
Proof.
  intros b s' s q H. induction H as [b s|b c s' s H IH|b c s' s Hc H IH|c s' s H IH]; cbn [app].
  - apply k_nil.
  - apply k_copy, IH.
  - apply k_sep; assumption.
  - apply k_drop, IH.
Qed.

(** The raw code of a report. *)
Lemma raw_weaker : forall s, weaker (normalise s) (remove_char 61 s).
Proof.
  intro s. rewrite normalise_eq. apply (weaker_keeps true). apply keeps_remove.
  destruct (strip_part s) as (p & q & E). rewrite E at 2. apply keeps_drops, keeps_more.
  exact (keeps_fresh _ _ _ (norm_keeps (strip s))).
Qed.

(** Keywords. *)
Lemma den_literal : forall p x, den (literal p) x -> x = p.
Proof.
  induction p as [|c p IH]; intros x D; [exact D|]. destruct p as [|d p].
  - destruct D as (e & -> & He). apply in_one_eq in He. subst e. reflexivity.
  - destruct D as (x1 & x2 & -> & (e & -> & He) & D2). apply in_one_eq in He. subst e.
    rewrite (IH x2 D2). reflexivity.
Qed.

Lemma keyword_keeps : forall kw s cnt, kw <> [] -> keeps false (re_sub (literal (32%N :: kw)) (py "|" ++ kw) s cnt) s.
Proof.
  intros kw s cnt N. apply sub_all_weaker; [apply nobos_literal|rewrite mlen_literal by discriminate; reflexivity|].
  intros x D. apply den_literal in D. subst x. split; [discriminate|]. intros out rest K.
  change ((py "|" ++ kw) ++ out) with (124%N :: (kw ++ out)). cbn [app].
  apply k_sep; [reflexivity|]. apply k_drop, keeps_copies, K.
Qed.

Definition plain_kw (sp : space_opt) (kw : str) : Prop :=
  exists k, add_space sp kw = 32%N :: k /\ k <> [] /\ lstrip (32%N :: k) = k.

Lemma sentence_weaker : forall kws sp cnt s w, Forall (plain_kw sp) kws -> In w (split_sentence s kws cnt sp) -> weaker w s.
Proof.
  intros kws sp cnt s w H I. unfold split_sentence in I. apply split_on_part, weaker_part in I.
  refine (weaker_trans _ _ _ I _). clear I w. revert s. induction H as [|kw kws Hk H IH]; intro s; [apply weaker_refl|].
  cbn [fold_left]. refine (weaker_trans _ _ _ (IH _) _). destruct Hk as (k & -> & N & ->).
  apply (weaker_keeps false). apply keyword_keeps. exact N.
Qed.

(** Joined windshears and visibilities. *)
Lemma ws_all_keeps : forall s cnt, keeps false (re_sub r_SAN_WS_ALL (py "WS_ALL_RWY") s cnt) s.
Proof.
  intros s cnt. apply sub_all_weaker; [reflexivity|reflexivity|].
  intros x D. split; [apply (den_nonempty r_SAN_WS_ALL); [exact D|reflexivity]|].
  destruct (den_paths r_SAN_WS_ALL x eq_refl D) as (p & Ip & A). vm_compute in Ip. destruct Ip as [<-|[]]. read A.
  intros out rest K. change (py "WS_ALL_RWY" ++ out) with (py "WS" ++ 95%N :: py "ALL" ++ 95%N :: py "RWY" ++ out).
  cbn [app].
  apply k_copy, k_copy, k_sep; [reflexivity|]. apply k_drop, k_copy, k_copy, k_copy, k_sep; [reflexivity|].
  apply k_drop, k_copy, k_copy, k_copy, K.
Qed.

Definition ws_path (q : cpath) : bool :=
  spells (py "WS") (piece q 0 2)
  && match span_of "name" (snd q) with Some (b, e) => Nat.leb 2 b && Nat.leb b e && Nat.eqb e (length (fst q)) | None => false end.
Lemma ws_paths : starfree r_SAN_WS && forallb ws_path (cpaths r_SAN_WS) = true.
Proof. vm_compute. reflexivity. Qed.

Lemma substr_all : forall (x : str) b, substr x b (length x) = skipn b x.
Proof. intros x b. unfold substr. rewrite <- skipn_length. apply firstn_all. Qed.

Lemma skipn_add : forall A (l : list A) a b, skipn a (skipn b l) = skipn (b + a) l.
Proof.
  intros A l a b. revert l. induction b as [|b IH]; intro l; [reflexivity|]. destruct l as [|x l]; [rewrite !skipn_nil; reflexivity|].
  apply IH.
Qed.

Lemma keeps_prefix_copy : forall a s' s, keeps false s' s -> keeps false (a ++ s') (a ++ s).
Proof. intros a s' s H. apply keeps_copies. exact H. Qed.

Lemma ws_step_keeps : forall s, keeps false (sanitize_windshear_step s) s.
Proof.
  intro s. unfold sanitize_windshear_step. destruct (re_search r_SAN_WS s) as [m|] eqn:Es; [|apply keeps_refl].
  destruct (sub_first r_SAN_WS s m (py "WS_R" ++ fmt_opt (group m "name")) eq_refl eq_refl Es)
    as (a & x & t & m0 & -> & M & Ee & G & Eq).
  pose proof ws_paths as C. apply andb_true_iff in C. destruct C as [F C].
  destruct (match_follows_end _ _ _ F M) as (q & x' & t' & I & Fo & Ee'). rewrite forallb_forall in C. specialize (C q I).
  assert (X : x' = x /\ t' = t).
  { destruct Fo as (E & _). rewrite Ee in Ee'. assert (K := f_equal (firstn (length x)) E).
    rewrite firstn_app, firstn_all, Nat.sub_diag, firstn_O, app_nil_r in K. rewrite Ee' in K at 1.
    rewrite firstn_app, firstn_all, Nat.sub_diag, firstn_O, app_nil_r in K. subst x'. split; [reflexivity|].
    apply app_inv_head in E. symmetry. exact E. }
  destruct X as [-> ->]. unfold ws_path in C. apply andb_true_iff in C. destruct C as [C1 C2].
  pose proof (spells_ok _ _ _ C1 (piece_along _ _ _ _ _ 0 2 Fo)) as W.
  pose proof (follows_length _ _ _ _ _ Fo) as Lx.
  destruct Fo as (_ & _ & _ & Gn). specialize (Gn "name"). destruct (span_of "name" (snd q)) as [[b e]|]; [|discriminate].
  rewrite !andb_true_iff in C2. destruct C2 as [[C2 C3] C4]. apply Nat.leb_le in C2, C3. apply Nat.eqb_eq in C4.
  assert (Nx : x <> []) by (intros ->; discriminate). rewrite (Eq Nx). rewrite (G "name"), Gn. cbn [fmt_opt].
  rewrite C4, <- Lx, substr_all. apply keeps_copies.
  assert (Dx : x = py "WS" ++ firstn (b - 2) (skipn 2 x) ++ skipn b x).
  { rewrite <- (firstn_skipn 2 x) at 1. unfold substr in W. cbn [Nat.sub skipn] in W. rewrite W. f_equal.
    rewrite <- (firstn_skipn (b - 2) (skipn 2 x)) at 1. f_equal. rewrite skipn_add. f_equal. lia. }
  rewrite Dx at 2. rewrite <- !app_assoc. change (py "WS_R") with (py "WS" ++ [95%N; 82%N]). rewrite <- app_assoc.
  apply keeps_copies. cbn [app]. apply k_sep; [reflexivity|]. apply k_sep; [reflexivity|].
  apply keeps_drops, keeps_copies, keeps_refl.
Qed.

Lemma contains_sep : forall c u v x, ~ In c x -> contains (u ++ c :: v) x -> contains u x \/ contains v x.
Proof.
  intros c u. induction u as [|d u IH]; intros v x N (p & q & E).
  - destruct p as [|e p].
    + destruct x as [|e x]; [right; exists [], v; reflexivity|]. injection E as -> _. exfalso. apply N. left. reflexivity.
    + injection E as _ E. right. exists p, q. exact E.
  - destruct p as [|e p].
    + destruct x as [|e x]; [left; exists [], (d :: u); reflexivity|].
      injection E as -> E. destruct x as [|f x].
      * left. exists [], u. reflexivity.
      * assert (K : exists w, u = (f :: x) ++ w).
        { clear IH. assert (N' : ~ In c (f :: x)) by (intro K; apply N; right; exact K). clear N.
          revert u E N'. generalize (f :: x) as z. intro z. induction z as [|g z IHz]; intros u E N'; [exists u; reflexivity|].
          destruct u as [|h u]; cbn [app] in E.
          - injection E as -> _. exfalso. apply N'. left. reflexivity.
          - injection E as -> E. destruct (IHz u E) as (w & ->); [intro K; apply N'; right; exact K|]. exists w. reflexivity. }
        destruct K as (w & ->). left. exists [], w. reflexivity.
    + injection E as -> E. destruct (IH v x N) as [K|K]; [exists p, q; exact E| |right; exact K].
      left. apply contains_cons, K.
Qed.

Lemma solid_not : forall x c, solid x -> sepc c = true -> ~ In c x.
Proof. intros x c [_ F] H I. rewrite Forall_forall in F. apply F in I. congruence. Qed.

Lemma group_part : forall m n c, group m n = Some c -> contains (m_string m) c.
Proof.
  intros m n c H. unfold group in H. destruct (span_of n (m_spans m)) as [[b e]|]; [|discriminate]. injection H as <-.
  apply contains_substr.
Qed.

Lemma re_search_string : forall r s m, re_search r s = Some m -> m_string m = s.
Proof.
  intros r s m. unfold re_search. generalize 0 as pos. generalize s at 1 3. intros w. revert w.
  induction s as [|c s IH]; intros w pos H; cbn [search_from] in H.
  - destruct (run r pos []) as [|[[e t] sp] l]; [discriminate|]. injection H as <-. reflexivity.
  - destruct (run r pos (c :: s)) as [|[[e t] sp] l]; [exact (IH w (S pos) H)|]. injection H as <-. reflexivity.
Qed.

Lemma vis_step_weaker : forall s s', sanitize_visibility_step s = Some s' -> weaker s' s.
Proof.
  intros s s' H. unfold sanitize_visibility_step in H. destruct (re_search r_SAN_VIS s) as [m|] eqn:Es; [|discriminate].
  destruct (group m "int") as [i|] eqn:Ei; [|discriminate]. destruct (group m "frac") as [f|] eqn:Ef; [|discriminate].
  assert (H' : re_sub r_SAN_VIS (py " " ++ i ++ py "_" ++ f ++ py " ") s (Some 1) = s') by congruence.
  clear H. rewrite <- H'. clear H'. apply group_part in Ei, Ef. rewrite (re_search_string _ _ _ Es) in Ei, Ef.
  destruct (sub_first r_SAN_VIS s m (py " " ++ i ++ py "_" ++ f ++ py " ") eq_refl eq_refl Es)
    as (a & x & t & m0 & Ea & M & Ee & _ & Eq).
  assert (Nx : x <> []).
  { assert (L := re_match_mlen _ _ _ M). destruct (mlen_den _ _ _ L) as (x0 & t0 & E0 & L0 & D).
    apply (den_nonempty r_SAN_VIS) in D; [|reflexivity]. intros ->. cbn in Ee. rewrite Ee in L0. destruct x0; [contradiction|discriminate]. }
  rewrite (Eq Nx). intros z Hz C.
  assert (E : a ++ (py " " ++ i ++ py "_" ++ f ++ py " ") ++ t = a ++ 32%N :: (i ++ 95%N :: (f ++ 32%N :: t))).
  { rewrite <- !app_assoc. reflexivity. }
  rewrite E in C.
  apply contains_sep in C; [|apply solid_not; [exact Hz|reflexivity]]. destruct C as [C|C].
  { rewrite Ea. apply (weaker_part _ a); [exists [], (x ++ t); reflexivity|exact Hz|exact C]. }
  apply contains_sep in C; [|apply solid_not; [exact Hz|reflexivity]]. destruct C as [C|C].
  { exact (weaker_part s i Ei z Hz C). }
  apply contains_sep in C; [|apply solid_not; [exact Hz|reflexivity]]. destruct C as [C|C].
  { exact (weaker_part s f Ef z Hz C). }
  rewrite Ea. apply (weaker_part _ t); [exists (a ++ x), []; rewrite <- app_assoc, app_nil_r; reflexivity|exact Hz|exact C].
Qed.

Lemma vis_weaker : forall s, weaker (sanitize_visibility s) s.
Proof.
  intro s. unfold sanitize_visibility. generalize 3 as n. intro n. revert s.
  induction n as [|n IH]; intro s; cbn [sanitize_visibility_n]; [apply weaker_refl|].
  destruct (sanitize_visibility_step s) as [s'|] eqn:E; [|apply weaker_refl].
  exact (weaker_trans _ _ _ (IH s') (vis_step_weaker s s' E)).
Qed.

Lemma body_weaker : forall s, weaker (sanitize_body s) s.
Proof.
  intro s. unfold sanitize_body, sanitize_windshear. cbv zeta.
  refine (weaker_trans _ _ _ (weaker_keeps _ _ _ (ws_step_keeps _)) _).
  refine (weaker_trans _ _ _ (weaker_keeps _ _ _ (ws_step_keeps _)) _).
  refine (weaker_trans _ _ _ (weaker_keeps _ _ _ (ws_step_keeps _)) _).
  refine (weaker_trans _ _ _ (weaker_keeps _ _ _ (ws_all_keeps _ _)) _). apply vis_weaker.
Qed.

Lemma underscore_weaker : forall s, weaker (replace (py "_") (py " ") s) s.
Proof.
  intro s. apply (weaker_keeps false). change (py "_") with [95%N]. change (py " ") with [32%N]. rewrite replace_char.
  unfold subst_char. induction s as [|c s IH]; [apply k_nil|]. cbn [map]. destruct (N.eqb_spec c 95) as [->|N].
  - apply k_sep; [reflexivity|]. apply k_drop. exact (keeps_fresh _ _ _ IH).
  - apply k_copy. exact IH.
Qed.

(** The sections. *)
Lemma contains_nil : forall x, solid x -> ~ contains [] x.
Proof.
  intros x [N _] (p & q & E). destruct p; [|discriminate]. destruct x; [contradiction|discriminate].
Qed.

Lemma sort_weaker : forall raw l body trend remark, Forall (fun w => weaker w raw) l -> weaker body raw -> weaker trend raw ->
  (trend = [] \/ exists t, trend = t ++ [32%N]) ->
  weaker (fst (fst (sort_sections l body trend remark))) raw /\ weaker (snd (fst (sort_sections l body trend remark))) raw.
Proof.
  intros raw l. induction l as [|w l IH]; intros body trend remark F Hb Ht Hj; cbn [sort_sections fst snd]; [split; assumption|].
  inversion F as [|w0 l0 Hw Hl]; subst. destruct (is_trend_section w).
  - apply IH; [exact Hl|exact Hb| |right; exists (trend ++ w); rewrite <- app_assoc; reflexivity]. intros x Hx C.
    rewrite app_assoc in C. apply (contains_sep 32%N (trend ++ w) []) in C; [|apply solid_not; [exact Hx|reflexivity]].
    destruct C as [C|C]; [|exfalso; exact (contains_nil x Hx C)].
    destruct Hj as [->|(t & ->)]; [exact (Hw x Hx C)|].
    rewrite <- app_assoc in C. apply (contains_sep 32%N t w) in C; [|apply solid_not; [exact Hx|reflexivity]].
    destruct C as [C|C]; [|exact (Hw x Hx C)].
    apply (Ht x Hx). destruct C as (p & q & ->). exists p, (q ++ [32%N]). rewrite <- !app_assoc. reflexivity.
  - destruct (starts_with (py "RMK") w); apply IH; assumption.
Qed.

Lemma weaker_nil : forall s, weaker [] s.
Proof. intros s x Hx C. exfalso. exact (contains_nil x Hx C). Qed.

Lemma sections_weaker : forall raw, weaker (section 0 (metar_sections raw)) raw /\ weaker (section 1 (metar_sections raw)) raw.
Proof.
  intro raw. unfold metar_sections.
  pose proof (sort_weaker raw (split_sentence raw [py "NOSIG"; py "TEMPO"; py "BECMG"; py "RMK"] None SpLeft) [] [] []) as K.
  destruct (sort_sections _ _ _ _) as [[body trend] remark]. cbn [fst snd] in K. cbn [section nth].
  destruct K as [K1 K2].
  - apply Forall_forall. intros w I. apply (sentence_weaker [py "NOSIG"; py "TEMPO"; py "BECMG"; py "RMK"] SpLeft None); [|exact I].
    repeat apply Forall_cons; try apply Forall_nil; (eexists; split; [reflexivity|split; [discriminate|reflexivity]]).
  - apply weaker_nil.
  - apply weaker_nil.
  - left. reflexivity.
  - split; [exact K1|]. exact (weaker_trans _ _ _ (weaker_part _ _ (strip_part trend)) K2).
Qed.

Lemma code_weaker : forall trend w, In w (trend_codes trend) -> weaker w trend.
Proof.
  intros trend w I. apply (sentence_weaker [py "TEMPO"; py "BECMG"] SpBoth (Some 1)); [|exact I].
  repeat apply Forall_cons; try apply Forall_nil; (eexists; split; [reflexivity|split; [discriminate|reflexivity]]).
Qed.

Lemma split_ws_part : forall s w, In w (split_on 32 s) -> contains s w.
Proof. intros s w I. exact (split_on_part 32 s w I). Qed.
