(** * General facts about strings, searching and substitution *)
From Coq Require Import String Ascii.
From Coq Require Import List NArith ZArith Bool Lia.
From Verif Require Import PyBase PyRegex.
Import ListNotations.
Open Scope list_scope.

(** ** What a pattern can consume *)

(** The text a pattern consumes, without the position tests. *)
Fixpoint den (r : regex) (x : str) : Prop :=
  match r with
  | Eps | Bos | Eos => x = []
  | Chr k => exists c, x = [c] /\ in_cls c k = true
  | Seq a b => exists x1 x2, x = x1 ++ x2 /\ den a x1 /\ den b x2
  | Alt a b => den a x \/ den b x
  | Star k => Forall (fun c => in_cls c k = true) x
  | Grp _ r => den r x
  end.

Lemma run_star_den : forall k s pos p t sp, In (p, t, sp) (run_star k pos s) ->
  exists x, s = x ++ t /\ p = pos + length x /\ Forall (fun c => in_cls c k = true) x.
Proof.
  intros k s. induction s as [|c s IH]; intros pos p t sp H; cbn [run_star] in H.
  - destruct H as [H|[]]. injection H as <- <- <-. exists []. repeat split; auto.
  - destruct (in_cls c k) eqn:E.
    + apply in_app_or in H. destruct H as [H|H].
      * apply IH in H. destruct H as (x & -> & -> & Hx). exists (c :: x).
        split; [reflexivity|]. split; [cbn [length]; lia|]. constructor; auto.
      * destruct H as [H|[]]. injection H as <- <- <-. exists []. repeat split; auto.
    + destruct H as [H|[]]. injection H as <- <- <-. exists []. repeat split; auto.
Qed.

Lemma run_den : forall r s pos p t sp, In (p, t, sp) (run r pos s) ->
  exists x, s = x ++ t /\ p = pos + length x /\ den r x.
Proof.
  induction r as [|k|a IHa b IHb|a IHa b IHb|k|n r IH| |]; intros s pos p t sp H; cbn [run den] in *.
  - destruct H as [H|[]]. injection H as <- <- <-. exists []. repeat split; auto.
  - destruct s as [|c s]; [destruct H|]. destruct (in_cls c k) eqn:E; [|destruct H].
    destruct H as [H|[]]. injection H as <- <- <-. exists [c]. split; [reflexivity|].
    split; [cbn [length]; lia|]. exists c. auto.
  - apply in_flat_map in H. destruct H as ([[p1 s1] k1] & H1 & H2).
    apply in_map_iff in H2. destruct H2 as ([[p2 s2] k2] & E & H2). injection E as <- <- <-.
    apply IHa in H1. destruct H1 as (x1 & -> & -> & D1).
    apply IHb in H2. destruct H2 as (x2 & -> & -> & D2).
    exists (x1 ++ x2). rewrite app_assoc, app_length. split; [reflexivity|]. split; [lia|].
    exists x1, x2. auto.
  - apply in_app_or in H. destruct H as [H|H].
    + apply IHa in H. destruct H as (x & E1 & E2 & D). exists x. auto.
    + apply IHb in H. destruct H as (x & E1 & E2 & D). exists x. auto.
  - apply run_star_den in H. exact H.
  - apply in_map_iff in H. destruct H as ([[p1 s1] k1] & E & H). injection E as <- <- <-.
    apply IH in H. exact H.
  - destruct (Nat.eqb pos 0); [|destruct H]. destruct H as [H|[]]. injection H as <- <- <-.
    exists []. repeat split; auto.
  - destruct (at_end s); [|destruct H]. destruct H as [H|[]]. injection H as <- <- <-.
    exists []. repeat split; auto.
Qed.

(** ** Positions do not matter without [^] *)

Fixpoint nobos (r : regex) : bool :=
  match r with
  | Eps | Chr _ | Star _ | Eos => true
  | Seq a b | Alt a b => nobos a && nobos b
  | Grp _ r => nobos r
  | Bos => false
  end.

Definition sh_span (d : nat) (x : string * (nat * nat)) : string * (nat * nat) :=
  (fst x, (d + fst (snd x), d + snd (snd x))).
Definition sh (d : nat) (x : nat * str * spans) : nat * str * spans :=
  let '(p, s, k) := x in (d + p, s, map (sh_span d) k).

Lemma run_star_shift : forall k s d pos, run_star k (d + pos) s = map (sh d) (run_star k pos s).
Proof.
  intros k s. induction s as [|c s IH]; intros d pos; cbn [run_star]; [reflexivity|].
  destruct (in_cls c k); [|reflexivity]. rewrite map_app. replace (S (d + pos)) with (d + S pos) by lia.
  rewrite IH. reflexivity.
Qed.

Lemma run_shift : forall r s d pos, nobos r = true -> run r (d + pos) s = map (sh d) (run r pos s).
Proof.
  induction r as [|k|a IHa b IHb|a IHa b IHb|k|n r IH| |]; intros s d pos H; cbn [run nobos] in *.
  - reflexivity.
  - destruct s as [|c s]; [reflexivity|]. destruct (in_cls c k); [|reflexivity]. cbn.
    replace (S (d + pos)) with (d + S pos) by lia. reflexivity.
  - apply andb_true_iff in H. destruct H as [Ha Hb]. rewrite IHa by exact Ha.
    induction (run a pos s) as [|[[p1 s1] k1] l IHl]; [reflexivity|].
    cbn [flat_map map sh]. rewrite map_app, IHl. f_equal. rewrite IHb by exact Hb.
    rewrite !map_map. apply map_ext. intros [[p2 s2] k2]. cbn. rewrite map_app. reflexivity.
  - apply andb_true_iff in H. destruct H as [Ha Hb]. rewrite IHa, IHb, map_app by assumption. reflexivity.
  - apply run_star_shift.
  - rewrite IH by exact H. rewrite !map_map. apply map_ext. intros [[p1 s1] k1]. reflexivity.
  - discriminate.
  - destruct (at_end s); reflexivity.
Qed.

(** Length of the match at the beginning of a text. *)
Definition mlen (r : regex) (s : str) : option nat :=
  match run r 0 s with (e, _, _) :: _ => Some e | [] => None end.

Lemma mlen_den : forall r s n, mlen r s = Some n ->
  exists x t, s = x ++ t /\ n = length x /\ den r x.
Proof.
  intros r s n H. unfold mlen in H. destruct (run r 0 s) as [|[[e t] sp] l] eqn:E; [discriminate|].
  injection H as <-. destruct (run_den r s 0 e t sp) as (x & E1 & E2 & D); [rewrite E; left; reflexivity|].
  exists x, t. auto.
Qed.

Lemma mlen_none : forall r s, (forall x t, s = x ++ t -> den r x -> False) -> mlen r s = None.
Proof.
  intros r s H. destruct (mlen r s) as [n|] eqn:E; [|reflexivity].
  destruct (mlen_den r s n E) as (x & t & E1 & _ & D). destruct (H x t E1 D).
Qed.

Lemma run_head : forall r s pos, nobos r = true ->
  match run r pos s with (e, _, _) :: _ => Some e | [] => None end
  = match mlen r s with Some n => Some (pos + n) | None => None end.
Proof.
  intros r s pos H. unfold mlen. replace pos with (pos + 0) at 1 by lia.
  rewrite run_shift by exact H. destruct (run r 0 s) as [|[[e t] sp] l]; reflexivity.
Qed.

(** ** Substitution *)

Lemma sub_go_skip : forall r w cnt s pos k, k <= length s -> (mlen r [] = None \/ k < length s) ->
  nobos r = true ->
  sub_go r w cnt pos k s = sub_go r w cnt (pos + k) 0 (skipn k s).
Proof.
  intros r w cnt s. induction s as [|c s IH]; intros pos k Hk Hn Hb.
  - cbn [length] in Hk. assert (k = 0) by lia. subst k. rewrite Nat.add_0_r. reflexivity.
  - destruct k as [|k].
    + rewrite Nat.add_0_r. reflexivity.
    + cbn [length] in *. replace (sub_go r w cnt pos (S k) (c :: s)) with (sub_go r w cnt (S pos) k s)
        by reflexivity.
      rewrite IH; [|lia|destruct Hn; [left; auto|right; lia]|exact Hb].
      cbn [skipn]. f_equal. lia.
Qed.

Lemma sub_go_pos : forall r w, nobos r = true -> forall s cnt pos pos' k,
  sub_go r w cnt pos k s = sub_go r w cnt pos' k s.
Proof.
  intros r w Hb s. induction s as [|c s IH]; intros cnt pos pos' k.
  - cbn [sub_go]. destruct k; [|reflexivity].
    assert (E := run_head r [] pos Hb). assert (E' := run_head r [] pos' Hb).
    destruct (run r pos []) as [|[[e t] sp] l]; destruct (run r pos' []) as [|[[e' t'] sp'] l'];
      destruct (mlen r []); try discriminate; reflexivity.
  - cbn [sub_go]. destruct k as [|k]; [|apply IH].
    assert (E := run_head r (c :: s) pos Hb). assert (E' := run_head r (c :: s) pos' Hb).
    destruct (mlen r (c :: s)) as [n|].
    + destruct (run r pos (c :: s)) as [|[[e t] sp] l]; [discriminate|].
      destruct (run r pos' (c :: s)) as [|[[e' t'] sp'] l']; [discriminate|].
      injection E as ->. injection E' as ->.
      assert (B : forall p, Nat.eqb (p + n) p = Nat.eqb n 0).
      { intro p. destruct (Nat.eqb_spec (p + n) p); destruct (Nat.eqb_spec n 0); auto; lia. }
      rewrite !B. replace (pos + n - pos - 1) with (n - 1) by lia.
      replace (pos' + n - pos' - 1) with (n - 1) by lia.
      destruct cnt as [[|m]|]; [reflexivity| |];
        (destruct (Nat.eqb n 0); rewrite (IH _ (S pos) (S pos')); reflexivity).
    + destruct (run r pos (c :: s)) as [|[[e t] sp] l]; [|discriminate].
      destruct (run r pos' (c :: s)) as [|[[e' t'] sp'] l']; [|discriminate].
      rewrite (IH _ (S pos) (S pos')). reflexivity.
Qed.

Definition cnt_pred (cnt : option nat) : option nat :=
  match cnt with Some n => Some (n - 1) | None => None end.

Lemma re_sub_zero : forall r w s, re_sub r w s (Some 0) = s.
Proof. intros r w [|c s]; reflexivity. Qed.

Lemma re_sub_nil : forall r w cnt, mlen r [] = None -> re_sub r w [] cnt = [].
Proof.
  intros r w cnt H. unfold re_sub, mlen in *. cbn [sub_go].
  destruct (run r 0 []) as [|[[e t] sp] l]; [|discriminate]. destruct cnt as [[|n]|]; reflexivity.
Qed.

(** No match here: copy one character. *)
Lemma re_sub_copy : forall r w c s cnt, nobos r = true -> mlen r (c :: s) = None ->
  re_sub r w (c :: s) cnt = c :: re_sub r w s cnt.
Proof.
  intros r w c s cnt Hb H. unfold re_sub, mlen in *. cbn [sub_go].
  destruct (run r 0 (c :: s)) as [|[[e t] sp] l]; [|discriminate].
  destruct cnt as [[|n]|].
  - destruct s; reflexivity.
  - f_equal. apply sub_go_pos. exact Hb.
  - f_equal. apply sub_go_pos. exact Hb.
Qed.

(** A match of positive length. *)
Lemma re_sub_hit : forall r w x t cnt, nobos r = true -> mlen r [] = None -> cnt <> Some 0 ->
  x <> [] -> mlen r (x ++ t) = Some (length x) ->
  re_sub r w (x ++ t) cnt = w ++ re_sub r w t (cnt_pred cnt).
Proof.
  intros r w x t cnt Hb Hn Hc Hx H. destruct x as [|c x]; [congruence|].
  unfold re_sub, mlen in *. cbn [app sub_go] in *.
  destruct (run r 0 (c :: x ++ t)) as [|[[e t'] sp] l]; [discriminate|]. injection H as ->.
  cbn [length]. change (Nat.eqb (S (length x)) 0) with false. cbv iota.
  replace (S (length x) - 0 - 1) with (length x) by lia.
  assert (E : match cnt with Some (S n) => Some n | _ => cnt end = cnt_pred cnt).
  { destruct cnt as [[|n]|]; [congruence| |reflexivity]. cbn. f_equal. lia. }
  rewrite E. rewrite sub_go_skip by (try (rewrite app_length; lia); auto).
  replace (skipn (length x) (x ++ t)) with t.
  2:{ rewrite skipn_app, skipn_all, Nat.sub_diag. reflexivity. }
  assert (E2 := sub_go_pos r w Hb t (cnt_pred cnt) (1 + length x) 0 0).
  destruct cnt as [[|n]|]; [congruence| |]; rewrite E2; reflexivity.
Qed.

(** [quiet r a t]: no match begins inside [a] when [t] follows. *)
Definition quiet (r : regex) (a t : str) : Prop :=
  forall a1 c a2, a = a1 ++ c :: a2 -> mlen r (c :: a2 ++ t) = None.

Lemma quiet_nil : forall r t, quiet r [] t.
Proof. intros r t a1 c a2 H. destruct a1; discriminate. Qed.

Lemma quiet_cons : forall r c a t, mlen r (c :: a ++ t) = None -> quiet r a t -> quiet r (c :: a) t.
Proof.
  intros r c a t H Q a1 d a2 E. destruct a1 as [|x a1]; injection E as -> E.
  - subst a2. exact H.
  - apply (Q a1 d a2 E).
Qed.

Lemma quiet_tail : forall r c a t, quiet r (c :: a) t -> mlen r (c :: a ++ t) = None /\ quiet r a t.
Proof.
  intros r c a t Q. split; [apply (Q [] c a eq_refl)|].
  intros a1 d a2 E. apply (Q (c :: a1) d a2). rewrite E. reflexivity.
Qed.

Lemma quiet_app : forall r a b t, quiet r a (b ++ t) -> quiet r b t -> quiet r (a ++ b) t.
Proof.
  intros r a b t Qa Qb. induction a as [|c a IH]; [exact Qb|].
  apply quiet_tail in Qa. destruct Qa as [H Q]. cbn [app]. apply quiet_cons; [|apply IH; exact Q].
  rewrite <- app_assoc. exact H.
Qed.

Lemma re_sub_quiet : forall r w a t cnt, nobos r = true -> quiet r a t ->
  re_sub r w (a ++ t) cnt = a ++ re_sub r w t cnt.
Proof.
  intros r w a t cnt Hb. induction a as [|c a IH]; intro Q; [reflexivity|].
  apply quiet_tail in Q. destruct Q as [H Q]. cbn [app]. rewrite re_sub_copy by assumption.
  rewrite IH by exact Q. reflexivity.
Qed.

Lemma re_sub_id : forall r w s cnt, nobos r = true -> mlen r [] = None -> quiet r s [] ->
  re_sub r w s cnt = s.
Proof.
  intros r w s cnt Hb Hn Q. rewrite <- (app_nil_r s) at 1. rewrite re_sub_quiet by assumption.
  rewrite re_sub_nil by exact Hn. apply app_nil_r.
Qed.

(** ** Searching *)

Lemma search_quiet : forall r whole a t pos, nobos r = true -> quiet r a t ->
  search_from r whole pos (a ++ t) = search_from r whole (length a + pos) t.
Proof.
  intros r whole a t. induction a as [|c a IH]; intros pos Hb Q; [reflexivity|].
  apply quiet_tail in Q. destruct Q as [H Q]. cbn [app search_from].
  assert (E := run_head r (c :: a ++ t) pos Hb). rewrite H in E.
  destruct (run r pos (c :: a ++ t)) as [|[[e t'] sp] l]; [|discriminate].
  rewrite IH by assumption. f_equal. cbn [length]. lia.
Qed.

Lemma re_search_none : forall r s, nobos r = true -> mlen r [] = None -> quiet r s [] ->
  re_search r s = None.
Proof.
  intros r s Hb Hn Q. unfold re_search. rewrite <- (app_nil_r s) at 2.
  rewrite search_quiet by assumption. cbn [search_from].
  assert (E := run_head r [] (length s + 0) Hb). rewrite Hn in E.
  destruct (run r (length s + 0) []) as [|[[e t'] sp] l]; [reflexivity|discriminate].
Qed.

Lemma span_of_sh : forall d n l, span_of n (map (sh_span d) l)
  = match span_of n l with Some (b, e) => Some (d + b, d + e) | None => None end.
Proof.
  intros d n l. induction l as [|[n' [b e]] l IH]; [reflexivity|]. cbn [map span_of sh_span fst snd].
  destruct (String.eqb n n'); [reflexivity|exact IH].
Qed.

(** The first match of a text is that of its first suffix that has one; the
    groups are those of matching this suffix. *)
Lemma re_search_some : forall r a t m, nobos r = true -> quiet r a t -> re_match r t = Some m ->
  exists m', re_search r (a ++ t) = Some m' /\ (forall n, group m' n = group m n)
    /\ m_start m' = length a /\ m_end m' = length a + m_end m.
Proof.
  intros r a t m Hb Q Hm. unfold re_search. rewrite search_quiet by assumption.
  rewrite Nat.add_0_r. unfold re_match in Hm.
  assert (R := run_shift r t (length a) 0 Hb). rewrite Nat.add_0_r in R.
  destruct (run r 0 t) as [|[[e t'] sp] l] eqn:E; [discriminate|]. injection Hm as <-.
  cbn [map sh] in R.
  exists (mk_match (a ++ t) (length a) (length a + e) (map (sh_span (length a)) sp)).
  split; [|split; [|split; reflexivity]].
  - destruct t as [|c t]; cbn [search_from]; rewrite R; reflexivity.
  - intro n. unfold group. cbn [m_spans m_string]. rewrite span_of_sh.
    destruct (span_of n sp) as [[b e']|]; [|reflexivity]. f_equal. unfold substr.
    replace (length a + e' - (length a + b)) with (e' - b) by lia.
    rewrite skipn_app. replace (length a + b - length a) with b by lia.
    rewrite skipn_all2 by lia. reflexivity.
Qed.

Lemma re_match_mlen : forall r s m, re_match r s = Some m -> mlen r s = Some (m_end m).
Proof.
  intros r s m H. unfold re_match, mlen in *. destruct (run r 0 s) as [|[[e t] sp] l]; [discriminate|].
  injection H as <-. reflexivity.
Qed.

(** ** Literal patterns *)

Lemma starts_with_app : forall p s, starts_with p s = true <-> exists t, s = p ++ t.
Proof.
  induction p as [|c p IH]; intro s; cbn [starts_with].
  - split; [intros _; exists s; reflexivity|reflexivity].
  - destruct s as [|d s].
    + split; [discriminate|intros (t & H); discriminate].
    + rewrite andb_true_iff, IH, N.eqb_eq. split.
      * intros [-> (t & ->)]. exists t. reflexivity.
      * intros (t & H). injection H as -> ->. split; [reflexivity|exists t; reflexivity].
Qed.

Lemma starts_with_self : forall p t, starts_with p (p ++ t) = true.
Proof. intros p t. apply starts_with_app. exists t. reflexivity. Qed.

(** ** Splitting and joining *)

Lemma split_on_nosep : forall sep w, ~ In sep w -> split_on sep w = [w].
Proof.
  intros sep w. induction w as [|c w IH]; intro H; [reflexivity|]. cbn [split_on].
  destruct (N.eqb_spec c sep) as [->|E]; [destruct H; left; reflexivity|].
  rewrite IH by (intro K; apply H; right; exact K). reflexivity.
Qed.

Lemma split_on_app : forall sep w s, ~ In sep w -> split_on sep (w ++ sep :: s) = w :: split_on sep s.
Proof.
  intros sep w s. induction w as [|c w IH]; intro H; cbn [app split_on].
  - rewrite N.eqb_refl. reflexivity.
  - destruct (N.eqb_spec c sep) as [->|E]; [destruct H; left; reflexivity|].
    rewrite IH by (intro K; apply H; right; exact K). reflexivity.
Qed.

Lemma split_join : forall sep ws, ws <> [] -> Forall (fun w => ~ In sep w) ws ->
  split_on sep (join [sep] ws) = ws.
Proof.
  intros sep ws. induction ws as [|w ws IH]; [congruence|]. intros _ H.
  inversion H as [|w0 l Hw Hws]; subst. destruct ws as [|v ws].
  - cbn [join]. apply split_on_nosep. exact Hw.
  - cbn [join]. cbn [app]. rewrite split_on_app by exact Hw. f_equal. apply IH; [discriminate|exact Hws].
Qed.

Lemma split_nonempty : forall sep s, split_on sep s <> [].
Proof.
  intros sep s. destruct s as [|c s]; [discriminate|]. cbn [split_on].
  destruct (N.eqb c sep); [discriminate|]. destruct (split_on sep s); discriminate.
Qed.

Lemma join_split : forall sep s, join [sep] (split_on sep s) = s.
Proof.
  intros sep s. induction s as [|c s IH]; [reflexivity|]. cbn [split_on].
  assert (S := split_nonempty sep s). destruct (split_on sep s) as [|w ws]; [congruence|].
  destruct (N.eqb_spec c sep) as [->|E].
  - cbn [join app] in *. rewrite IH. reflexivity.
  - destruct ws; cbn [join app] in *; rewrite <- IH; reflexivity.
Qed.

Lemma split_on_parts : forall sep s w, In w (split_on sep s) -> ~ In sep w.
Proof.
  intros sep s. induction s as [|c s IH]; intros w H; cbn [split_on] in H.
  - destruct H as [<-|[]]. intros [].
  - destruct (N.eqb_spec c sep) as [->|E].
    + destruct H as [<-|H]; [intros []|apply IH; exact H].
    + assert (S := split_nonempty sep s). destruct (split_on sep s) as [|v vs]; [congruence|].
      destruct H as [<-|H].
      * intros [->|K]; [congruence|]. apply (IH v (or_introl eq_refl) K).
      * apply IH. right. exact H.
Qed.

Lemma join_cons : forall sep w ws, ws <> [] -> join sep (w :: ws) = w ++ sep ++ join sep ws.
Proof. intros sep w [|v ws] H; [congruence|reflexivity]. Qed.

Lemma join_app : forall sep a b, a <> [] -> b <> [] -> join sep (a ++ b) = join sep a ++ sep ++ join sep b.
Proof.
  intros sep a b Ha Hb. induction a as [|w a IH]; [congruence|]. destruct a as [|v a].
  - change ([w] ++ b) with (w :: b). rewrite join_cons by exact Hb. reflexivity.
  - rewrite (join_cons sep w (v :: a)) by discriminate.
    change ((w :: v :: a) ++ b) with (w :: ((v :: a) ++ b)).
    rewrite join_cons by discriminate. rewrite IH by discriminate.
    rewrite <- !app_assoc. reflexivity.
Qed.

(** ** Stripping *)

Lemma lstrip_nospace : forall c s, is_space c = false -> lstrip (c :: s) = c :: s.
Proof. intros c s H. cbn [lstrip]. rewrite H. reflexivity. Qed.

Lemma lstrip_app : forall a s, Forall (fun c => is_space c = true) a -> lstrip (a ++ s) = lstrip s.
Proof. intros a s H. induction H as [|c a Hc H IH]; [reflexivity|]. cbn [app lstrip]. rewrite Hc. exact IH. Qed.

(** A text without blanks at its two ends. *)
Definition trimmed (s : str) : Prop :=
  match s with [] => True | c :: _ => is_space c = false /\ is_space (last s 0%N) = false end.

Lemma rev_cons_last : forall s : str, s <> [] -> rev s = last s 0%N :: rev (removelast s).
Proof.
  intros s H. rewrite (app_removelast_last 0%N H) at 1. rewrite rev_app_distr. reflexivity.
Qed.

Lemma strip_pad : forall a s b, Forall (fun c => is_space c = true) a -> Forall (fun c => is_space c = true) b ->
  trimmed s -> strip (a ++ s ++ b) = s.
Proof.
  intros a s b Ha Hb Hs. unfold strip. rewrite lstrip_app by exact Ha.
  destruct s as [|c s].
  - cbn [app]. rewrite <- (app_nil_r b). rewrite lstrip_app by exact Hb. reflexivity.
  - destruct Hs as [Hc Hl]. cbn [app]. rewrite lstrip_nospace by exact Hc.
    change (c :: s ++ b) with ((c :: s) ++ b). rewrite rev_app_distr.
    rewrite lstrip_app.
    + rewrite (rev_cons_last (c :: s)) by discriminate. rewrite lstrip_nospace by exact Hl.
      rewrite <- (rev_cons_last (c :: s)) by discriminate. apply rev_involutive.
    + apply Forall_rev. exact Hb.
Qed.

Lemma strip_trimmed : forall s, trimmed s -> strip s = s.
Proof. intros s H. rewrite <- (strip_pad [] s [] (Forall_nil _) (Forall_nil _) H) at 2.
  cbn [app]. rewrite app_nil_r. reflexivity. Qed.

Lemma lstrip_split : forall s, exists a, Forall (fun c => is_space c = true) a /\ s = a ++ lstrip s
  /\ match lstrip s with c :: _ => is_space c = false | [] => True end.
Proof.
  induction s as [|c s IH]; [exists []; repeat split; auto|]. cbn [lstrip].
  destruct (is_space c) eqn:E.
  - destruct IH as (a & Ha & Hs & Hc). exists (c :: a). split; [constructor; auto|]. split; [|exact Hc].
    cbn [app]. rewrite <- Hs. reflexivity.
  - exists []. split; [constructor|]. split; [reflexivity|exact E].
Qed.

Lemma strip_split : forall s, exists a b, Forall (fun c => is_space c = true) a
  /\ Forall (fun c => is_space c = true) b /\ s = a ++ strip s ++ b /\ trimmed (strip s).
Proof.
  intro s. destruct (lstrip_split s) as (a & Ha & Hs & Hc). unfold strip.
  destruct (lstrip_split (rev (lstrip s))) as (b & Hb & Hr & Hd).
  remember (lstrip (rev (lstrip s))) as u eqn:Eu.
  assert (E : lstrip s = rev u ++ rev b).
  { rewrite <- (rev_involutive (lstrip s)), Hr, rev_app_distr. reflexivity. }
  exists a, (rev b). split; [exact Ha|]. split; [apply Forall_rev; exact Hb|]. split.
  - rewrite Hs at 1. rewrite E. reflexivity.
  - destruct (rev u) as [|c t] eqn:Er; [exact I|].
    rewrite E in Hc. cbn [app] in Hc. split; [exact Hc|].
    assert (Eu2 : u = rev (c :: t)) by (rewrite <- Er, rev_involutive; reflexivity).
    rewrite (rev_cons_last (c :: t)) in Eu2 by discriminate. rewrite Eu2 in Hd. exact Hd.
Qed.
