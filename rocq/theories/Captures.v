(** * What the groups of a match can hold

    For a pattern without repetition: every match follows one of finitely many
    paths, each with its own spans of the named groups. *)
From Coq Require Import String Ascii.
From Coq Require Import List NArith ZArith Bool Lia.
From Verif Require Import PyBase PyRegex StrFacts ProofText RegexPaths.
Import ListNotations.
Open Scope list_scope.

Definition cpath := (list cls * spans)%type.

(** The paths of a pattern: the classes consumed and the spans relative to
    the beginning. *)
Fixpoint cpaths (r : regex) : list cpath :=
  match r with
  | Eps | Bos | Eos | Star _ => [([], [])]
  | Chr k => [([k], [])]
  | Seq a b =>
      flat_map (fun p => map (fun q => (fst p ++ fst q, map (sh_span (length (fst p))) (snd q) ++ snd p))
                             (cpaths b)) (cpaths a)
  | Alt a b => cpaths a ++ cpaths b
  | Grp n r => map (fun p => (fst p, (n, (0, length (fst p))) :: snd p)) (cpaths r)
  end.

Lemma along_length : forall x p, along x p -> length x = length p.
Proof. intros x p H. unfold along in H. induction H; cbn; congruence. Qed.

Lemma sh_span_sh : forall a b l, map (sh_span a) (map (sh_span b) l) = map (sh_span (a + b)) l.
Proof.
  intros a b l. rewrite map_map. apply map_ext. intros [n [x y]]. unfold sh_span. cbn [fst snd]. rewrite !Nat.add_assoc. reflexivity.
Qed.

Lemma run_cpaths : forall r s pos p t sp, starfree r = true -> In (p, t, sp) (run r pos s) ->
  exists q x, In q (cpaths r) /\ s = x ++ t /\ p = pos + length x /\ along x (fst q)
    /\ sp = map (sh_span pos) (snd q).
Proof.
  induction r as [|k|a IHa b IHb|a IHa b IHb|k|n r IH| |]; intros s pos p t sp F H; cbn [starfree run cpaths] in *.
  - destruct H as [H|[]]. injection H as <- <- <-. exists ([], []), []. cbn. repeat split; auto. constructor.
  - destruct s as [|c s]; [destruct H|]. destruct (in_cls c k) eqn:E; [|destruct H].
    destruct H as [H|[]]. injection H as <- <- <-. exists ([k], []), [c]. cbn.
    repeat split; auto; [lia|repeat constructor; exact E].
  - apply andb_true_iff in F. destruct F as [Fa Fb]. apply in_flat_map in H.
    destruct H as ([[p1 s1] k1] & H1 & H2). apply in_map_iff in H2.
    destruct H2 as ([[p2 s2] k2] & E & H2). injection E as <- <- <-.
    destruct (IHa s pos p1 s1 k1 Fa H1) as (q1 & x1 & I1 & -> & -> & A1 & ->).
    destruct (IHb s1 (pos + length x1) p2 s2 k2 Fb H2) as (q2 & x2 & I2 & -> & -> & A2 & ->).
    eexists. exists (x1 ++ x2). split; [apply in_flat_map; exists q1; split; [exact I1|]; apply in_map; exact I2|].
    cbn [fst snd]. split; [apply app_assoc|]. split; [rewrite app_length; lia|].
    split; [apply Forall2_app; assumption|].
    rewrite (along_length x1 (fst q1) A1), map_app, sh_span_sh. reflexivity.
  - apply andb_true_iff in F. destruct F as [Fa Fb]. apply in_app_or in H. destruct H as [H|H].
    + destruct (IHa s pos p t sp Fa H) as (q & x & I & R). exists q, x. split; [apply in_or_app; left; exact I|exact R].
    + destruct (IHb s pos p t sp Fb H) as (q & x & I & R). exists q, x. split; [apply in_or_app; right; exact I|exact R].
  - discriminate.
  - apply in_map_iff in H. destruct H as ([[p1 s1] k1] & E & H). injection E as <- <- <-.
    destruct (IH s pos p1 s1 k1 F H) as (q & x & I & -> & -> & A & ->).
    eexists. exists x. split; [apply in_map; exact I|]. cbn [fst snd map]. repeat (split; [solve [auto]|]); auto.
    rewrite (along_length x (fst q) A). unfold sh_span at 2. cbn [fst snd]. rewrite Nat.add_0_r. reflexivity.
  - destruct (Nat.eqb pos 0); [|destruct H]. destruct H as [H|[]]. injection H as <- <- <-.
    exists ([], []), []. cbn. repeat split; auto. constructor.
  - destruct (at_end s); [|destruct H]. destruct H as [H|[]]. injection H as <- <- <-.
    exists ([], []), []. cbn. repeat split; auto. constructor.
Qed.

(** The classes of a group along a path. *)
Definition cgroup (q : cpath) (n : string) : option (list cls) :=
  match span_of n (snd q) with
  | Some (b, e) => Some (firstn (e - b) (skipn b (fst q)))
  | None => None
  end.

Lemma along_firstn : forall n x p, along x p -> along (firstn n x) (firstn n p).
Proof.
  unfold along. intros n x p H. revert n. induction H as [|c k x p Hc H IH]; intros [|n]; cbn; constructor; auto.
Qed.
Lemma along_skipn : forall n x p, along x p -> along (skipn n x) (skipn n p).
Proof.
  unfold along. intros n x p H. revert n. induction H as [|c k x p Hc H IH]; intros [|n]; cbn; try constructor; auto.
Qed.

(** Spans stay within the consumed text. *)
Definition span_in (l : nat) (sp : string * (nat * nat)) : Prop := fst (snd sp) <= snd (snd sp) <= l.

Lemma cpaths_in : forall r q, In q (cpaths r) -> Forall (span_in (length (fst q))) (snd q).
Proof.
  induction r as [|k|a IHa b IHb|a IHa b IHb|k|n r IH| |]; intros q H; cbn [cpaths] in H;
    try (destruct H as [<-|[]]; constructor).
  - apply in_flat_map in H. destruct H as (q1 & I1 & H). apply in_map_iff in H.
    destruct H as (q2 & <- & I2). cbn [fst snd]. rewrite app_length. apply Forall_app. split.
    + apply Forall_forall. intros s Hs. apply in_map_iff in Hs. destruct Hs as ((n & x & y) & <- & Hs).
      pose proof (proj1 (Forall_forall _ _) (IHb q2 I2) _ Hs) as K. unfold span_in, sh_span, cls in *. cbn [fst snd] in *. unfold spans in *. lia.
    + eapply Forall_impl; [|exact (IHa q1 I1)]. unfold span_in, spans, cls. intros s Hs. lia.
  - apply in_app_or in H. destruct H as [H|H]; auto.
  - apply in_map_iff in H. destruct H as (q1 & <- & I1). cbn [fst snd]. constructor; [|auto].
    unfold span_in. cbn. lia.
Qed.

Lemma span_of_in : forall n l sp, span_of n l = Some sp -> In (n, sp) l.
Proof.
  intros n l sp. induction l as [|(n', s') l IH]; cbn [span_of]; intros H; [discriminate|].
  destruct (String.eqb n n') eqn:E; [|right; auto].
  apply String.eqb_eq in E. subst n'. injection H as ->. left. reflexivity.
Qed.

Lemma sh_span_0 : forall l, map (sh_span 0) l = l.
Proof. intros l. rewrite <- map_id. apply map_ext. intros [n [x y]]. reflexivity. Qed.

(** The groups of a match, read off the path it follows. *)
Definition follows (s : str) (m : rmatch) (q : cpath) (x t : str) : Prop :=
  s = x ++ t /\ m_string m = s /\ along x (fst q)
  /\ forall n, group m n = match span_of n (snd q) with
                           | Some (b, e) => Some (substr x b e)
                           | None => None
                           end.

Theorem match_follows_end : forall r s m, starfree r = true -> re_match r s = Some m ->
  exists q x t, In q (cpaths r) /\ follows s m q x t /\ m_end m = length x.
Proof.
  intros r s m F H. unfold re_match in H. destruct (run r 0 s) as [|[[e t] sp] l] eqn:E; [discriminate|].
  injection H as <-. destruct (run_cpaths r s 0 e t sp F) as (q & x & I & -> & -> & A & ->);
    [rewrite E; left; reflexivity|].
  exists q, x, t. split; [exact I|]. split; [|reflexivity]. unfold follows. cbn [m_string m_end m_start m_spans].
  split; [reflexivity|]. split; [reflexivity|]. split; [exact A|]. intros n. unfold group. cbn [m_spans m_string].
  rewrite sh_span_0. destruct (span_of n (snd q)) as [[b e]|] eqn:Es; [|reflexivity].
  apply span_of_in in Es. pose proof (proj1 (Forall_forall _ _) (cpaths_in r q I) _ Es) as K.
  unfold span_in in K. cbn in K. rewrite <- (along_length x _ A) in K. unfold substr.
  f_equal. rewrite skipn_app, firstn_app, skipn_length.
  replace (e - b - (length x - b)) with 0 by lia. rewrite firstn_O, app_nil_r. reflexivity.
Qed.

Theorem match_follows : forall r s m, starfree r = true -> re_match r s = Some m ->
  exists q x t, In q (cpaths r) /\ follows s m q x t.
Proof.
  intros r s m F H. destruct (match_follows_end r s m F H) as (q & x & t & I & Fo & _). exists q, x, t. auto.
Qed.

Lemma follows_group : forall s m q x t n, follows s m q x t ->
  match cgroup q n with
  | Some ks => exists c, group m n = Some c /\ along c ks
  | None => group m n = None
  end.
Proof.
  intros s m q x t n (_ & _ & A & G). unfold cgroup. rewrite G.
  destruct (span_of n (snd q)) as [[b e]|]; [|reflexivity].
  exists (substr x b e). split; [reflexivity|]. unfold substr. apply along_firstn, along_skipn, A.
Qed.

(** *** Checks over all paths *)

(** Always captured. *)
Definition captured (n : string) (r : regex) : bool :=
  forallb (fun q => match cgroup q n with Some _ => true | None => false end) (cpaths r).

(** The classes of the group pass a test along every path. *)
Definition group_ok (n : string) (f : list cls -> bool) (r : regex) : bool :=
  forallb (fun q => match cgroup q n with Some ks => f ks | None => true end) (cpaths r).

Lemma captured_some : forall n r s m, starfree r = true -> captured n r = true -> re_match r s = Some m ->
  exists c, group m n = Some c.
Proof.
  intros n r s m F C H. destruct (match_follows r s m F H) as (q & x & t & I & Fo).
  pose proof (follows_group s m q x t n Fo) as G. unfold captured in C. rewrite forallb_forall in C.
  specialize (C q I). destruct (cgroup q n); [|discriminate]. destruct G as (c & G & _). exists c. exact G.
Qed.

Lemma group_ok_along : forall n f r s m c, starfree r = true -> group_ok n f r = true -> re_match r s = Some m ->
  group m n = Some c -> exists ks, along c ks /\ f ks = true.
Proof.
  intros n f r s m c F C H E. destruct (match_follows r s m F H) as (q & x & t & I & Fo).
  pose proof (follows_group s m q x t n Fo) as G. unfold group_ok in C. rewrite forallb_forall in C.
  specialize (C q I). destruct (cgroup q n) as [ks|]; [|congruence].
  destruct G as (c' & G & A). rewrite E in G. injection G as <-. exists ks. auto.
Qed.

(** *** Digits *)

(** Every character of the class is a decimal digit. *)
Definition digit_item (i : citem) : bool :=
  match i with
  | CDigit => true
  | CRange a b => ((48 <=? a) && (b <=? 57))%N
  | CSpace => false
  end.
Definition digit_cls (k : cls) : bool := forallb digit_item k.

Lemma digit_val_ascii : forall c, (48 <= c <= 57)%N -> digit_val c = Some (c - 48)%N.
Proof.
  intros c H. unfold digit_val, nd_zeros. cbn [find].
  replace ((48 <=? c) && (c <? 48 + 10))%N with true; [reflexivity|].
  symmetry. apply andb_true_iff. split; [apply N.leb_le|apply N.ltb_lt]; lia.
Qed.

Lemma in_digit_cls : forall c k, digit_cls k = true -> in_cls c k = true -> is_digit c = true.
Proof.
  intros c k D H. unfold in_cls in H. apply existsb_exists in H. destruct H as (i & I & H).
  unfold digit_cls in D. rewrite forallb_forall in D. specialize (D i I). destruct i as [a b| |]; cbn in *.
  - apply andb_true_iff in D. apply andb_true_iff in H. destruct D as [D1 D2], H as [H1 H2].
    apply N.leb_le in D1, D2, H1, H2. unfold is_digit. rewrite digit_val_ascii by lia. reflexivity.
  - exact H.
  - discriminate.
Qed.

Definition all_digits (x : str) : Prop := Forall (fun c => is_digit c = true) x.

Lemma along_digits : forall x ks, along x ks -> forallb digit_cls ks = true -> all_digits x.
Proof.
  intros x ks A. induction A as [|c k x ks Hc A IH]; intros H; [constructor|].
  cbn in H. apply andb_true_iff in H. destruct H as [H1 H2].
  constructor; [exact (in_digit_cls c k H1 Hc)|exact (IH H2)].
Qed.

Definition digits_path (lo hi : nat) (ks : list cls) : bool :=
  forallb digit_cls ks && Nat.leb lo (length ks) && Nat.leb (length ks) hi.

Lemma digits_path_ok : forall x ks lo hi, along x ks -> digits_path lo hi ks = true ->
  all_digits x /\ lo <= length x <= hi.
Proof.
  intros x ks lo hi A H. unfold digits_path in H. apply andb_true_iff in H. destruct H as [H H3].
  apply andb_true_iff in H. destruct H as [H1 H2]. apply Nat.leb_le in H2, H3.
  rewrite (along_length x ks A). split; [exact (along_digits x ks A H1)|lia].
Qed.

Lemma digits_val_some : forall x acc, all_digits x -> exists n, digits_val acc x = Some n.
Proof.
  induction x as [|c x IH]; intros acc H; [exists acc; reflexivity|].
  inversion H as [|c0 x0 Hc H']; subst. cbn [digits_val]. unfold is_digit in Hc.
  destruct (digit_val c) as [d|]; [|discriminate]. apply IH. exact H'.
Qed.

Lemma int_of_digits : forall x, all_digits x -> x <> [] -> exists n, int_of_str x = Ok (Z.of_N n).
Proof.
  intros x H N. destruct x as [|c x]; [congruence|]. unfold int_of_str.
  destruct (digits_val_some (c :: x) 0%N H) as (n & ->). exists n. reflexivity.
Qed.
