(** * Two patterns that read the same texts alike (C76)

    The matches of a pattern without repetition, in the order in which they
    are tried, as a list of paths; and a check on two such lists. *)
From Coq Require Import String Ascii.
From Coq Require Import List NArith ZArith Bool Arith Lia.
From Verif Require Import PyBase PyRegex AeroRegex RegexPaths StrFacts Captures ProofWork.
Import ListNotations.
Local Open Scope string_scope.
Local Open Scope nat_scope.
Local Open Scope list_scope.

Inductive item := Take (k : cls) | AtStart | AtEnd.
Definition opath := (list item * spans)%type.
Fixpoint width (l : list item) : nat := match l with [] => 0 | Take _ :: l' => S (width l') | _ :: l' => width l' end.
Fixpoint opaths (r : regex) : list opath :=
  match r with
  | Eps | Star _ => [([], [])]
  | Bos => [([AtStart], [])]
  | Eos => [([AtEnd], [])]
  | Chr k => [([Take k], [])]
  | Seq a b => flat_map (fun p => map (fun q => (fst p ++ fst q, map (sh_span (width (fst p))) (snd q) ++ snd p)) (opaths b)) (opaths a)
  | Alt a b => opaths a ++ opaths b
  | Grp n r => map (fun p => (fst p, (n, (0, width (fst p))) :: snd p)) (opaths r)
  end.
Fixpoint walk (l : list item) (pos : nat) (s : str) : option (nat * str) :=
  match l with
  | [] => Some (pos, s)
  | Take k :: l' => match s with c :: s' => if in_cls c k then walk l' (S pos) s' else None | [] => None end
  | AtStart :: l' => if Nat.eqb pos 0 then walk l' pos s else None
  | AtEnd :: l' => if at_end s then walk l' pos s else None
  end.
Definition took (pos : nat) (s : str) (q : opath) : list (nat * str * spans) :=
  match walk (fst q) pos s with Some (p, t) => [(p, t, map (sh_span pos) (snd q))] | None => [] end.

Lemma walk_app : forall a b pos s, walk (a ++ b) pos s = match walk a pos s with Some (p, t) => walk b p t | None => None end.
Proof.
  intro a. induction a as [|i a IH]; intros b pos s; [reflexivity|]. destruct i as [k| |]; cbn [app walk].
  - destruct s as [|c s]; [reflexivity|]. destruct (in_cls c k); [apply IH|reflexivity].
  - destruct (Nat.eqb pos 0); [apply IH|reflexivity].
  - destruct (at_end s); [apply IH|reflexivity].
Qed.
Lemma walk_width : forall a pos s p t, walk a pos s = Some (p, t) -> p = pos + width a.
Proof.
  intro a. induction a as [|i a IH]; intros pos s p t H; [cbn in H; injection H as <- _; cbn; lia|]. destruct i as [k| |]; cbn [walk width] in *.
  - destruct s as [|c s]; [discriminate H|]. destruct (in_cls c k); [|discriminate H]. apply IH in H. lia.
  - destruct (Nat.eqb pos 0); [|discriminate H]. exact (IH _ _ _ _ H).
  - destruct (at_end s); [|discriminate H]. exact (IH _ _ _ _ H).
Qed.

Lemma flat_map_map : forall A B C (f : A -> B) (g : B -> list C) l, flat_map g (map f l) = flat_map (fun x => g (f x)) l.
Proof. intros A B C f g l. induction l as [|x l IH]; [reflexivity|]. cbn [map flat_map]. rewrite IH. reflexivity. Qed.
Lemma flat_map_flat_map : forall A B C (f : A -> list B) (g : B -> list C) l, flat_map g (flat_map f l) = flat_map (fun x => flat_map g (f x)) l.
Proof. intros A B C f g l. induction l as [|x l IH]; [reflexivity|]. cbn [flat_map]. rewrite flat_map_app, IH. reflexivity. Qed.

Theorem run_opaths : forall r pos s, starfree r = true -> run r pos s = flat_map (took pos s) (opaths r).
Proof.
  intro r. induction r as [|k|a IHa b IHb|a IHa b IHb|k|n r IH| |]; intros pos s F; cbn [starfree run opaths] in *.
  - reflexivity.
  - cbn [flat_map]. unfold took. cbn [fst snd walk]. destruct s as [|c s]; [reflexivity|]. destruct (in_cls c k); reflexivity.
  - apply andb_prop in F. destruct F as [Fa Fb]. rewrite (IHa pos s Fa), !flat_map_flat_map.
    apply flat_map_ext. intros [pa ka]. rewrite flat_map_map. unfold took at 1. cbn [fst snd]. destruct (walk pa pos s) as [[p1 s1]|] eqn:W; cbn [flat_map].
    + rewrite app_nil_r, (IHb p1 s1 Fb). pose proof (walk_width _ _ _ _ _ W) as Wd. generalize (opaths b). intro l. induction l as [|[pb kb] l IHl]; [reflexivity|].
      cbn [flat_map]. rewrite map_app. apply f_equal2; [|exact IHl]. unfold took. cbn [fst snd]. rewrite walk_app, W. destruct (walk pb p1 s1) as [[p2 s2]|]; [|reflexivity].
      cbn [map]. rewrite map_app, sh_span_sh, <- Wd. reflexivity.
    + generalize (opaths b). intro l. induction l as [|[pb kb] l IHl]; [reflexivity|]. cbn [flat_map]. rewrite <- IHl. unfold took. cbn [fst snd]. rewrite walk_app, W. reflexivity.
  - apply andb_prop in F. destruct F as [Fa Fb]. rewrite flat_map_app, (IHa pos s Fa), (IHb pos s Fb). reflexivity.
  - discriminate F.
  - rewrite flat_map_map, (IH pos s F). generalize (opaths r). intro l. induction l as [|[pa ka] l IHl]; [reflexivity|].
    cbn [flat_map]. rewrite map_app. apply f_equal2; [|exact IHl]. unfold took. cbn [fst snd]. destruct (walk pa pos s) as [[p t]|] eqn:W; [|reflexivity].
    cbn [map]. rewrite (walk_width _ _ _ _ _ W). unfold sh_span at 2. cbn [fst snd]. rewrite Nat.add_0_r. reflexivity.
  - cbn [flat_map]. unfold took. cbn [fst snd walk]. destruct (Nat.eqb pos 0); reflexivity.
  - cbn [flat_map]. unfold took. cbn [fst snd walk]. destruct (at_end s); reflexivity.
Qed.

(** ** The first path that fits *)

Lemma first_path : forall s l p t sp rest, flat_map (took 0 s) l = (p, t, sp) :: rest ->
  exists before q after, l = before ++ q :: after /\ walk (fst q) 0 s <> None /\ sp = snd q /\ Forall (fun q' => walk (fst q') 0 s = None) before.
Proof.
  intros s l. induction l as [|q l IH]; intros p t sp rest H; [discriminate H|]. cbn [flat_map] in H.
  destruct (walk (fst q) 0 s) as [[p1 t1]|] eqn:W; unfold took at 1 in H; rewrite W in H.
  - cbn [app] in H. injection H as _ _ <- _. exists [], q, l. split; [reflexivity|]. split; [rewrite W; discriminate|]. split; [|constructor].
    rewrite <- (map_id (snd q)) at 2. apply map_ext. intros [n [x y]]. reflexivity.
  - cbn [app] in H. destruct (IH _ _ _ _ H) as (b & q1 & a & -> & A & B & C). exists (q :: b), q1, a.
    split; [reflexivity|]. split; [exact A|]. split; [exact B|]. constructor; [exact W|exact C].
Qed.

Fixpoint loose (l : list item) : list item := match l with [] => [] | AtStart :: l' => loose l' | i :: l' => i :: loose l' end.
Lemma loose_ok : forall l pos s, walk l pos s <> None -> walk (loose l) pos s <> None.
Proof.
  intro l. induction l as [|i l IH]; intros pos s H; [exact H|]. destruct i as [k| |]; cbn [loose walk] in *.
  - destruct s as [|c s]; [exact H|]. destruct (in_cls c k); [exact (IH _ _ H)|exact H].
  - destruct (Nat.eqb pos 0); [exact (IH _ _ H)|elim (H eq_refl)].
  - destruct (at_end s); [exact (IH _ _ H)|exact H].
Qed.
Fixpoint bar (a b : list item) : bool :=
  match a, b with
  | Take x :: a', Take y :: b' => if apart x y then true else bar a' b'
  | AtEnd :: _, Take y :: _ => negb (in_cls 10 y)
  | Take x :: _, AtEnd :: _ => negb (in_cls 10 x)
  | _, _ => false
  end.
Lemma bar_ok : forall a b pos s, bar a b = true -> walk a pos s <> None -> walk b pos s <> None -> False.
Proof.
  intro a. induction a as [|i a IH]; intros b pos s H A B; [discriminate H|]. destruct i as [x| |]; (destruct b as [|[y| |] b]; try discriminate H); cbn [bar walk] in *.
  - destruct s as [|c s]; [exact (A eq_refl)|]. destruct (in_cls c x) eqn:X; [|exact (A eq_refl)]. destruct (in_cls c y) eqn:Y; [|exact (B eq_refl)].
    destruct (apart x y) eqn:H0; [exact (apart_ok _ _ _ H0 X Y)|exact (IH _ _ _ H A B)].
  - destruct s as [|c s]; [exact (A eq_refl)|]. destruct (in_cls c x) eqn:X; [|exact (A eq_refl)]. destruct s as [|d s]; cbn [at_end] in B; [|exact (B eq_refl)].
    destruct (N.eqb c 10) eqn:E; [|exact (B eq_refl)]. apply N.eqb_eq in E. subst c. rewrite X in H. discriminate H.
  - destruct s as [|c s]; [exact (B eq_refl)|]. destruct (in_cls c y) eqn:Y; [|exact (B eq_refl)]. destruct s as [|d s]; cbn [at_end] in A; [|exact (A eq_refl)].
    destruct (N.eqb c 10) eqn:E; [|exact (A eq_refl)]. apply N.eqb_eq in E. subst c. rewrite Y in H. discriminate H.
Qed.

Definition citem_eqb (a b : citem) : bool :=
  match a, b with CRange x y, CRange x' y' => N.eqb x x' && N.eqb y y' | CDigit, CDigit => true | CSpace, CSpace => true | _, _ => false end.
Fixpoint cls_eqb (a b : cls) : bool := match a, b with [], [] => true | x :: a', y :: b' => citem_eqb x y && cls_eqb a' b' | _, _ => false end.
Lemma cls_eqb_eq : forall a b, cls_eqb a b = true -> a = b.
Proof.
  intro a. induction a as [|x a IH]; intros [|y b] H; try discriminate H; [reflexivity|]. cbn [cls_eqb] in H. apply andb_prop in H. destruct H as [H1 H2].
  rewrite (IH _ H2). f_equal. destruct x as [p q| |], y as [p' q'| |]; try discriminate H1; try reflexivity.
  cbn [citem_eqb] in H1. apply andb_prop in H1. destruct H1 as [P Q]. apply N.eqb_eq in P, Q. congruence.
Qed.

(** What fits [a] fits [b]. *)
Fixpoint below (a b : list item) : bool :=
  match a with
  | AtStart :: a' => match b with AtStart :: b' => below a' b' | _ => below a' b end
  | Take x :: a' => match b with Take y :: b' => cls_eqb x y && below a' b' | [] => true | _ => false end
  | AtEnd :: a' => match b with AtEnd :: b' => below a' b' | [] => true | _ => false end
  | [] => match b with [] => true | _ => false end
  end.
Lemma below_ok : forall a b pos s, below a b = true -> walk a pos s <> None -> walk b pos s <> None.
Proof.
  intro a. induction a as [|i a IH]; intros b pos s H A.
  - destruct b as [|j b]; [exact A|discriminate H].
  - destruct i as [x| |]; cbn [below] in H.
    + destruct b as [|[y| |] b]; try discriminate H; [discriminate|]. cbn [walk] in *. apply andb_prop in H. destruct H as [H1 H2]. apply cls_eqb_eq in H1. subst y.
      destruct s as [|c s]; [exact A|]. destruct (in_cls c x); [|exact A]. exact (IH _ _ _ H2 A).
    + cbn [walk] in A. destruct (Nat.eqb pos 0) eqn:P; [|elim (A eq_refl)]. destruct b as [|[y| |] b]; try exact (IH _ _ _ H A).
      cbn [walk]. rewrite P. exact (IH _ _ _ H A).
    + destruct b as [|[y| |] b]; try discriminate H; [discriminate|]. cbn [walk] in *. destruct (at_end s); [|exact A]. exact (IH _ _ _ H A).
Qed.

Fixpoint spans_eqb (a b : spans) : bool :=
  match a, b with
  | [], [] => true
  | (n, (x, y)) :: a', (n', (x', y')) :: b' => String.eqb n n' && (Nat.eqb x x' && Nat.eqb y y') && spans_eqb a' b'
  | _, _ => false
  end.
Lemma spans_eqb_eq : forall a b, spans_eqb a b = true -> a = b.
Proof.
  intro a. induction a as [|[n [x y]] a IH]; intros [|[n' [x' y']] b] H; try discriminate H; [reflexivity|]. cbn [spans_eqb] in H.
  apply andb_prop in H. destruct H as [H H2]. apply andb_prop in H. destruct H as [H0 H1]. apply andb_prop in H1. destruct H1 as [X Y].
  apply String.eqb_eq in H0. apply Nat.eqb_eq in X, Y. rewrite (IH _ H2). congruence.
Qed.

(** Every two paths exclude each other, take the same groups, or the second is
    not the first of its pattern to fit where the first one fits. *)
Fixpoint agree_with (q1 : opath) (before l : list opath) : bool :=
  match l with
  | [] => true
  | q2 :: l' =>
      (if bar (loose (fst q1)) (loose (fst q2)) then true else if spans_eqb (snd q1) (snd q2) then true else existsb (fun q => below (fst q1) (fst q)) before)
      && agree_with q1 (q2 :: before) l'
  end.
Definition agree (r1 r2 : regex) : bool := starfree r1 && starfree r2 && forallb (fun q1 => agree_with q1 [] (opaths r2)) (opaths r1).

Lemma agree_with_ok : forall q1 l pre s, agree_with q1 pre l = true -> walk (fst q1) 0 s <> None ->
  forall before q2 after, l = before ++ q2 :: after -> Forall (fun q => walk (fst q) 0 s = None) pre -> Forall (fun q => walk (fst q) 0 s = None) before -> walk (fst q2) 0 s <> None -> snd q1 = snd q2.
Proof.
  intros q1 l. induction l as [|q l IH]; intros pre s H W1 before q2 after E Fp F W2; [destruct before; discriminate E|]. cbn [agree_with] in H. apply andb_prop in H. destruct H as [H H'].
  destruct before as [|b before].
  - cbn [app] in E. injection E as -> ->. destruct (bar (loose (fst q1)) (loose (fst q2))) eqn:H1; [exfalso; exact (bar_ok _ _ _ _ H1 (loose_ok _ _ _ W1) (loose_ok _ _ _ W2))|].
    destruct (spans_eqb (snd q1) (snd q2)) eqn:H2; [apply spans_eqb_eq; exact H2|].
    exfalso. apply existsb_exists in H. destruct H as (q & I & B). apply (below_ok _ _ _ _ B W1). exact (proj1 (Forall_forall _ _) Fp q I).
  - cbn [app] in E. injection E as -> ->. inversion F as [|? ? F0 F1]; subst. exact (IH (b :: pre) s H' W1 before q2 after eq_refl (Forall_cons _ F0 Fp) F1 W2).
Qed.

Theorem agree_ok : forall r1 r2 s m1 m2, agree r1 r2 = true -> re_match r1 s = Some m1 -> re_match r2 s = Some m2 -> m_spans m1 = m_spans m2.
Proof.
  intros r1 r2 s m1 m2 A M1 M2. unfold agree in A. apply andb_prop in A. destruct A as [A C]. apply andb_prop in A. destruct A as [F1 F2].
  unfold re_match in M1, M2. rewrite (run_opaths r1 0 s F1) in M1. rewrite (run_opaths r2 0 s F2) in M2.
  destruct (flat_map (took 0 s) (opaths r1)) as [|[[p1 t1] k1] l1] eqn:E1; [discriminate M1|]. injection M1 as <-.
  destruct (flat_map (took 0 s) (opaths r2)) as [|[[p2 t2] k2] l2] eqn:E2; [discriminate M2|]. injection M2 as <-. cbn [m_spans].
  destruct (first_path _ _ _ _ _ _ E1) as (b1 & q1 & a1 & Eq1 & W1 & -> & _). destruct (first_path _ _ _ _ _ _ E2) as (b2 & q2 & a2 & Eq2 & W2 & -> & B2).
  assert (I : In q1 (opaths r1)) by (rewrite Eq1; apply in_or_app; right; left; reflexivity).
  apply (proj1 (forallb_forall _ _) C) in I. exact (agree_with_ok _ _ _ _ I W1 b2 q2 a2 Eq2 (Forall_nil _) B2 W2).
Qed.
