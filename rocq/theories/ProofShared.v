(** * Words that no two patterns accept (C79) *)
From Coq Require Import String Ascii.
From Coq Require Import List NArith ZArith Bool Arith Lia.
From Verif Require Import PyBase PyRegex AeroRegex StrFacts RegexPaths ProofAgree SpecNum SpecGroups SpecGrammar SpecForeign SpecShared ProofMeans.
Import ListNotations.
Local Open Scope string_scope.
Local Open Scope nat_scope.
Local Open Scope list_scope.

(** ** Paths over sets of ASCII characters *)

(** A character of a set, given by its bits, or the end of the word. *)
Definition step := option N.
Fixpoint fit (p : list step) (w : str) : Prop :=
  match p with
  | [] => True
  | None :: _ => w = []
  | Some m :: p' => match w with c :: w' => N.testbit m c = true /\ fit p' w' | [] => False end
  end.
Definition set_range (a b : N) : N := N.shiftl (N.ones (b + 1 - a)) a.
Lemma set_range_ok : forall a b c, (a <= c)%N -> (c <= b)%N -> N.testbit (set_range a b) c = true.
Proof. intros a b c A B. unfold set_range. rewrite N.shiftl_spec_high' by exact A. apply N.ones_spec_low. lia. Qed.
Definition set_item (i : citem) : N := match i with CRange a b => set_range a b | CDigit => set_range 48 57 | CSpace => set_range 0 127 end.
Definition set_of (k : cls) : N := fold_right (fun i m => N.lor (set_item i) m) 0%N k.
Lemma set_of_ok : forall k c, (c < 128)%N -> in_cls c k = true -> N.testbit (set_of k) c = true.
Proof.
  intros k c L E. induction k as [|i k IH]; [discriminate E|]. unfold in_cls in E. cbn [existsb] in E. unfold set_of. cbn [fold_right]. rewrite N.lor_spec.
  apply orb_true_iff. apply orb_prop in E. destruct E as [E|E]; [left|right; exact (IH E)]. destruct i as [a b| |]; cbn [set_item in_citem] in *.
  - apply andb_prop in E. destruct E as [A B]. apply N.leb_le in A, B. exact (set_range_ok _ _ _ A B).
  - apply (digit_char c L) in E. destruct E as (d & D & ->). unfold dig. apply set_range_ok; lia.
  - apply set_range_ok; lia.
Qed.

Fixpoint ways (r : regex) : list (list step) :=
  match r with
  | Eps | Star _ | Bos => [[]]
  | Eos => [[None]]
  | Chr k => let m := set_of k in [[Some m]]
  | Seq a b => let wb := ways b in flat_map (fun p => map (fun q => p ++ q) wb) (ways a)
  | Alt a b => ways a ++ ways b
  | Grp _ r => ways r
  end.
(** The path leads from a word to the rest of it. *)
Fixpoint reach (p : list step) (w t : str) : Prop :=
  match p with
  | [] => w = t
  | None :: p' => w = [] /\ reach p' w t
  | Some m :: p' => match w with c :: w' => N.testbit m c = true /\ reach p' w' t | [] => False end
  end.
Lemma reach_app : forall p q w u t, reach p w u -> reach q u t -> reach (p ++ q) w t.
Proof.
  intro p. induction p as [|[m|] p IH]; intros q w u t P Q; cbn [reach app] in *.
  - subst w. exact Q.
  - destruct w as [|c w]; [exact P|]. destruct P as [B P]. split; [exact B|exact (IH _ _ _ _ P Q)].
  - destruct P as [E P]. split; [exact E|exact (IH _ _ _ _ P Q)].
Qed.
Lemma reach_fit : forall p w t, reach p w t -> fit p w.
Proof.
  intro p. induction p as [|[m|] p IH]; intros w t P; cbn [reach fit] in *; [exact I| |exact (proj1 P)].
  destruct w as [|c w]; [exact P|]. destruct P as [B P]. split; [exact B|exact (IH _ _ P)].
Qed.
Lemma run_ways : forall r pos w e t sp, starfree r = true -> typed w -> In (e, t, sp) (run r pos w) -> typed t /\ exists p, In p (ways r) /\ reach p w t.
Proof.
  intro r. induction r as [|k|a IHa b IHb|a IHa b IHb|k|n r IH| |]; intros pos w e t sp F T R; cbn [run ways starfree] in *.
  - destruct R as [R|[]]. injection R as <- <- <-. split; [exact T|]. exists []. split; [left|]; reflexivity.
  - destruct w as [|c w]; [destruct R|]. destruct (in_cls c k) eqn:E; [|destruct R]. destruct R as [R|[]]. injection R as <- <- <-.
    inversion T as [|? ? [L _] T']; subst. split; [exact T'|]. exists [Some (set_of k)]. split; [left; reflexivity|]. cbn [reach]. split; [exact (set_of_ok _ _ L E)|reflexivity].
  - apply andb_prop in F. destruct F as [Fa Fb]. apply in_flat_map in R. destruct R as ([[e1 t1] s1] & R1 & R2). apply in_map_iff in R2. destruct R2 as ([[e2 t2] s2] & Q & R2).
    injection Q as <- <- <-. destruct (IHa _ _ _ _ _ Fa T R1) as (T1 & p & I & P). destruct (IHb _ _ _ _ _ Fb T1 R2) as (T2 & q & J & Q). split; [exact T2|].
    exists (p ++ q). split; [|exact (reach_app _ _ _ _ _ P Q)]. apply in_flat_map. exists p. split; [exact I|]. apply in_map_iff. exists q. auto.
  - apply andb_prop in F. destruct F as [Fa Fb]. apply in_app_or in R. destruct R as [R|R].
    + destruct (IHa _ _ _ _ _ Fa T R) as (T1 & p & I & P). split; [exact T1|]. exists p. split; [apply in_or_app; left; exact I|exact P].
    + destruct (IHb _ _ _ _ _ Fb T R) as (T1 & p & I & P). split; [exact T1|]. exists p. split; [apply in_or_app; right; exact I|exact P].
  - discriminate F.
  - apply in_map_iff in R. destruct R as ([[e1 t1] s1] & Q & R). injection Q as <- <- <-. exact (IH _ _ _ _ _ F T R).
  - destruct (Nat.eqb pos 0); [|destruct R]. destruct R as [R|[]]. injection R as <- <- <-. split; [exact T|]. exists []. split; [left|]; reflexivity.
  - destruct (at_end w) eqn:E; [|destruct R]. destruct R as [R|[]]. injection R as <- <- <-. split; [exact T|]. exists [None]. split; [left; reflexivity|].
    cbn [reach]. split; [exact (typed_end _ T E)|reflexivity].
Qed.
Lemma ways_ok : forall r w, starfree r = true -> typed w -> accepts r w -> exists p, In p (ways r) /\ fit p w.
Proof.
  intros r w F T A. apply accepts_run in A. destruct A as ([[e t] sp] & R). destruct (run_ways _ _ _ _ _ _ F T R) as (_ & p & I & P).
  exists p. split; [exact I|exact (reach_fit _ _ _ P)].
Qed.

(** ** Paths gathered by their first step *)

Definition step_eqb (a b : step) : bool := match a, b with None, None => true | Some x, Some y => N.eqb x y | _, _ => false end.
Lemma step_eqb_eq : forall a b, step_eqb a b = true -> a = b.
Proof. intros [x|] [y|] H; try discriminate H; [apply N.eqb_eq in H; subst|]; reflexivity. Qed.
Fixpoint put (h : step) (t : list step) (l : list (step * list (list step))) : list (step * list (list step)) :=
  match l with
  | [] => [(h, [t])]
  | (h', ts) :: l' => if step_eqb h h' then (h', t :: ts) :: l' else (h', ts) :: put h t l'
  end.
Lemma put_in : forall h t l, exists ts, In (h, ts) (put h t l) /\ In t ts.
Proof.
  intros h t l. induction l as [|[h' ts] l IH]; cbn [put].
  - exists [t]. split; left; reflexivity.
  - destruct (step_eqb h h') eqn:E.
    + apply step_eqb_eq in E. subst h'. exists (t :: ts). split; left; reflexivity.
    + destruct IH as (ts' & I & J). exists ts'. split; [right; exact I|exact J].
Qed.
Lemma put_keeps : forall h t l h0 ts0 t0, In (h0, ts0) l -> In t0 ts0 -> exists ts, In (h0, ts) (put h t l) /\ In t0 ts.
Proof.
  intros h t l. induction l as [|[h' ts] l IH]; intros h0 ts0 t0 I J; [destruct I|]. cbn [put]. destruct (step_eqb h h') eqn:E.
  - destruct I as [I|I].
    + injection I as <- <-. exists (t :: ts). split; [left; reflexivity|right; exact J].
    + exists ts0. split; [right; exact I|exact J].
  - destruct I as [I|I].
    + injection I as <- <-. exists ts. split; [left; reflexivity|exact J].
    + destruct (IH _ _ _ I J) as (ts1 & I1 & J1). exists ts1. split; [right; exact I1|exact J1].
Qed.
(** [None] when a path ends without the end of the word. *)
Fixpoint gather (l : list (list step)) : option (list (step * list (list step))) :=
  match l with
  | [] => Some []
  | [] :: _ => None
  | (h :: t) :: l' => match gather l' with Some g => Some (put h t g) | None => None end
  end.
Lemma gather_ok : forall l g p, gather l = Some g -> In p l -> exists h t ts, p = h :: t /\ In (h, ts) g /\ In t ts.
Proof.
  intro l. induction l as [|q l IH]; intros g p G I; [destruct I|]. cbn [gather] in G. destruct q as [|h t]; [discriminate G|].
  destruct (gather l) as [g'|]; [|discriminate G]. injection G as <-. destruct I as [<-|I].
  - destruct (put_in h t g') as (ts & I & J). exists h, t, ts. auto.
  - destruct (IH _ _ eq_refl I) as (h0 & t0 & ts0 & -> & I0 & J0). destruct (put_keeps h t _ _ _ _ I0 J0) as (ts & I1 & J1). exists h0, t0, ts. auto.
Qed.

Fixpoint disjoint (fuel : nat) (l1 l2 : list (list step)) : bool :=
  match fuel with
  | O => false
  | S f =>
      match gather l1, gather l2 with
      | Some g1, Some g2 =>
          forallb (fun x => forallb (fun y =>
            match fst x, fst y with
            | None, None => false
            | Some m, Some m' => if N.eqb (N.land m m') 0 then true else disjoint f (snd x) (snd y)
            | _, _ => true
            end) g2) g1
      | _, _ => false
      end
  end.
Lemma disjoint_ok : forall f l1 l2 p1 p2 w, disjoint f l1 l2 = true -> In p1 l1 -> In p2 l2 -> fit p1 w -> fit p2 w -> False.
Proof.
  intro f. induction f as [|f IH]; intros l1 l2 p1 p2 w D I1 I2 F1 F2; [discriminate D|]. cbn [disjoint] in D.
  destruct (gather l1) as [g1|] eqn:G1; [|discriminate D]. destruct (gather l2) as [g2|] eqn:G2; [|discriminate D].
  destruct (gather_ok _ _ _ G1 I1) as (h1 & t1 & ts1 & -> & J1 & K1). destruct (gather_ok _ _ _ G2 I2) as (h2 & t2 & ts2 & -> & J2 & K2).
  apply (proj1 (forallb_forall _ _) D) in J1. apply (proj1 (forallb_forall _ _) J1) in J2. cbn [fst snd] in J2.
  destruct h1 as [m1|], h2 as [m2|]; cbn [fit] in F1, F2; try discriminate J2.
  - destruct w as [|c w]; [exact F1|]. destruct F1 as [B1 F1]. destruct F2 as [B2 F2]. destruct (N.eqb (N.land m1 m2) 0) eqn:E.
    + apply N.eqb_eq in E. pose proof (N.land_spec m1 m2 c) as L. rewrite E, B1, B2, N.bits_0 in L. discriminate L.
    + exact (IH _ _ _ _ _ J2 K1 K2 F1 F2).
  - subst w. exact F1.
  - subst w. exact F2.
Qed.

(** ** All pairs of a list but some *)

Definition at_places (i j : nat) (l : list (nat * nat)) : bool := existsb (fun p => Nat.eqb (fst p) i && Nat.eqb (snd p) j) l.
Fixpoint numbered {A} (i : nat) (l : list A) : list (nat * A) := match l with [] => [] | x :: l' => (i, x) :: numbered (S i) l' end.
Definition parted (but : list (nat * nat)) (l : list regex) : bool :=
  forallb starfree l
  && forallb (fun p => if at_places (fst (fst p)) (fst (snd p)) but then true else disjoint 40 (snd (fst p)) (snd (snd p))) (pairs (numbered 0 (map ways l))).

Lemma numbered_map : forall A B (f : A -> B) l i, numbered i (map f l) = map (fun x => (fst x, f (snd x))) (numbered i l).
Proof. intros A B f l. induction l as [|x l IH]; intro i; [reflexivity|]. cbn [map numbered fst snd]. rewrite IH. reflexivity. Qed.
Lemma pairs_map : forall A B (f : A -> B) l, pairs (map f l) = map (fun p => (f (fst p), f (snd p))) (pairs l).
Proof.
  intros A B f l. induction l as [|x l IH]; [reflexivity|]. cbn [map pairs]. rewrite map_app, IH, !map_map. reflexivity.
Qed.
Lemma numbered_snd : forall A (l : list A) i, map snd (numbered i l) = l.
Proof. intros A l. induction l as [|x l IH]; intro i; [reflexivity|]. cbn [numbered map snd]. rewrite IH. reflexivity. Qed.
Lemma numbered_nth : forall A (l : list A) i j x, In (j, x) (numbered i l) -> i <= j /\ nth_error l (j - i) = Some x.
Proof.
  intros A l. induction l as [|y l IH]; intros i j x I; [destruct I|]. cbn [numbered] in I. destruct I as [I|I].
  - injection I as <- <-. split; [lia|]. rewrite Nat.sub_diag. reflexivity.
  - destruct (IH _ _ _ I) as [L E]. split; [lia|]. replace (j - i) with (S (j - S i)) by lia. exact E.
Qed.
Lemma pairs_in : forall A (l : list A) x y, In (x, y) (pairs l) -> In x l /\ In y l.
Proof.
  intros A l x y. induction l as [|z l IH]; intro I; [destruct I|]. cbn [pairs] in I. apply in_app_or in I. destruct I as [I|I].
  - apply in_map_iff in I. destruct I as (w & E & I). injection E as <- <-. split; [left; reflexivity|right; exact I].
  - destruct (IH I) as [H1 H2]. split; right; assumption.
Qed.
Theorem parted_ok : forall but l r r' w, parted but l = true -> typed w -> In (r, r') (pairs l) -> accepts r w -> accepts r' w ->
  exists i j, In (i, j) but /\ nth_error l i = Some r /\ nth_error l j = Some r'.
Proof.
  intros but l r r' w P T I A A'. unfold parted in P. apply andb_prop in P. destruct P as [F P].
  rewrite <- (numbered_snd _ l 0), pairs_map in I. apply in_map_iff in I. destruct I as ([[i x] [j y]] & E & I). cbn [fst snd] in E. injection E as -> ->.
  pose proof (pairs_in _ _ _ _ I) as [J J']. destruct (numbered_nth _ _ _ _ _ J) as [_ N1]. destruct (numbered_nth _ _ _ _ _ J') as [_ N2]. rewrite Nat.sub_0_r in N1, N2.
  rewrite numbered_map, pairs_map in P.
  assert (Q : In ((i, ways r), (j, ways r')) (map (fun p => ((fst (fst p), ways (snd (fst p))), (fst (snd p), ways (snd (snd p))))) (pairs (numbered 0 l))))
    by (apply in_map_iff; exists ((i, r), (j, r')); split; [reflexivity|exact I]).
  apply (proj1 (forallb_forall _ _) P) in Q. cbn [fst snd] in Q. destruct (at_places i j but) eqn:B.
  - unfold at_places in B. apply existsb_exists in B. destruct B as ([a b] & IB & E). cbn [fst snd] in E. apply andb_prop in E. destruct E as [E1 E2]. apply Nat.eqb_eq in E1, E2. subst a b.
    exists i, j. auto.
  - exfalso. apply nth_error_In in N1, N2. apply (proj1 (forallb_forall _ _) F) in N1. apply (proj1 (forallb_forall _ _) F) in N2.
    destruct (ways_ok _ _ N1 T A) as (p & Ip & X). destruct (ways_ok _ _ N2 T A') as (p' & Ip' & X'). exact (disjoint_ok _ _ _ _ _ _ Q Ip Ip' X X').
Qed.

Definition metar_but : list (nat * nat) := [(1, 3); (1, 6); (1, 9); (1, 10); (1, 13); (6, 7); (6, 12); (7, 12)].
Definition taf_but : list (nat * nat) := [(0, 8); (2, 8); (2, 9); (2, 10); (3, 8); (5, 8); (7, 8); (8, 9)].
Lemma metar_parted : parted metar_but metar_patterns = true. Proof. vm_compute. reflexivity. Qed.
Lemma taf_parted : parted taf_but taf_patterns = true. Proof. vm_compute. reflexivity. Qed.
Lemma trend_parted : parted [] trend_patterns = true. Proof. vm_compute. reflexivity. Qed.
Lemma change_parted : parted [] change_patterns = true. Proof. vm_compute. reflexivity. Qed.
