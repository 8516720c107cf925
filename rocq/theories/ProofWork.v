(** * Matching takes few steps (C75): the patterns *)
From Coq Require Import String Ascii.
From Coq Require Import List NArith ZArith Bool Lia.
From Verif Require Import PyBase PyRegex AeroRegex Utils Base StrFacts RegexPaths SpecWork.
Import ListNotations.
Local Open Scope string_scope.
Local Open Scope nat_scope.
Local Open Scope list_scope.

(** ** The engine finds what the model finds *)

Fixpoint firsts {A X} (f : A -> option X) (l : list A) : option X :=
  match l with [] => None | a :: l' => match f a with Some x => Some x | None => firsts f l' end end.

Lemma firsts_app : forall A X (f : A -> option X) l l', firsts f (l ++ l') = match firsts f l with Some x => Some x | None => firsts f l' end.
Proof. intros A X f l l'. induction l as [|a l IH]; [reflexivity|]. cbn [app firsts]. destruct (f a); [reflexivity|exact IH]. Qed.
Lemma firsts_map : forall A B X (f : B -> option X) (g : A -> B) l, firsts f (map g l) = firsts (fun a => f (g a)) l.
Proof. intros A B X f g l. induction l as [|a l IH]; [reflexivity|]. cbn [map firsts]. rewrite IH. reflexivity. Qed.
Lemma firsts_ext : forall A X (f g : A -> option X) l, (forall a, f a = g a) -> firsts f l = firsts g l.
Proof. intros A X f g l H. induction l as [|a l IH]; [reflexivity|]. cbn [firsts]. rewrite H, IH. reflexivity. Qed.
Lemma firsts_flat : forall A B X (f : B -> option X) (g : A -> list B) l, firsts f (flat_map g l) = firsts (fun a => firsts f (g a)) l.
Proof. intros A B X f g l. induction l as [|a l IH]; [reflexivity|]. cbn [flat_map firsts]. rewrite firsts_app, IH. reflexivity. Qed.

Definition hand {X} (sp : spans) (next : nat -> str -> spans -> option X * nat) (x : nat * str * spans) : option X * nat :=
  next (fst (fst x)) (snd (fst x)) (snd x ++ sp).

Lemma fst_orelse : forall X (a b : option X * nat), fst (orelse a b) = match fst a with Some x => Some x | None => fst b end.
Proof. intros X [[x|] n] b; reflexivity. Qed.

Lemma star_finds : forall X k s pos sp (next : nat -> str -> spans -> option X * nat),
  fst (engine_star k pos s sp next) = firsts (fun x => fst (hand sp next x)) (run_star k pos s).
Proof.
  intros X k s. induction s as [|c s IH]; intros pos sp next; cbn [engine_star run_star].
  - unfold hand; cbn [firsts tick fst snd app]. destruct (fst (next pos [] sp)); reflexivity.
  - destruct (in_cls c k).
    + cbn [tick fst]. rewrite fst_orelse, IH, firsts_app. destruct (firsts _ (run_star k (S pos) s)); [reflexivity|].
      unfold hand; cbn [firsts fst snd app]. destruct (fst (next pos (c :: s) sp)); reflexivity.
    + unfold hand; cbn [firsts tick fst snd app]. destruct (fst (next pos (c :: s) sp)); reflexivity.
Qed.

Lemma engine_finds : forall X r pos s sp (next : nat -> str -> spans -> option X * nat),
  fst (engine r pos s sp next) = firsts (fun x => fst (hand sp next x)) (run r pos s).
Proof.
  intros X r. induction r as [|k|a IHa b IHb|a IHa b IHb|k|n a IHa| |]; intros pos s sp next; cbn [engine run].
  - unfold hand; cbn [firsts tick fst snd app]. destruct (fst (next pos s sp)); reflexivity.
  - destruct s as [|c s]; [reflexivity|]. destruct (in_cls c k); [|reflexivity].
    unfold hand; cbn [firsts tick fst snd app]. destruct (fst (next (S pos) s sp)); reflexivity.
  - cbn [tick fst]. rewrite IHa, firsts_flat. apply firsts_ext. intros [[p t] k]. unfold hand at 1. cbn [fst snd].
    rewrite IHb, firsts_map. apply firsts_ext. intros [[p2 t2] k2]. unfold hand. cbn [fst snd]. rewrite app_assoc. reflexivity.
  - cbn [tick fst]. rewrite fst_orelse, IHa, IHb, firsts_app. reflexivity.
  - apply star_finds.
  - cbn [tick fst]. rewrite IHa, firsts_map. apply firsts_ext. intros [[p t] k]. reflexivity.
  - destruct (Nat.eqb pos 0); [|reflexivity]. unfold hand; cbn [firsts tick fst snd app]. destruct (fst (next pos s sp)); reflexivity.
  - destruct (at_end s); [|reflexivity]. unfold hand; cbn [firsts tick fst snd app]. destruct (fst (next pos s sp)); reflexivity.
Qed.

Lemma found_run : forall r pos s, found r pos s = match run r pos s with (e, _, sp) :: _ => Some (e, sp) | [] => None end.
Proof.
  intros r pos s. unfold found, attempt. rewrite engine_finds. destruct (run r pos s) as [|[[e t] sp] l]; [reflexivity|].
  unfold hand; cbn [firsts fst snd]. rewrite app_nil_r. reflexivity.
Qed.

(** ** Counting *)

(** Texts a class cannot share with another. *)
Definition apart (k c : cls) : bool :=
  forallb (fun i => match i with CRange a b => N.eqb a b && negb (in_cls a c) | _ => false end) k
  || forallb (fun i => match i with CRange a b => N.eqb a b && negb (in_cls a k) | _ => false end) c
  || forallb (fun i => forallb (fun j => match i, j with CRange a b, CRange a' b' => ((b <? a') || (b' <? a))%N | _, _ => false end) c) k.

Lemma single_out : forall k c x, forallb (fun i => match i with CRange a b => N.eqb a b && negb (in_cls a c) | _ => false end) k = true ->
  in_cls x k = true -> in_cls x c = true -> False.
Proof.
  intros k c x H K C. unfold in_cls at 1 in K. apply existsb_exists in K. destruct K as (i & I & E).
  apply (proj1 (forallb_forall _ _) H) in I. destruct i as [a b| |]; try discriminate I.
  apply andb_prop in I. destruct I as [I1 I2]. apply N.eqb_eq in I1. subst b. cbn [in_citem] in E.
  apply andb_prop in E. destruct E as [E1 E2]. apply N.leb_le in E1, E2. assert (x = a) by lia. subst x. rewrite C in I2. discriminate I2.
Qed.

Lemma apart_ok : forall k c x, apart k c = true -> in_cls x k = true -> in_cls x c = true -> False.
Proof.
  intros k c x H K C. unfold apart in H. rewrite !orb_true_iff in H. destruct H as [[H|H]|H].
  - exact (single_out _ _ _ H K C).
  - exact (single_out _ _ _ H C K).
  - unfold in_cls in K, C. apply existsb_exists in K. destruct K as (i & I & E). apply existsb_exists in C. destruct C as (j & J & F).
    apply (proj1 (forallb_forall _ _) H) in I. apply (proj1 (forallb_forall _ _) I) in J.
    destruct i as [a b| |]; try discriminate J. destruct j as [a' b'| |]; try discriminate J. cbn [in_citem] in E, F.
    apply andb_prop in E, F. destruct E as [E1 E2]. destruct F as [F1 F2]. apply N.leb_le in E1, E2, F1, F2.
    apply orb_prop in J. destruct J as [J|J]; apply N.ltb_lt in J; lia.
Qed.

(** The classes of the first characters of every text a pattern accepts. *)
Fixpoint fixed (r : regex) : bool :=
  match r with Chr _ | Bos | Eos | Eps => true | Seq a b => fixed a && fixed b | Grp _ a => fixed a | _ => false end.
Fixpoint starts (r : regex) : list cls :=
  match r with Chr k => [k] | Seq a b => starts a ++ (if fixed a then starts b else []) | Grp _ a => starts a | _ => [] end.

Fixpoint fits (l : list cls) (s : str) : Prop :=
  match l, s with [] , _ => True | k :: l', c :: s' => in_cls c k = true /\ fits l' s' | _ :: _, [] => False end.

Lemma fits_app : forall l l' s, fits l s -> fits l' (skipn (length l) s) -> fits (l ++ l') s.
Proof.
  intro l. induction l as [|k l IH]; intros l' s H K; [exact K|]. destruct s as [|c s]; [destruct H|]. destruct H as [H1 H2].
  cbn [app fits]. split; [exact H1|]. apply IH; [exact H2|exact K].
Qed.

Lemma skipn_more : forall A (l : list A) a b, skipn a (skipn b l) = skipn (b + a) l.
Proof.
  intros A l a b. revert l. induction b as [|b IH]; intro l; [reflexivity|]. destruct l as [|x l]; [cbn; apply skipn_nil|]. apply IH.
Qed.

Lemma starts_ok : forall r pos s p t k, In (p, t, k) (run r pos s) -> fits (starts r) s /\ (fixed r = true -> t = skipn (length (starts r)) s).
Proof.
  intro r. induction r as [|c|a IHa b IHb|a IHa b IHb|c|n a IHa| |]; intros pos s p t k H; cbn [run starts fixed] in *.
  - destruct H as [H|[]]. injection H as <- <- <-. split; [exact I|reflexivity].
  - destruct s as [|x s]; [destruct H|]. destruct (in_cls x c) eqn:E; [|destruct H]. destruct H as [H|[]]. injection H as <- <- <-.
    split; [split; [exact E|exact I]|reflexivity].
  - apply in_flat_map in H. destruct H as ([[p1 t1] k1] & H1 & H). apply in_map_iff in H. destruct H as ([[p2 t2] k2] & E & H2). injection E as <- <- <-.
    destruct (IHa _ _ _ _ _ H1) as [A1 A2]. destruct (IHb _ _ _ _ _ H2) as [B1 B2]. destruct (fixed a).
    + specialize (A2 eq_refl). subst t1. split; [apply fits_app; assumption|]. intro F. rewrite (B2 F), skipn_more, app_length. reflexivity.
    + rewrite app_nil_r. split; [exact A1|discriminate].
  - split; [exact I|discriminate].
  - split; [exact I|discriminate].
  - apply in_map_iff in H. destruct H as ([[p1 t1] k1] & E & H1). injection E as <- <- <-. exact (IHa _ _ _ _ _ H1).
  - destruct (Nat.eqb pos 0); [|destruct H]. destruct H as [H|[]]. injection H as <- <- <-. split; [exact I|reflexivity].
  - destruct (at_end s); [|destruct H]. destruct H as [H|[]]. injection H as <- <- <-. split; [exact I|reflexivity].
Qed.

Fixpoint clash (a b : list cls) : bool := match a, b with x :: a', y :: b' => apart x y || clash a' b' | _, _ => false end.
Lemma clash_ok : forall a b s, clash a b = true -> fits a s -> fits b s -> False.
Proof.
  intro a. induction a as [|x a IH]; intros [|y b] s H A B; try discriminate H. destruct s as [|c s]; [destruct A|].
  cbn [clash] in H. apply orb_prop in H. destruct A as [A1 A2]. destruct B as [B1 B2]. destruct H as [H|H]; [exact (apart_ok _ _ _ H A1 B1)|exact (IH _ _ H A2 B2)].
Qed.

Fixpoint arms (r : regex) : list regex := match r with Alt a b => arms a ++ arms b | Grp _ a => arms a | _ => [r] end.
Lemma arms_ok : forall r pos s x, In x (run r pos s) -> exists a, In a (arms r) /\ run a pos s <> [].
Proof.
  intro r. induction r as [|c|a IHa b IHb|a IHa b IHb|c|n a IHa| |]; intros pos s x H; cbn [arms];
    try (eexists; split; [left; reflexivity|]; intro E; rewrite E in H; destruct H).
  - cbn [run] in H. apply in_app_or in H. destruct H as [H|H].
    + destruct (IHa _ _ _ H) as (r & I & R). exists r. split; [apply in_or_app; left; exact I|exact R].
    + destruct (IHb _ _ _ H) as (r & I & R). exists r. split; [apply in_or_app; right; exact I|exact R].
  - cbn [run] in H. apply in_map_iff in H. destruct H as (y & _ & H). exact (IHa _ _ _ H).
Qed.

Definition either (a b : regex) : bool := forallb (fun x => forallb (fun y => clash (starts x) (starts y)) (arms b)) (arms a).
Lemma either_ok : forall a b pos s, either a b = true -> run a pos s = [] \/ run b pos s = [].
Proof.
  intros a b pos s H. destruct (run a pos s) as [|x l] eqn:A; [left; reflexivity|]. destruct (run b pos s) as [|y l'] eqn:B; [right; reflexivity|]. exfalso.
  destruct (arms_ok a pos s x) as (ra & Ia & Ra); [rewrite A; left; reflexivity|].
  destruct (arms_ok b pos s y) as (rb & Ib & Rb); [rewrite B; left; reflexivity|].
  apply (proj1 (forallb_forall _ _) H) in Ia. apply (proj1 (forallb_forall _ _) Ia) in Ib.
  destruct (run ra pos s) as [|[[p t] k] m] eqn:E; [contradiction|]. destruct (run rb pos s) as [|[[p' t'] k'] m'] eqn:E'; [contradiction|].
  destruct (starts_ok ra pos s p t k) as [Fa _]; [rewrite E; left; reflexivity|].
  destruct (starts_ok rb pos s p' t' k') as [Fb _]; [rewrite E'; left; reflexivity|].
  exact (clash_ok _ _ _ Ib Fa Fb).
Qed.

(** How many ways a pattern can match, and how many steps it can take. *)
Fixpoint ways (r : regex) : nat :=
  match r with
  | Seq a b => ways a * ways b
  | Alt a b => if either a b then Nat.max (ways a) (ways b) else ways a + ways b
  | Grp _ a => ways a
  | _ => 1
  end.
Fixpoint size (r : regex) : nat :=
  match r with
  | Seq a b => S (size a + ways a * size b)
  | Alt a b => S (size a + size b)
  | Grp _ a => S (size a)
  | _ => 1
  end.

Lemma ways_ok : forall r pos s, starfree r = true -> length (run r pos s) <= ways r.
Proof.
  intro r. induction r as [|c|a IHa b IHb|a IHa b IHb|c|n a IHa| |]; intros pos s F; cbn [run ways starfree] in *.
  - apply le_n.
  - destruct s as [|x s]; [cbn; lia|]. destruct (in_cls x c); cbn; lia.
  - apply andb_prop in F. destruct F as [Fa Fb].
    assert (K : forall l, length (flat_map (fun '(p1, s1, k1) => map (fun '(p2, s2, k2) => (p2, s2, k2 ++ k1)) (run b p1 s1)) l) <= length l * ways b).
    { intro l. induction l as [|[[p t] k] l IH]; [apply le_n|]. cbn [flat_map length Nat.mul]. rewrite app_length, map_length.
      apply Nat.add_le_mono; [exact (IHb p t Fb)|exact IH]. }
    eapply Nat.le_trans; [apply K|]. apply Nat.mul_le_mono_r. apply IHa. exact Fa.
  - apply andb_prop in F. destruct F as [Fa Fb]. rewrite app_length. specialize (IHa pos s Fa). specialize (IHb pos s Fb).
    destruct (either a b) eqn:E; [|lia]. destruct (either_ok a b pos s E) as [Z|Z]; rewrite Z in *; cbn [length] in *; lia.
  - discriminate F.
  - rewrite map_length. apply IHa. exact F.
  - destruct (Nat.eqb pos 0); cbn; lia.
  - destruct (at_end s); cbn; lia.
Qed.

Definition cost {X} (sp : spans) (next : nat -> str -> spans -> option X * nat) (l : list (nat * str * spans)) : nat :=
  list_sum (map (fun x => snd (hand sp next x)) l).

Lemma cost_app : forall X sp (next : nat -> str -> spans -> option X * nat) l l', cost sp next (l ++ l') = cost sp next l + cost sp next l'.
Proof. intros X sp next l l'. unfold cost. rewrite map_app, list_sum_app. reflexivity. Qed.

Lemma snd_orelse : forall X (a b : option X * nat), snd (orelse a b) <= snd a + snd b.
Proof. intros X [[x|] n] b; cbn; lia. Qed.

Lemma engine_size : forall X r pos s sp (next : nat -> str -> spans -> option X * nat), starfree r = true ->
  snd (engine r pos s sp next) <= size r + cost sp next (run r pos s).
Proof.
  intros X r. induction r as [|c|a IHa b IHb|a IHa b IHb|c|n a IHa| |]; intros pos s sp next F; cbn [engine run size starfree] in *.
  - unfold cost, hand. cbn [map list_sum fold_right tick fst snd app]. lia.
  - destruct s as [|x s]; [cbn [snd]; lia|]. destruct (in_cls x c); [|cbn [snd]; lia]. unfold cost, hand. cbn [map list_sum fold_right tick fst snd app]. lia.
  - apply andb_prop in F. destruct F as [Fa Fb]. cbn [tick snd].
    pose proof (IHa pos s sp (fun p t sp' => engine b p t sp' next) Fa) as HA. pose proof (ways_ok a pos s Fa) as W.
    assert (K : forall l, cost sp (fun p t sp' => engine b p t sp' next) l
      <= length l * size b + cost sp next (flat_map (fun '(p1, s1, k1) => map (fun '(p2, s2, k2) => (p2, s2, k2 ++ k1)) (run b p1 s1)) l)).
    { intro l. induction l as [|[[p t] k] l IH]; [cbn; lia|]. cbn [flat_map length Nat.mul]. rewrite cost_app.
      change (cost sp (fun p0 t0 sp' => engine b p0 t0 sp' next) ((p, t, k) :: l))
        with (snd (engine b p t (k ++ sp) next) + cost sp (fun p0 t0 sp' => engine b p0 t0 sp' next) l).
      pose proof (IHb p t (k ++ sp) next Fb) as HB.
      assert (E : cost sp next (map (fun '(p2, s2, k2) => (p2, s2, k2 ++ k)) (run b p t)) = cost (k ++ sp) next (run b p t)).
      { unfold cost. rewrite map_map. f_equal. apply map_ext. intros [[p2 t2] k2]. unfold hand. cbn [fst snd]. rewrite app_assoc. reflexivity. }
      rewrite E. clear E. match goal with |- ?x + ?y <= ?z + ?w + (?u + ?v) => change (y <= w + v) in IH end. lia. }
    specialize (K (run a pos s)). assert (length (run a pos s) * size b <= ways a * size b) by (apply Nat.mul_le_mono_r; exact W). lia.
  - apply andb_prop in F. destruct F as [Fa Fb]. rewrite cost_app. cbn [tick snd]. pose proof (snd_orelse X (engine a pos s sp next) (engine b pos s sp next)).
    specialize (IHa pos s sp next Fa). specialize (IHb pos s sp next Fb). lia.
  - discriminate F.
  - cbn [tick snd]. specialize (IHa pos s sp (fun p t sp' => next p t ((n, (pos, p)) :: sp')) F).
    assert (E : cost sp next (map (fun '(p1, s1, k1) => (p1, s1, (n, (pos, p1)) :: k1)) (run a pos s))
      = cost sp (fun p t sp' => next p t ((n, (pos, p)) :: sp')) (run a pos s)).
    { unfold cost. rewrite map_map. f_equal. apply map_ext. intros [[p t] k]. reflexivity. }
    rewrite E. lia.
  - destruct (Nat.eqb pos 0); [|cbn; lia]. unfold cost, hand. cbn [map list_sum fold_right tick fst snd app]. lia.
  - destruct (at_end s); [|cbn; lia]. unfold cost, hand. cbn [map list_sum fold_right tick fst snd app]. lia.
Qed.

Lemma cost_bound : forall X sp (next : nat -> str -> spans -> option X * nat) C l, (forall p t k, snd (next p t k) <= C) -> cost sp next l <= length l * C.
Proof.
  intros X sp next C l H. induction l as [|x l IH]; [apply le_n|]. cbn [length Nat.mul].
  change (cost sp next (x :: l)) with (snd (hand sp next x) + cost sp next l). pose proof (H (fst (fst x)) (snd (fst x)) (snd x ++ sp)). unfold hand. lia.
Qed.

Lemma steps_size : forall r pos s, starfree r = true -> steps r pos s <= size r.
Proof.
  intros r pos s F. unfold steps, attempt. eapply Nat.le_trans; [apply engine_size; exact F|].
  pose proof (cost_bound _ [] (fun p (_ : str) sp => (Some (p, sp), 0)) 0 (run r pos s) (fun _ _ _ => le_n 0)). lia.
Qed.

Lemma engine_bound : forall X r pos s sp (next : nat -> str -> spans -> option X * nat) C, starfree r = true -> (forall p t k, snd (next p t k) <= C) ->
  snd (engine r pos s sp next) <= size r + ways r * C.
Proof.
  intros X r pos s sp next C F H. eapply Nat.le_trans; [apply engine_size; exact F|]. pose proof (cost_bound _ sp next C (run r pos s) H).
  pose proof (Nat.mul_le_mono_r _ _ C (ways_ok r pos s F)). lia.
Qed.

(** ** Searching and replacing *)

Lemma run_shorter : forall r pos s p t k, In (p, t, k) (run r pos s) -> pos <= p /\ p + length t = pos + length s.
Proof.
  intro r. induction r as [|c|a IHa b IHb|a IHa b IHb|c|n a IHa| |]; intros pos s p t k H; cbn [run] in H.
  - destruct H as [H|[]]. injection H as <- <- <-. lia.
  - destruct s as [|x s]; [destruct H|]. destruct (in_cls x c); [|destruct H]. destruct H as [H|[]]. injection H as <- <- <-. cbn [length]. lia.
  - apply in_flat_map in H. destruct H as ([[p1 t1] k1] & H1 & H). apply in_map_iff in H. destruct H as ([[p2 t2] k2] & E & H2). injection E as <- <- <-.
    apply IHa in H1. apply IHb in H2. lia.
  - apply in_app_or in H. destruct H as [H|H]; [apply IHa in H|apply IHb in H]; exact H.
  - revert pos H. induction s as [|x s IH]; intros pos H; cbn [run_star] in H.
    + destruct H as [H|[]]. injection H as <- <- <-. lia.
    + destruct (in_cls x c).
      * apply in_app_or in H. destruct H as [H|[H|[]]]; [apply IH in H; cbn [length]; lia|]. injection H as <- <- <-. lia.
      * destruct H as [H|[]]. injection H as <- <- <-. lia.
  - apply in_map_iff in H. destruct H as ([[p1 t1] k1] & E & H1). injection E as <- <- <-. exact (IHa _ _ _ _ _ H1).
  - destruct (Nat.eqb pos 0); [|destruct H]. destruct H as [H|[]]. injection H as <- <- <-. lia.
  - destruct (at_end s); [|destruct H]. destruct H as [H|[]]. injection H as <- <- <-. lia.
Qed.

Lemma search_size : forall r K s pos, (forall p t, steps r p t <= K) -> search_steps r pos s <= K * S (length s).
Proof.
  intros r K s. induction s as [|c s IH]; intros pos H; cbn [search_steps length].
  - pose proof (H pos []). destruct (found r pos []); lia.
  - pose proof (H pos (c :: s)). specialize (IH (S pos) H). destruct (found r pos (c :: s)); nia.
Qed.

(** Replacing, for patterns that pay for what they take. *)
Definition pays (r : regex) (K : nat) : Prop := forall p t,
  match found r p t with Some (e, _) => p < e /\ steps r p t <= K * (e - p) | None => steps r p t <= K end.

Lemma sub_pays : forall r K s cnt pos skip, pays r K -> sub_steps r cnt pos skip s <= K * S (length s - skip).
Proof.
  intros r K s. induction s as [|c s IH]; intros cnt pos skip H.
  - cbn [sub_steps length]. destruct skip as [|k]; [|lia]. pose proof (H pos []) as Q.
    assert (steps r pos [] <= K).
    { rewrite found_run in Q. destruct (run r pos []) as [|[[e t] sp] l] eqn:E; [exact Q|]. exfalso.
      destruct Q as [Q _]. pose proof (run_shorter r pos [] e t sp) as R. rewrite E in R. specialize (R (or_introl eq_refl)). cbn in R. lia. }
    destruct cnt as [[|n]|]; lia.
  - cbn [sub_steps length]. destruct skip as [|k].
    + pose proof (H pos (c :: s)) as Q.
      assert (B : steps r pos (c :: s) + match found r pos (c :: s) with
        | Some (e, _) => sub_steps r match cnt with Some (S n) => Some n | _ => cnt end (S pos) (e - pos - 1) s
        | None => sub_steps r cnt (S pos) 0 s end <= K * S (S (length s) - 0)).
      { pose proof (found_run r pos (c :: s)) as FR. destruct (found r pos (c :: s)) as [[e sp]|].
        - destruct Q as [Q1 Q2].
          assert (Q3 : e - pos <= S (length s)).
          { destruct (run r pos (c :: s)) as [|[[e' t] sp'] l] eqn:E; [discriminate FR|]. injection FR as -> ->.
            pose proof (run_shorter r pos (c :: s) e' t sp') as R. rewrite E in R. specialize (R (or_introl eq_refl)). cbn [length] in R. lia. } pose proof (IH (match cnt with Some (S n) => Some n | _ => cnt end) (S pos) (e - pos - 1) H) as R.
          replace (S (S (length s) - 0)) with ((e - pos) + S (length s - (e - pos - 1))) by lia. rewrite Nat.mul_add_distr_l. lia.
        - pose proof (IH cnt (S pos) 0 H) as R. nia. }
      destruct cnt as [[|n]|]; [lia|exact B|exact B].
    + pose proof (IH cnt (S pos) k H) as R. cbn [Nat.sub]. exact R.
Qed.
