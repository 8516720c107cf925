(** * Which exceptions the groups can raise *)
From Coq Require Import String Ascii.
From Coq Require Import List NArith ZArith Bool Lia.
From Verif Require Import PyBase PyRegex AeroRegex PyFloat PyTime Utils Base MetarGroups Trend
  SpecNum SpecTime SpecFailures SymRegex StrFacts RegexPaths Captures DigitFacts ReprFacts FloatFacts
  SpecGroups ProofGroups ProofValues TimeFacts.
Import ListNotations.
Local Open Scope string_scope.
Local Open Scope nat_scope.
Local Open Scope list_scope.

(** ** Results that satisfy [Q] or raise an exception satisfying [P] *)

Definition outcome {A} (P : exn -> Prop) (Q : A -> Prop) (r : result A) : Prop :=
  match r with Ok a => Q a | Raise e => P e end.

Lemma outcome_bind : forall A B (P : exn -> Prop) (Q : A -> Prop) (R : B -> Prop) (r : result A) (f : A -> result B),
  outcome P Q r -> (forall a, Q a -> outcome P R (f a)) -> outcome P R (bind r f).
Proof. intros A B P Q R [a|e] f H K; cbn in *; auto. Qed.

Lemma outcome_weaken : forall A (P P' : exn -> Prop) (Q Q' : A -> Prop) r,
  outcome P Q r -> (forall e, P e -> P' e) -> (forall a, Q a -> Q' a) -> outcome P' Q' r.
Proof. intros A P P' Q Q' [a|e] H HP HQ; cbn in *; auto. Qed.

Definition never : exn -> Prop := fun _ => False.
Definition any {A} : A -> Prop := fun _ => True.

(** ** Classes *)

Definition single_cls (l : list N) (k : cls) : bool :=
  forallb (fun i => match i with CRange a b => (a =? b)%N && existsb (N.eqb a) l | _ => false end) k.

Lemma in_single : forall l k c, single_cls l k = true -> in_cls c k = true -> In c l.
Proof.
  intros l k c H C. unfold in_cls in C. apply existsb_exists in C. destruct C as (i & I & C).
  unfold single_cls in H. rewrite forallb_forall in H. specialize (H i I). destruct i as [a b| |]; try discriminate.
  apply andb_true_iff in H. destruct H as [E H]. apply N.eqb_eq in E. subst b. cbn in C.
  apply andb_true_iff in C. destruct C as [C1 C2]. apply N.leb_le in C1, C2. assert (c = a) by lia. subst c.
  apply existsb_exists in H. destruct H as (x & Hx & E). apply N.eqb_eq in E. subst x. exact Hx.
Qed.

(** The group spells one of the given words. *)
Fixpoint spells (w : str) (ks : list cls) : bool :=
  match w, ks with
  | [], [] => true
  | c :: w', k :: ks' => single_cls [c] k && spells w' ks'
  | _, _ => false
  end.

Lemma spells_ok : forall w ks x, spells w ks = true -> along x ks -> x = w.
Proof.
  induction w as [|c w IH]; intros [|k ks] x H A; try discriminate.
  - apply along_nil in A. exact A.
  - cbn in H. apply andb_true_iff in H. destruct H as [H1 H2]. apply along_cons in A.
    destruct A as (d & x' & -> & Hd & A). f_equal; [|exact (IH ks x' H2 A)].
    destruct (in_single [c] k d H1 Hd) as [E|[]]. auto.
Qed.

(** ** Positions *)

Lemma contains_substr : forall x b e, contains x (substr x b e).
Proof.
  intros x b e. exists (firstn b x), (skipn (e - b) (skipn b x)). unfold substr.
  rewrite firstn_skipn, firstn_skipn. reflexivity.
Qed.
Lemma contains_left : forall s t x, contains s x -> contains (s ++ t) x.
Proof. intros s t x (a & b & ->). exists a, (b ++ t). rewrite <- !app_assoc. reflexivity. Qed.
Lemma contains_right : forall s t x, contains t x -> contains (s ++ t) x.
Proof. intros s t x (a & b & ->). exists (s ++ a), b. rewrite <- !app_assoc. reflexivity. Qed.

Lemma substr_cat : forall x b c e, b <= c -> c <= e -> substr x b c ++ substr x c e = substr x b e.
Proof.
  intros x b c e H1 H2. unfold substr. replace (skipn c x) with (skipn (c - b) (skipn b x)).
  - generalize (skipn b x). intros y. replace (e - b) with ((c - b) + (e - c)) by lia.
    generalize (c - b) (e - c). clear. intros n m. revert y. induction n as [|n IH]; intros y; [reflexivity|].
    destruct y as [|a y]; [rewrite skipn_nil, !firstn_nil; reflexivity|]. cbn. f_equal. apply IH.
  - replace c with (b + (c - b)) at 2 by lia. generalize (c - b). intros n. revert x.
    clear. induction b as [|b IH]; intros x; [reflexivity|]. destruct x as [|a x]; [rewrite !skipn_nil; reflexivity|].
    cbn. apply IH.
Qed.

(** Two groups that are next to each other along every path where both take part. *)
Definition linked (n1 n2 : string) (r : regex) : bool :=
  forallb (fun q => match span_of n1 (snd q), span_of n2 (snd q) with
                    | Some (b1, e1), Some (b2, e2) => Nat.eqb e1 b2
                    | _, _ => true
                    end) (cpaths r).

Lemma linked_contains : forall n1 n2 r s m x1 x2, starfree r = true -> linked n1 n2 r = true ->
  re_match r s = Some m -> group m n1 = Some x1 -> group m n2 = Some x2 -> contains s (x1 ++ x2).
Proof.
  intros n1 n2 r s m x1 x2 F L H G1 G2. destruct (match_follows r s m F H) as (q & x & t & I & Fo).
  destruct Fo as (-> & _ & A & G). rewrite G in G1, G2. unfold linked in L. rewrite forallb_forall in L. specialize (L q I).
  destruct (span_of n1 (snd q)) as [[b1 e1]|] eqn:E1; [|discriminate].
  destruct (span_of n2 (snd q)) as [[b2 e2]|] eqn:E2; [|discriminate].
  apply Nat.eqb_eq in L. subst b2. injection G1 as <-. injection G2 as <-.
  apply span_of_in in E1, E2. pose proof (proj1 (Forall_forall _ _) (cpaths_in r q I) _ E1) as K1.
  pose proof (proj1 (Forall_forall _ _) (cpaths_in r q I) _ E2) as K2. unfold span_in in K1, K2. cbn in K1, K2.
  apply contains_left. rewrite substr_cat by lia. apply contains_substr.
Qed.

(** The first group is there whenever the second one is. *)
Definition needs (n1 n2 : string) (r : regex) : bool :=
  forallb (fun q => match cgroup q n1, cgroup q n2 with None, Some _ => false | _, _ => true end) (cpaths r).

Lemma needs_some : forall n1 n2 r s m x2, starfree r = true -> needs n1 n2 r = true ->
  re_match r s = Some m -> group m n2 = Some x2 -> exists x1, group m n1 = Some x1.
Proof.
  intros n1 n2 r s m x2 F L H G. destruct (match_follows r s m F H) as (q & x & t & I & Fo).
  pose proof (follows_group s m q x t n1 Fo) as G1. pose proof (follows_group s m q x t n2 Fo) as G2.
  unfold needs in L. rewrite forallb_forall in L. specialize (L q I).
  destruct (cgroup q n1) as [k1|]; [destruct G1 as (c & G1 & _); exists c; exact G1|].
  destruct (cgroup q n2); [discriminate|congruence].
Qed.

Lemma all_digits_reads : forall x, all_digits x -> x <> [] -> exists n, reads x n.
Proof. intros x D N. destruct (digits_val_some x 0%N D) as (n & E). exists n. split; auto. Qed.

Lemma reads_int : forall x n, reads x n -> int_of_str x = Ok (Z.of_N n).
Proof. intros x n [N E]. destruct x as [|c x]; [congruence|]. unfold int_of_str. rewrite E. reflexivity. Qed.

Lemma nonempty_length : forall (x : str) k, k <= length x -> 1 <= k -> x <> [].
Proof. intros x k H K ->. cbn in H. lia. Qed.

(** ** Visibility *)

Definition frac_path (ks : list cls) : bool :=
  match ks with [k1; k2; k3] => digit_cls k1 && single_cls [47%N] k2 && digit_cls k3 | _ => false end.
Definition NSEW : list N := [78; 83; 69; 87]%N.
Definition EW : list N := [69; 87]%N.
Definition dir_path (ks : list cls) : bool :=
  match ks with
  | [k1] => single_cls NSEW k1
  | [k1; k2] => single_cls NSEW k1 && single_cls EW k2
  | _ => false
  end.
Definition vis_path (ks : list cls) : bool := digits_path 4 4 ks || spells (py "////") ks.

Definition vis_checks (r : regex) : bool :=
  starfree r && group_ok "integer" (digits_path 1 2) r && group_ok "fraction" frac_path r
  && group_ok "dir" dir_path r && linked "fraction" "units" r && linked "vis" "dir" r
  && group_ok "vis" vis_path r && needs "vis" "dir" r.

Lemma vis_checks_ok : vis_checks r_VISIBILITY = true /\ vis_checks r_T_VISIBILITY = true
  /\ vis_checks r_MINIMUM_VISIBILITY = true.
Proof. repeat split; vm_compute; reflexivity. Qed.

(** What a visibility group can raise. *)
Definition vis_cause (g : str) (e : exn) : Prop :=
  match e with
  | ZeroDivisionError => exists x, contains g x /\ over_zero x
  | TypeError => exists x, contains g x /\ fraction_km x
  | ValueError => exists x, contains g x /\ no_direction x
  | _ => False
  end.

Section Vis.
Variables (r : regex) (g : str) (m : rmatch).
Hypothesis C : vis_checks r = true.
Hypothesis M : re_match r g = Some m.

Let parts : starfree r = true /\ group_ok "integer" (digits_path 1 2) r = true /\ group_ok "fraction" frac_path r = true
  /\ group_ok "dir" dir_path r = true /\ linked "fraction" "units" r = true /\ linked "vis" "dir" r = true
  /\ group_ok "vis" vis_path r = true /\ needs "vis" "dir" r = true.
Proof. unfold vis_checks in C. rewrite !andb_true_iff in C. tauto. Qed.

Lemma vis_integer : forall c, group m "integer" = Some c -> exists n, reads c n.
Proof.
  intros c E. destruct parts as (F & P & _). destruct (group_ok_along _ _ _ _ _ _ F P M E) as (ks & A & K).
  destruct (digits_path_ok c ks 1 2 A K) as [D L]. apply all_digits_reads; [exact D|].
  apply (nonempty_length c 1); lia.
Qed.

Lemma one_digit_reads : forall c, is_digit c = true -> exists n, reads [c] n.
Proof. intros c H. apply all_digits_reads; [constructor; [exact H|constructor]|discriminate]. Qed.

Lemma vis_fraction : forall c, group m "fraction" = Some c ->
  exists a z n k, c = [a; 47%N; z] /\ reads [a] n /\ reads [z] k /\ a <> 47%N /\ z <> 47%N.
Proof.
  intros c E. destruct parts as (F & _ & P & _). destruct (group_ok_along _ _ _ _ _ _ F P M E) as (ks & A & K).
  unfold frac_path in K. destruct ks as [|k1 [|k2 [|k3 [|k4 ks]]]]; try discriminate.
  apply andb_true_iff in K. destruct K as [K K3]. apply andb_true_iff in K. destruct K as [K1 K2].
  apply along_cons in A. destruct A as (a & c1 & -> & Ha & A).
  apply along_cons in A. destruct A as (b & c2 & -> & Hb & A).
  apply along_cons in A. destruct A as (z & c3 & -> & Hz & A). apply along_nil in A. subst c3.
  destruct (in_single _ _ _ K2 Hb) as [<-|[]].
  pose proof (in_digit_cls a k1 K1 Ha) as Da. pose proof (in_digit_cls z k3 K3 Hz) as Dz.
  destruct (one_digit_reads a Da) as (n & Hn). destruct (one_digit_reads z Dz) as (k & Hk).
  exists a, z, n, k. split; [reflexivity|]. split; [exact Hn|]. split; [exact Hk|].
  split; intros ->; discriminate.
Qed.

Lemma vis_dir : forall c, group m "dir" = Some c ->
  In c (map (fun x => [x]) NSEW ++ flat_map (fun x => map (fun y => [x; y]) EW) NSEW).
Proof.
  intros c E. destruct parts as (F & _ & _ & P & _). destruct (group_ok_along _ _ _ _ _ _ F P M E) as (ks & A & K).
  unfold dir_path in K. destruct ks as [|k1 [|k2 [|k3 ks]]]; try discriminate.
  - apply along_cons in A. destruct A as (a & c1 & -> & Ha & A). apply along_nil in A. subst c1.
    apply in_or_app. left. apply (in_map (fun x => [x]) NSEW a). exact (in_single _ _ _ K Ha).
  - apply andb_true_iff in K. destruct K as [K1 K2].
    apply along_cons in A. destruct A as (a & c1 & -> & Ha & A).
    apply along_cons in A. destruct A as (b & c2 & -> & Hb & A). apply along_nil in A. subst c2.
    apply in_or_app. right. apply in_flat_map. exists a. split; [exact (in_single _ _ _ K1 Ha)|].
    apply (in_map (fun y => [a; y]) EW b). exact (in_single _ _ _ K2 Hb).
Qed.

Lemma vis_cardinal : forall c, group m "dir" = Some c -> outcome (vis_cause g) any (from_cardinal c).
Proof.
  intros c E. destruct parts as (F & _ & _ & _ & _ & L & P & N).
  destruct (needs_some _ _ _ _ _ _ F N M E) as (v & Ev).
  destruct (group_ok_along _ _ _ _ _ _ F P M Ev) as (ks & A & K).
  assert (V : v = py "////" \/ (length v = 4 /\ exists n, reads v n)).
  { unfold vis_path in K. apply orb_true_iff in K. destruct K as [K|K].
    - right. destruct (digits_path_ok v ks 4 4 A K) as [D Lv]. split; [lia|].
      apply all_digits_reads; [exact D|]. apply (nonempty_length v 4); lia.
    - left. exact (spells_ok _ _ _ K A). }
  pose proof (linked_contains _ _ _ _ _ _ _ F L M Ev E) as Cn.
  assert (B : In c [py "EE"; py "EW"; py "WE"; py "WW"] \/ exists d, from_cardinal c = Ok d).
  { pose proof (vis_dir c E) as I. cbn in I. clear - I.
    repeat (destruct I as [<-|I]; [first [left; cbn; tauto | right; eexists; vm_compute; reflexivity]|]). destruct I. }
  destruct B as [B|(d & ->)]; [|exact Logic.I].
  assert (R : from_cardinal c = Raise ValueError).
  { cbn in B. clear - B. repeat (destruct B as [<-|B]; [vm_compute; reflexivity|]). destruct B. }
  rewrite R. cbn. exists (v ++ c). split; [exact Cn|]. exists v, c. auto.
Qed.

Lemma split_slash : forall a z, a <> 47%N -> z <> 47%N -> split_on 47%N [a; 47%N; z] = [[a]; [z]].
Proof.
  intros a z Ha Hz. cbn. apply N.eqb_neq in Ha, Hz. rewrite Ha, Hz. reflexivity.
Qed.

Lemma float_reads : forall x n, reads x n -> exists f, float_of_str x = Ok f.
Proof.
  intros x n [N E]. destruct (float_of_digits x) as (f & Ef).
  - clear N. revert E. generalize 0%N. induction x as [|c x IH]; intros a E; [constructor|].
    cbn in E. destruct (digit_val c) as [d|] eqn:Ed; [|discriminate].
    constructor; [unfold is_digit; rewrite Ed; reflexivity|exact (IH _ E)].
  - exact N.
  - exists f. unfold float_of_str. rewrite Ef. reflexivity.
Qed.

Lemma vis_miles : opt_str_eqb (group m "units") (py "SM") = true ->
  outcome (vis_cause g) any (from_sea_miles (group m "integer") (group m "fraction")).
Proof.
  intros U. unfold from_sea_miles. apply (outcome_bind _ _ _ any).
  - destruct (group m "fraction") as [c|] eqn:E; [|exact Logic.I].
    destruct (vis_fraction c E) as (a & z & n & k & -> & Ra & Rz & Na & Nz).
    rewrite (split_slash a z Na Nz), (reads_int [a] n Ra), (reads_int [z] k Rz). cbn [bind].
    unfold int_div. destruct (Z.eqb_spec (Z.of_N k) 0) as [Z0|Z0]; [|exact Logic.I].
    assert (k = 0%N) by lia. subst k. cbn [outcome vis_cause].
    destruct (group m "units") as [u|] eqn:Eu; [|discriminate]. cbn in U. apply str_eqb_eq in U. subst u.
    destruct parts as (F & _ & _ & _ & L & _).
    exists ([a; 47%N; z] ++ py "SM"). split; [exact (linked_contains _ _ _ _ _ _ _ F L M E Eu)|].
    exists [a], [z], n. auto.
  - intros fr _. apply (outcome_bind _ _ _ any).
    + destruct (group m "integer") as [c|] eqn:E; [|exact Logic.I].
      destruct (vis_integer c E) as (n & R). destruct (float_reads c n R) as (f & Ef).
      destruct c as [|c0 c']; [exact Logic.I|]. rewrite Ef. exact Logic.I.
    + intros v _. exact Logic.I.
Qed.

Lemma prevailing_outcome : outcome (vis_cause g) any (prevailing_new (Some m)).
Proof.
  unfold prevailing_new. apply (outcome_bind _ _ _ any); [vm_compute; exact Logic.I|]. intros d0 _.
  apply (outcome_bind _ _ _ any).
  - destruct (truthy (group m "integer") || truthy (group m "fraction")) eqn:T; [|exact Logic.I].
    apply (outcome_bind _ _ _ any).
    + destruct (opt_str_eqb (group m "units") (py "SM")) eqn:U; [apply vis_miles; exact U|exact Logic.I].
    + intros v _. destruct (opt_str_eqb (group m "units") (py "KM")) eqn:U; [|exact Logic.I].
      destruct (group m "integer") as [c|] eqn:E.
      * destruct (vis_integer c E) as (n & R). cbn [int_of_opt]. rewrite (reads_int c n R). exact Logic.I.
      * cbn [truthy orb] in T. destruct (group m "fraction") as [f|] eqn:Ef; [|discriminate].
        destruct (vis_fraction f Ef) as (a & z & n & k & -> & Ra & Rz & _ & _).
        cbn [int_of_opt bind outcome vis_cause].
        destruct (group m "units") as [u|] eqn:Eu; [|discriminate]. cbn in U. apply str_eqb_eq in U. subst u.
        destruct parts as (F & _ & _ & _ & L & _).
        exists ([a; 47%N; z] ++ py "KM"). split; [exact (linked_contains _ _ _ _ _ _ _ F L M Ef Eu)|].
        exists [a], [z], n, k. auto.
  - intros v _. apply (outcome_bind _ _ _ any).
    + destruct (group m "dir") as [c|] eqn:E; [|exact Logic.I].
      destruct c as [|c0 c']; [exact Logic.I|]. apply vis_cardinal. exact E.
    + intros d _. destruct (truthy (group m "cavok")); exact Logic.I.
Qed.

Lemma minimum_outcome : outcome (vis_cause g) any (minimum_visibility_new (Some m)).
Proof.
  unfold minimum_visibility_new. apply (outcome_bind _ _ _ any); [vm_compute; exact Logic.I|]. intros d0 _.
  cbv zeta. apply (outcome_bind _ _ _ any).
  - destruct (group m "dir") as [c|] eqn:E; [|exact Logic.I].
    destruct c as [|c0 c']; [exact Logic.I|]. apply vis_cardinal. exact E.
  - intros d _. exact Logic.I.
Qed.
End Vis.

(** ** Groups that never raise *)

Definition fine {A} (r : result A) : Prop := exists a, r = Ok a.

Lemma fine_bind : forall A B (r : result A) (f : A -> result B), fine r -> (forall a, fine (f a)) -> fine (bind r f).
Proof. intros A B r f (a & ->) H. exact (H a). Qed.
Lemma fine_ok : forall A (a : A), fine (Ok a).
Proof. intros A a. exists a. reflexivity. Qed.
#[local] Hint Resolve fine_ok : core.

Lemma length_eqb : forall (c : str) k, length c = k -> Nat.eqb (length c) k = true.
Proof. intros c k H. apply Nat.eqb_eq. exact H. Qed.

Lemma direction_fine : forall c, length c = 3 -> fine (direction_new (Some c)).
Proof.
  intros c H. unfold direction_new. destruct (str_eqb c (py "//")) eqn:E.
  - apply str_eqb_eq in E. subst c. discriminate.
  - replace (Nat.eqb (length c) 2) with false by (rewrite H; reflexivity).
    rewrite H. cbn [Nat.eqb]. destruct (float_or_none c); auto.
Qed.

Lemma speed_long : forall c, 2 <= length c -> fine (speed_new (Some c)).
Proof.
  intros c H. unfold speed_new. cbv zeta. destruct (str_eqb c (py "//")) eqn:E; [eexists; vm_compute; reflexivity|].
  destruct (Nat.eqb_spec (length c) 2) as [L|L].
  - assert (K : Nat.leb 3 (length (py "0" ++ c)) = true) by (apply Nat.leb_le; rewrite app_length, L; cbn; lia).
    rewrite K. apply fine_ok.
  - assert (K : Nat.leb 3 (length c) = true) by (apply Nat.leb_le; lia). rewrite K. apply fine_ok.
Qed.

Definition speed_path (ks : list cls) : bool :=
  digits_path 2 3 ks || spells (py "//") ks || spells (py "///") ks.

Lemma speed_path_cases : forall c ks, along c ks -> speed_path ks = true ->
  (all_digits c /\ 2 <= length c <= 3) \/ c = py "//" \/ c = py "///".
Proof.
  intros c ks A K. unfold speed_path in K. apply orb_true_iff in K. destruct K as [K|K].
  - apply orb_true_iff in K. destruct K as [K|K].
    + left. exact (digits_path_ok c ks 2 3 A K).
    + right. left. exact (spells_ok _ _ _ K A).
  - right. right. exact (spells_ok _ _ _ K A).
Qed.

Lemma speed_mps : forall c, (all_digits c /\ 2 <= length c <= 3) \/ c = py "//" \/ c = py "///" ->
  fine (speed_new (Some (mps2kt (Some c)))).
Proof.
  intros c [[D L]|[->| ->]]; [|eexists; vm_compute; reflexivity|eexists; vm_compute; reflexivity].
  destruct (digits_val_some c 0%N D) as (n & E). destruct (ascii_digits c n E) as [_ B].
  assert (F : mps2kt (Some c) = mps2kt (Some (digits (length c) n))).
  { unfold mps2kt. rewrite (parse_float_ascii c n E). reflexivity. }
  rewrite F. assert (W : exists w, length c = width w /\ two_or_three w n).
  { assert (L2 : length c = 2 \/ length c = 3) by lia. destruct L2 as [L2|L2]; rewrite L2 in B.
    - exists false. split; [exact L2|exact B].
    - exists true. split; [exact L2|exact B]. }
  destruct W as (w & -> & W). eexists. apply ProofValues.speed_mps. exact W.
Qed.

(** Wind: no exception at all. *)
Definition wind_checks (r : regex) : bool :=
  starfree r && captured "dir" r && group_ok "dir" (fun ks => Nat.eqb (length ks) 3) r
  && captured "speed" r && group_ok "speed" speed_path r && group_ok "gust" speed_path r.

Lemma wind_checks_ok : wind_checks r_WIND = true /\ wind_checks r_T_WIND = true.
Proof. split; vm_compute; reflexivity. Qed.

Lemma wind_fine : forall r g m, wind_checks r = true -> re_match r g = Some m -> fine (metar_wind_new (Some m)).
Proof.
  intros r g m C M. unfold wind_checks in C. rewrite !andb_true_iff in C.
  destruct C as (((((F & Cd) & Pd) & Cs) & Ps) & Pg).
  unfold metar_wind_new. apply fine_bind; [eexists; vm_compute; reflexivity|]. intros gust0.
  cbv zeta. apply fine_bind.
  - destruct (captured_some _ _ _ _ F Cd M) as (c & E). rewrite E.
    destruct (group_ok_along _ _ _ _ _ _ F Pd M E) as (ks & A & K). apply Nat.eqb_eq in K.
    apply direction_fine. rewrite (along_length c ks A). exact K.
  - intros d. apply fine_bind.
    + destruct (captured_some _ _ _ _ F Cs M) as (c & E). rewrite E.
      destruct (group_ok_along _ _ _ _ _ _ F Ps M E) as (ks & A & K). pose proof (speed_path_cases c ks A K) as S.
      destruct (opt_str_eqb (group m "units") (py "MPS")); [apply speed_mps; exact S|].
      apply speed_long. destruct S as [[_ S]|[->| ->]]; [lia|cbn; lia|cbn; lia].
    + intros s. apply fine_bind; [|auto].
      destruct (group m "gust") as [c|] eqn:E.
      * destruct (group_ok_along _ _ _ _ _ _ F Pg M E) as (ks & A & K). pose proof (speed_path_cases c ks A K) as S.
        destruct (opt_str_eqb (group m "units") (py "MPS")); [apply speed_mps; exact S|].
        apply speed_long. destruct S as [[_ S]|[->| ->]]; [lia|cbn; lia|cbn; lia].
      * destruct (opt_str_eqb (group m "units") (py "MPS")); eexists; vm_compute; reflexivity.
Qed.

Lemma wvar_checks : starfree r_WIND_VARIATION && captured "from" r_WIND_VARIATION && captured "to" r_WIND_VARIATION
  && group_ok "from" (fun ks => Nat.eqb (length ks) 3) r_WIND_VARIATION
  && group_ok "to" (fun ks => Nat.eqb (length ks) 3) r_WIND_VARIATION = true.
Proof. vm_compute. reflexivity. Qed.

Lemma wvar_fine : forall g m, re_match r_WIND_VARIATION g = Some m -> fine (wind_variation_new (Some m)).
Proof.
  intros g m M. pose proof wvar_checks as C. rewrite !andb_true_iff in C.
  destruct C as ((((F & C1) & C2) & P1) & P2). unfold wind_variation_new.
  assert (K : forall n, captured n r_WIND_VARIATION = true ->
    group_ok n (fun ks => Nat.eqb (length ks) 3) r_WIND_VARIATION = true -> fine (direction_new (group m n))).
  { intros n Cn Pn. destruct (captured_some _ _ _ _ F Cn M) as (c & E). rewrite E.
    destruct (group_ok_along _ _ _ _ _ _ F Pn M E) as (ks & A & K). apply Nat.eqb_eq in K.
    apply direction_fine. rewrite (along_length c ks A). exact K. }
  apply fine_bind; [exact (K _ C1 P1)|]. intros a. apply fine_bind; [exact (K _ C2 P2)|]. auto.
Qed.

Lemma rvr_checks : starfree r_RUNWAY_RANGE && group_ok "low" (digits_path 2 4) r_RUNWAY_RANGE
  && group_ok "high" (digits_path 2 4) r_RUNWAY_RANGE = true.
Proof. vm_compute. reflexivity. Qed.

Lemma rvr_fine : forall g m, re_match r_RUNWAY_RANGE g = Some m -> fine (runway_range_new (Some m)).
Proof.
  intros g m M. pose proof rvr_checks as C. rewrite !andb_true_iff in C. destruct C as ((F & P1) & P2).
  assert (K : forall n u, group_ok n (digits_path 2 4) r_RUNWAY_RANGE = true -> fine (rvr_set_range (group m n) u)).
  { intros n u P. unfold rvr_set_range. destruct (group m n) as [c|] eqn:E; [|auto].
    destruct (opt_str_eqb u (py "FT")); [|auto].
    destruct (group_ok_along _ _ _ _ _ _ F P M E) as (ks & A & K). destruct (digits_path_ok c ks 2 4 A K) as [D L].
    destruct (all_digits_reads c D (nonempty_length c 2 (proj1 L) ltac:(lia))) as (n' & R).
    destruct (float_reads c n' R) as (f & ->). cbn [bind]. auto. }
  unfold runway_range_new. apply fine_bind; [exact (K _ _ P1)|]. intros a. apply fine_bind; [exact (K _ _ P2)|]. auto.
Qed.

Definition height_path (ks : list cls) : bool := digits_path 3 3 ks || spells (py "///") ks.
Lemma cloud_checks : starfree r_CLOUD && captured "cover" r_CLOUD && group_ok "height" height_path r_CLOUD = true.
Proof. vm_compute. reflexivity. Qed.

Lemma all_digits_app : forall a b, all_digits a -> all_digits b -> all_digits (a ++ b).
Proof. intros a b A B. apply Forall_app. split; assumption. Qed.

Lemma cloud_fine : forall g m, re_match r_CLOUD g = Some m -> fine (cloud_from_metar (Some m)).
Proof.
  intros g m M. pose proof cloud_checks as C. rewrite !andb_true_iff in C. destruct C as ((F & C1) & P).
  unfold cloud_from_metar. destruct (captured_some _ _ _ _ F C1 M) as (cv & ->). cbv zeta.
  destruct (group m "height") as [h|] eqn:E; [|auto].
  destruct (str_eqb h (py "///")) eqn:Eh; [auto|].
  destruct (group_ok_along _ _ _ _ _ _ F P M E) as (ks & A & K). unfold height_path in K.
  apply orb_true_iff in K. destruct K as [K|K].
  - destruct (digits_path_ok h ks 3 3 A K) as [D L].
    destruct (all_digits_reads (h ++ py "00")) as (n & R).
    + apply all_digits_app; [exact D|]. repeat constructor.
    + destruct h; [cbn in L; lia|discriminate].
    + destruct (float_reads _ n R) as (f & ->). cbn [bind]. auto.
  - apply (spells_ok _ _ _ K) in A. subst h. vm_compute in Eh. discriminate.
Qed.

(** Temperatures. *)
Definition temp_path (ks : list cls) : bool :=
  digits_path 2 2 ks || spells (py "//") ks || spells (py "XX") ks || spells (py "MM") ks.

Lemma temp_path_cases : forall c ks, along c ks -> temp_path ks = true -> length c = 2 /\ ~ In 45%N c.
Proof.
  intros c ks A K. unfold temp_path in K. rewrite !orb_true_iff in K. destruct K as [[[K|K]|K]|K].
  - destruct (digits_path_ok c ks 2 2 A K) as [D L]. split; [lia|]. intros I.
    unfold all_digits in D. rewrite Forall_forall in D. specialize (D _ I). discriminate.
  - apply (spells_ok _ _ _ K) in A. subst c. split; [reflexivity|]. cbn. intuition discriminate.
  - apply (spells_ok _ _ _ K) in A. subst c. split; [reflexivity|]. cbn. intuition discriminate.
  - apply (spells_ok _ _ _ K) in A. subst c. split; [reflexivity|]. cbn. intuition discriminate.
Qed.

Lemma no_minus : forall c, ~ In 45%N c -> replace (py "-") [] c = c.
Proof.
  intros c H. change (py "-") with [45%N]. rewrite replace_char_del. unfold remove_char.
  induction c as [|d c IH]; [reflexivity|]. cbn [filter].
  destruct (N.eqb_spec d 45) as [E|E]; [exfalso; apply H; left; exact E|]. cbn. f_equal. apply IH.
  intros I. apply H. right. exact I.
Qed.
Lemma minus_gone : forall c, ~ In 45%N c -> replace (py "-") [] (py "-" ++ c) = c.
Proof.
  intros c H. rewrite <- (no_minus c H) at 2. change (py "-") with [45%N]. rewrite !replace_char_del. reflexivity.
Qed.

Lemma no_minus_0 : forall c, ~ In 45%N c -> ~ In 45%N (c ++ py "0").
Proof. intros c H I. apply in_app_or in I. destruct I as [I|[I|[]]]; [exact (H I)|discriminate]. Qed.

Lemma temperature_fine : forall c, length c = 2 -> ~ In 45%N c ->
  fine (temperature_new (Some c)) /\ fine (temperature_new (Some (py "-" ++ c))).
Proof.
  intros c L N. assert (L0 : length (c ++ py "0") = 3) by (rewrite app_length, L; reflexivity).
  split; unfold temperature_new; cbv zeta.
  - destruct (mem c [py "//"; py "///"]); [eexists; vm_compute; reflexivity|].
    rewrite (no_minus c N), L. cbn [Nat.eqb]. rewrite (no_minus _ (no_minus_0 c N)), L0. apply fine_ok.
  - destruct (mem (py "-" ++ c) [py "//"; py "///"]); [eexists; vm_compute; reflexivity|].
    rewrite (minus_gone c N), L. cbn [Nat.eqb]. rewrite <- app_assoc, (minus_gone _ (no_minus_0 c N)), L0. apply fine_ok.
Qed.

Lemma set_temperature_fine : forall r g m n s, starfree r = true -> captured n r = true ->
  group_ok n temp_path r = true -> re_match r g = Some m -> fine (set_temperature (group m n) s).
Proof.
  intros r g m n s F C P M. destruct (captured_some _ _ _ _ F C M) as (c & E). rewrite E.
  destruct (group_ok_along _ _ _ _ _ _ F P M E) as (ks & A & K).
  destruct (temp_path_cases c ks A K) as [L N]. destruct (temperature_fine c L N) as [T1 T2].
  unfold set_temperature. destruct (opt_str_eqb s (py "M") || opt_str_eqb s (py "-")); [exact T2|exact T1].
Qed.

Lemma temps_checks : starfree r_TEMPERATURES && captured "temp" r_TEMPERATURES && captured "dewpt" r_TEMPERATURES
  && group_ok "temp" temp_path r_TEMPERATURES && group_ok "dewpt" temp_path r_TEMPERATURES = true.
Proof. vm_compute. reflexivity. Qed.

Lemma temps_fine : forall g m, re_match r_TEMPERATURES g = Some m -> fine (temperatures_new (Some m)).
Proof.
  intros g m M. pose proof temps_checks as C. rewrite !andb_true_iff in C. destruct C as ((((F & C1) & C2) & P1) & P2).
  unfold temperatures_new. apply fine_bind; [exact (set_temperature_fine _ _ _ _ _ F C1 P1 M)|]. intros a.
  apply fine_bind; [exact (set_temperature_fine _ _ _ _ _ F C2 P2 M)|]. auto.
Qed.

Lemma sea_checks : starfree r_SEA_STATE && captured "temp" r_SEA_STATE && group_ok "temp" temp_path r_SEA_STATE = true.
Proof. vm_compute. reflexivity. Qed.

Lemma sea_fine : forall g m, re_match r_SEA_STATE g = Some m -> fine (sea_state_new (Some m)).
Proof.
  intros g m M. pose proof sea_checks as C. rewrite !andb_true_iff in C. destruct C as ((F & C1) & P1).
  unfold sea_state_new. apply fine_bind; [exact (set_temperature_fine _ _ _ _ _ F C1 P1 M)|]. auto.
Qed.

Definition press_path (ks : list cls) : bool := digits_path 4 4 ks || spells (py "////") ks.
Lemma press_checks : starfree r_PRESSURE && captured "press" r_PRESSURE && group_ok "press" press_path r_PRESSURE = true.
Proof. vm_compute. reflexivity. Qed.

Lemma press_fine : forall g m, re_match r_PRESSURE g = Some m -> fine (metar_pressure_new (Some m)).
Proof.
  intros g m M. pose proof press_checks as C. rewrite !andb_true_iff in C. destruct C as ((F & C1) & P).
  unfold metar_pressure_new. cbv zeta. destruct (captured_some _ _ _ _ F C1 M) as (c & E). rewrite E.
  destruct (str_eqb c (py "////")) eqn:Ec; [auto|].
  destruct (group_ok_along _ _ _ _ _ _ F P M E) as (ks & A & K). unfold press_path in K.
  apply orb_true_iff in K. destruct K as [K|K].
  - destruct (digits_path_ok c ks 4 4 A K) as [D L].
    destruct (all_digits_reads c D (nonempty_length c 4 ltac:(lia) ltac:(lia))) as (n & R).
    destruct (float_reads _ n R) as (f & ->). cbn [bind]. auto.
  - apply (spells_ok _ _ _ K) in A. subst c. vm_compute in Ec. discriminate.
Qed.
