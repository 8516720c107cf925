(** * What should_be_cavok looks at (C07): proof *)
From Coq Require Import String Ascii.
From Coq Require Import List NArith ZArith Bool Lia QArith.
From Verif Require Import PyBase PyRegex AeroRegex PyFloat Utils Base MetarGroups SpecNum SpecGroups SpecRules
  ProofRules ProofExact SpecCavok.
Import ListNotations.
Local Open Scope string_scope.
Local Open Scope nat_scope.
Local Open Scope list_scope.

Lemma high_split : forall gs, Forall high gs <->
  Forall ceiling_has_height gs
  /\ Forall (fun g => cover_in ["BKN"; "OVC"] g = true -> forall n, hundreds_of g = Some n -> (15 < n)%N) gs.
Proof.
  intros gs. rewrite !Forall_forall. unfold high, ceiling_has_height. split.
  - intros H. split; intros g G C.
    + destruct (H g G C) as (n & E & _). congruence.
    + intros n E. destruct (H g G C) as (m & E' & L). congruence.
  - intros [A B] g G C. specialize (A g G C). specialize (B g G C). destruct (hundreds_of g) as [n|]; [|congruence].
    exists n. split; [reflexivity|apply B; reflexivity].
Qed.

Lemma passes_rejected : forall same g, passes same g <-> rejected same g = false.
Proof.
  intros same g. unfold passes, rejected, typed. rewrite !orb_false_iff, andb_false_iff. split.
  - intros (A & B & C & D). split; [split|].
    + destruct same; [right; apply D; reflexivity|left; reflexivity].
    + destruct (cg_type g); congruence.
    + destruct (hundreds_of g) as [n|]; [|reflexivity]. apply N.ltb_ge. apply C. reflexivity.
  - intros [[A B] C]. split; [|split; [|split]].
    + intros E. rewrite E in B. discriminate B.
    + intros E. rewrite E in B. discriminate B.
    + intros n E. rewrite E in C. apply N.ltb_ge in C. exact C.
    + intros ->. destruct A as [A|A]; [discriminate A|exact A].
Qed.

Lemma passes_all : forall same gs, Forall (passes same) gs <-> existsb (rejected same) gs = false.
Proof.
  intros same gs. induction gs as [|g gs IH]; [split; [reflexivity|constructor]|].
  cbn [existsb]. rewrite orb_false_iff, <- IH, <- passes_rejected. split.
  - intros H. inversion H; subst. split; assumption.
  - intros [A B]. constructor; assumption.
Qed.

Lemma unheighted : forall gs, ~ Forall ceiling_has_height gs -> exists l1 g l2, gs = l1 ++ g :: l2
  /\ ~ ceiling_has_height g /\ Forall ceiling_has_height l1.
Proof.
  induction gs as [|g gs IH]; intros H; [destruct H; constructor|].
  assert (D : ceiling_has_height g \/ ~ ceiling_has_height g).
  { unfold ceiling_has_height. destruct (cover_in ["BKN"; "OVC"] g); [|left; discriminate].
    destruct (hundreds_of g); [left; discriminate|right; intros K; apply K; reflexivity]. }
  destruct D as [D|D]; [|exists [], g, gs; split; [reflexivity|split; [exact D|constructor]]].
  destruct IH as (l1 & x & l2 & -> & X & F); [intros K; apply H; constructor; assumption|].
  exists (g :: l1), x, l2. split; [reflexivity|]. split; [exact X|]. constructor; assumption.
Qed.

Lemma ceiling_true : forall gs l, shows_clouds gs l -> forall l1 g l2, gs = l1 ++ g :: l2 -> Forall ceiling_has_height l1 ->
  existsb low l1 = true -> ceiling_of l = Ok true.
Proof.
  intros gs l H l1 g l2 -> F X. apply Forall2_app_inv_l in H. destruct H as (m1 & m2 & H1 & _ & ->).
  pose proof (ceiling_coded l1 m1 H1 F) as E. unfold low in X. rewrite X in E. clear X F.
  revert E. clear. induction m1 as [|c m1 IH]; cbn [app ceiling_of]; [discriminate|].
  repeat match goal with |- context [if ?b then _ else _] => destruct b | |- context [match ?x with _ => _ end] => destruct x end; intros E; auto.
Qed.

Theorem cavok_exact : forall same c vis gs, shows_vis vis (c_vis c) -> shows_clouds gs (gl_list (c_clouds c)) ->
  ((exists c', should_be_cavok same c = Ok (true, c')) <->
   gl_list (c_weathers c) = [] /\ (exists q, coded_vis vis = Some q /\ (10000 # 1 <= q)%Q)
   /\ gs <> [] /\ Forall high gs /\ Forall (passes same) (skipn (gl_n (c_clouds c)) gs)).
Proof.
  intros same c vis gs Hv Hg. split.
  - intros (c' & E). assert (Hc : Forall ceiling_has_height gs).
    { destruct (Forall_dec ceiling_has_height) with (l := gs) as [F|F]; [|exact F|].
      - intros g. unfold ceiling_has_height. destruct (cover_in ["BKN"; "OVC"] g); [|left; discriminate].
        destruct (hundreds_of g); [left; discriminate|right; intros K; apply K; reflexivity].
      - exfalso. destruct (unheighted gs F) as (l1 & g & l2 & Eg & X & F1). destruct (existsb low l1) eqn:L.
        + pose proof (ceiling_true gs _ Hg l1 g l2 Eg F1 L) as Ct. unfold should_be_cavok in E. destruct (Nat.ltb 0 _); [discriminate E|].
          rewrite Ct in E. discriminate E.
        + assert (W : gl_list (c_weathers c) = []).
          { unfold should_be_cavok, gl_len in E. destruct (gl_list (c_weathers c)); [reflexivity|discriminate E]. }
          assert (R : should_be_cavok same c = Raise TypeError).
          { apply (cavok_raises same c gs TypeError Hg). split; [reflexivity|]. split; [exact W|]. exists l1, g, l2.
            split; [exact Eg|]. split; [exact X|]. apply low_none. exact L. }
          congruence. }
    destruct (cavok_steps same c vis gs Hv Hg Hc) as [[_ K]|[B _]]; [congruence|].
    destruct (cavok_layers same c vis gs Hv Hg Hc B) as [_ N]. destruct B as (B1 & B2 & B3 & B4).
    split; [exact B1|]. split; [exact B2|]. split; [exact B3|]. split; [apply high_split; split; assumption|].
    apply passes_all. destruct (existsb (rejected same) _) eqn:X; [|reflexivity].
    destruct (existsb_split _ _ _ X) as (l1 & g & l2 & Eg & X1 & X2). rewrite (N l1 g l2 Eg X1 X2) in E. discriminate E.
  - intros (B1 & B2 & B3 & H & P). apply high_split in H. destruct H as [Hc B4]. apply passes_all in P.
    assert (B : cavok_but_layers (gl_list (c_weathers c)) vis gs) by (split; [exact B1|split; [exact B2|split; [exact B3|exact B4]]]).
    destruct (cavok_layers same c vis gs Hv Hg Hc B) as [Y _]. eexists. apply Y. exact P.
Qed.
