(** * The finitely many shapes a pattern without repetition can consume *)
From Coq Require Import String Ascii.
From Coq Require Import List NArith ZArith Bool Lia.
From Verif Require Import PyBase PyRegex StrFacts ProofText.
Import ListNotations.
Open Scope list_scope.

Fixpoint starfree (r : regex) : bool :=
  match r with
  | Star _ => false
  | Seq a b | Alt a b => starfree a && starfree b
  | Grp _ r => starfree r
  | _ => true
  end.

Fixpoint paths (r : regex) : list (list cls) :=
  match r with
  | Eps | Bos | Eos | Star _ => [[]]
  | Chr k => [[k]]
  | Seq a b => flat_map (fun p => map (fun q => p ++ q) (paths b)) (paths a)
  | Alt a b => paths a ++ paths b
  | Grp _ r => paths r
  end.

Definition along (x : str) (p : list cls) : Prop := Forall2 (fun c k => in_cls c k = true) x p.

Lemma den_paths : forall r x, starfree r = true -> den r x -> exists p, In p (paths r) /\ along x p.
Proof.
  induction r as [|k|a IHa b IHb|a IHa b IHb|k|n r IH| |]; intros x H D; cbn [starfree den paths] in *.
  - subst x. exists []. split; [left; reflexivity|constructor].
  - destruct D as (c & -> & Hc). exists [k]. split; [left; reflexivity|repeat constructor; exact Hc].
  - apply andb_true_iff in H. destruct H as [H1 H2]. destruct D as (x1 & x2 & -> & D1 & D2).
    destruct (IHa x1 H1 D1) as (p & Hp & Ap). destruct (IHb x2 H2 D2) as (q & Hq & Aq).
    exists (p ++ q). split; [|apply Forall2_app; assumption].
    apply in_flat_map. exists p. split; [exact Hp|]. apply in_map. exact Hq.
  - apply andb_true_iff in H. destruct H as [H1 H2]. destruct D as [D|D].
    + destruct (IHa x H1 D) as (p & Hp & Ap). exists p. split; [apply in_or_app; left; exact Hp|exact Ap].
    + destruct (IHb x H2 D) as (p & Hp & Ap). exists p. split; [apply in_or_app; right; exact Hp|exact Ap].
  - discriminate.
  - exact (IH x H D).
  - subst x. exists []. split; [left; reflexivity|constructor].
  - subst x. exists []. split; [left; reflexivity|constructor].
Qed.

Lemma along_cons : forall x k p, along x (k :: p) -> exists c x', x = c :: x' /\ in_cls c k = true /\ along x' p.
Proof. intros x k p H. inversion H as [|c k0 x' p0 Hc H']; subst. exists c, x'. auto. Qed.

Lemma along_nil : forall x, along x [] -> x = [].
Proof. intros x H. inversion H. reflexivity. Qed.

Lemma in_one_eq : forall c d, in_cls c [CRange d d] = true -> c = d.
Proof. intros c d H. rewrite in_one in H. apply N.eqb_eq. exact H. Qed.

(** Reads a text off its path: single characters become equalities. *)
Ltac read H :=
  repeat match type of H with
  | along _ (_ :: _) =>
      let c := fresh "c" in let x' := fresh "x" in let Hc := fresh "Hc" in
      apply along_cons in H; destruct H as (c & x' & -> & Hc & H);
      try (apply in_one_eq in Hc; subst c)
  | along _ [] => apply along_nil in H; subst
  end.
