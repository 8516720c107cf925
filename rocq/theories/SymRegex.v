(** * Running a pattern on a whole family of strings at once

    A family of strings is given position by position: a list of sets of
    characters.  [srun] runs a pattern when every class test has the same
    answer for all members of the set; its result then holds for all strings
    of the family ([srun_sound]).  [smay] over-approximates the matches and is
    used to show that no string of a family is accepted. *)
From Coq Require Import String Ascii.
From Coq Require Import List NArith ZArith Bool Lia.
From Verif Require Import PyBase PyRegex.
Import ListNotations.
Open Scope list_scope.

Definition sym := list N.

Definition inst (s : str) (y : list sym) : Prop := Forall2 (fun c k => In c k) s y.

(** Does every / no member belong to the class? *)
Definition all_in (k : cls) (y : sym) : bool := forallb (fun c => in_cls c k) y.
Definition none_in (k : cls) (y : sym) : bool := forallb (fun c => negb (in_cls c k)) y.

Definition sres := list (nat * list sym * spans).

Definition sat_end (y : list sym) : option bool :=
  match y with
  | [] => Some true
  | [k] => if forallb (fun c => negb (N.eqb c 10)) k then Some false
           else if forallb (fun c => N.eqb c 10) k then Some true else None
  | _ => Some false
  end.

Fixpoint srun_star (k : cls) (pos : nat) (y : list sym) : option sres :=
  match y with
  | c :: y' =>
      if all_in k c
      then match srun_star k (S pos) y' with
           | Some l => Some (l ++ [(pos, y, [])])
           | None => None
           end
      else if none_in k c then Some [(pos, y, [])] else None
  | [] => Some [(pos, y, [])]
  end.

Fixpoint concat_opt {A B} (f : A -> option (list B)) (l : list A) : option (list B) :=
  match l with
  | [] => Some []
  | x :: l' => match f x, concat_opt f l' with
               | Some a, Some b => Some (a ++ b)
               | _, _ => None
               end
  end.

Fixpoint srun (r : regex) (pos : nat) (y : list sym) : option sres :=
  match r with
  | Eps => Some [(pos, y, [])]
  | Chr k => match y with
             | c :: y' => if all_in k c then Some [(S pos, y', [])]
                          else if none_in k c then Some [] else None
             | [] => Some []
             end
  | Seq a b =>
      match srun a pos y with
      | Some l => concat_opt (fun '(p1, y1, k1) =>
                    match srun b p1 y1 with
                    | Some l2 => Some (map (fun '(p2, y2, k2) => (p2, y2, k2 ++ k1)) l2)
                    | None => None
                    end) l
      | None => None
      end
  | Alt a b => match srun a pos y, srun b pos y with
               | Some l1, Some l2 => Some (l1 ++ l2)
               | _, _ => None
               end
  | Star k => srun_star k pos y
  | Grp n r => match srun r pos y with
               | Some l => Some (map (fun '(p1, y1, k1) => (p1, y1, (n, (pos, p1)) :: k1)) l)
               | None => None
               end
  | Bos => Some (if Nat.eqb pos 0 then [(pos, y, [])] else [])
  | Eos => match sat_end y with
           | Some true => Some [(pos, y, [])]
           | Some false => Some []
           | None => None
           end
  end.

(** Same positions and spans, remaining text in the remaining family. *)
Definition res_rel (a : nat * str * spans) (b : nat * list sym * spans) : Prop :=
  fst (fst a) = fst (fst b) /\ inst (snd (fst a)) (snd (fst b)) /\ snd a = snd b.

Lemma all_in_sound : forall k y c, all_in k y = true -> In c y -> in_cls c k = true.
Proof. intros k y c H HI. unfold all_in in H. rewrite forallb_forall in H. auto. Qed.

Lemma none_in_sound : forall k y c, none_in k y = true -> In c y -> in_cls c k = false.
Proof.
  intros k y c H HI. unfold none_in in H. rewrite forallb_forall in H.
  apply H in HI. apply negb_true_iff. exact HI.
Qed.

Lemma sat_end_sound : forall y b s, inst s y -> sat_end y = Some b -> at_end s = b.
Proof.
  intros y b s H. destruct H as [|c k s y Hc H]; simpl.
  - congruence.
  - destruct H as [|c2 k2 s y Hc2 H]; simpl; [|congruence].
    destruct (forallb (fun c => negb (N.eqb c 10)) k) eqn:E1.
    + intro H. injection H as <-. rewrite forallb_forall in E1.
      apply E1 in Hc. apply negb_true_iff. exact Hc.
    + destruct (forallb (fun c => N.eqb c 10) k) eqn:E2; [|discriminate].
      intro H. injection H as <-. rewrite forallb_forall in E2. apply E2. exact Hc.
Qed.

Lemma srun_star_sound : forall k y pos s L, inst s y ->
  srun_star k pos y = Some L -> Forall2 res_rel (run_star k pos s) L.
Proof.
  intros k y. induction y as [|c y IH]; intros pos s L Hs H; simpl in H.
  - inversion Hs; subst. injection H as <-. constructor; [|constructor].
    repeat split; auto.
  - inversion Hs as [|c0 k0 s0 y0 Hc Hs0]; subst. simpl.
    destruct (all_in k c) eqn:E1.
    + rewrite (all_in_sound k c c0 E1 Hc).
      destruct (srun_star k (S pos) y) as [l|] eqn:E; [|discriminate].
      injection H as <-. apply Forall2_app; auto.
      constructor; [|constructor]. repeat split; auto.
    + destruct (none_in k c) eqn:E2; [|discriminate].
      rewrite (none_in_sound k c c0 E2 Hc). injection H as <-.
      constructor; [|constructor]. repeat split; auto.
Qed.

Lemma concat_opt_sound : forall A A' B B' (RA : A -> A' -> Prop) (RB : B -> B' -> Prop)
    (f : A -> list B) (g : A' -> option (list B')) l l' L,
  Forall2 RA l l' ->
  (forall x x' M, RA x x' -> g x' = Some M -> Forall2 RB (f x) M) ->
  concat_opt g l' = Some L -> Forall2 RB (flat_map f l) L.
Proof.
  intros A A' B B' RA RB f g l l' L H Hf. revert L.
  induction H as [|x x' l l' Hx H IH]; intros L HL; simpl in *.
  - injection HL as <-. constructor.
  - destruct (g x') as [a|] eqn:E1; [|discriminate].
    destruct (concat_opt g l') as [b|] eqn:E2; [|discriminate].
    injection HL as <-. apply Forall2_app; eauto.
Qed.

Lemma Forall2_map_rel : forall A A' B B' (R : A -> A' -> Prop) (R' : B -> B' -> Prop)
    (f : A -> B) (g : A' -> B') l l',
  Forall2 R l l' -> (forall x y, R x y -> R' (f x) (g y)) ->
  Forall2 R' (map f l) (map g l').
Proof. intros A A' B B' R R' f g l l' H Hf. induction H; simpl; constructor; auto. Qed.

Lemma srun_sound : forall r pos s y L, inst s y ->
  srun r pos y = Some L -> Forall2 res_rel (run r pos s) L.
Proof.
  induction r as [|k|a IHa b IHb|a IHa b IHb|k|n r IH| |]; intros pos s y L Hs H; simpl in *.
  - injection H as <-. constructor; [|constructor]. repeat split; auto.
  - destruct Hs as [|c k0 s y Hc Hs].
    + injection H as <-. constructor.
    + destruct (all_in k k0) eqn:E1.
      * rewrite (all_in_sound k k0 c E1 Hc). injection H as <-.
        constructor; [|constructor]. repeat split; auto.
      * destruct (none_in k k0) eqn:E2; [|discriminate].
        rewrite (none_in_sound k k0 c E2 Hc). injection H as <-. constructor.
  - destruct (srun a pos y) as [l|] eqn:Ea; [|discriminate].
    eapply concat_opt_sound; [exact (IHa _ _ _ _ Hs Ea)| |exact H].
    intros [[p1 s1] k1] [[p1' y1] k1'] M (H1 & H2 & H3) HM. simpl in *. subst.
    destruct (srun b p1' y1) as [l2|] eqn:Eb; [|discriminate].
    injection HM as <-. eapply Forall2_map_rel; [exact (IHb _ _ _ _ H2 Eb)|].
    intros [[p2 s2] k2] [[p2' y2] k2'] (G1 & G2 & G3). simpl in *. subst.
    repeat split; auto.
  - destruct (srun a pos y) as [l1|] eqn:Ea; [|discriminate].
    destruct (srun b pos y) as [l2|] eqn:Eb; [|discriminate].
    injection H as <-. apply Forall2_app; eauto.
  - eapply srun_star_sound; eauto.
  - destruct (srun r pos y) as [l|] eqn:E; [|discriminate].
    injection H as <-. eapply Forall2_map_rel; [exact (IH _ _ _ _ Hs E)|].
    intros [[p2 s2] k2] [[p2' y2] k2'] (G1 & G2 & G3). simpl in *. subst.
    repeat split; auto.
  - destruct (Nat.eqb pos 0); injection H as <-; constructor; [|constructor].
    repeat split; auto.
  - destruct (sat_end y) as [b|] eqn:E; [|discriminate].
    rewrite (sat_end_sound _ _ _ Hs E).
    destruct b; injection H as <-; constructor; [|constructor]. repeat split; auto.
Qed.

(** The match object for every string of the family. *)
Definition smatch (r : regex) (y : list sym) : option (option (nat * spans)) :=
  match srun r 0 y with
  | Some ((e, _, sp) :: _) => Some (Some (e, sp))
  | Some [] => Some None
  | None => None
  end.

Lemma smatch_sound : forall r y s x, inst s y -> smatch r y = Some x ->
  re_match r s = match x with
                 | Some (e, sp) => Some (mk_match s 0 e sp)
                 | None => None
                 end.
Proof.
  intros r y s x Hs H. unfold smatch in H. unfold re_match.
  destruct (srun r 0 y) as [L|] eqn:E; [|discriminate].
  pose proof (srun_sound r 0 s y L Hs E) as HF.
  destruct HF as [|[[p1 s1] k1] [[p1' y1] k1'] l l' (H1 & H2 & H3) HF].
  - injection H as <-. reflexivity.
  - simpl in *. subst. injection H as <-. reflexivity.
Qed.

(** ** Families of strings that a pattern cannot accept *)

Definition some_in (k : cls) (y : sym) : bool := existsb (fun c => in_cls c k) y.

Fixpoint smay_star (k : cls) (pos : nat) (y : list sym) : list (nat * list sym) :=
  match y with
  | c :: y' => if some_in k c then smay_star k (S pos) y' ++ [(pos, y)] else [(pos, y)]
  | [] => [(pos, y)]
  end.

Definition smay_end (y : list sym) : bool :=
  match y with
  | [] => true
  | [k] => existsb (fun c => N.eqb c 10) k
  | _ => false
  end.

Fixpoint smay (r : regex) (pos : nat) (y : list sym) : list (nat * list sym) :=
  match r with
  | Eps => [(pos, y)]
  | Chr k => match y with
             | c :: y' => if some_in k c then [(S pos, y')] else []
             | [] => []
             end
  | Seq a b => flat_map (fun '(p1, y1) => smay b p1 y1) (smay a pos y)
  | Alt a b => smay a pos y ++ smay b pos y
  | Star k => smay_star k pos y
  | Grp _ r => smay r pos y
  | Bos => if Nat.eqb pos 0 then [(pos, y)] else []
  | Eos => if smay_end y then [(pos, y)] else []
  end.

Definition may_rel (a : nat * str * spans) (b : nat * list sym) : Prop :=
  fst (fst a) = fst b /\ inst (snd (fst a)) (snd b).

Definition covered (l : list (nat * str * spans)) (M : list (nat * list sym)) : Prop :=
  forall a, In a l -> exists b, In b M /\ may_rel a b.

Lemma covered_app : forall l1 l2 M1 M2,
  covered l1 M1 -> covered l2 M2 -> covered (l1 ++ l2) (M1 ++ M2).
Proof.
  intros l1 l2 M1 M2 H1 H2 a HI. apply in_app_or in HI.
  destruct HI as [HI|HI]; [apply H1 in HI|apply H2 in HI];
    destruct HI as (b & Hb & HR); exists b; split; auto; apply in_or_app; auto.
Qed.

Lemma covered_one : forall pos s y k, inst s y -> covered [(pos, s, k)] [(pos, y)].
Proof.
  intros pos s y k H a [<-|[]]. exists (pos, y). split; simpl; auto. split; auto.
Qed.

Lemma some_in_sound : forall k y c, In c y -> in_cls c k = true -> some_in k y = true.
Proof. intros k y c HI H. unfold some_in. apply existsb_exists. eauto. Qed.

Lemma smay_star_sound : forall k s y pos, inst s y ->
  covered (run_star k pos s) (smay_star k pos y).
Proof.
  intros k s y pos H. revert pos. induction H as [|c k0 s y Hc H IH]; intro pos; simpl.
  - apply covered_one. constructor.
  - destruct (in_cls c k) eqn:E.
    + rewrite (some_in_sound k k0 c Hc E). apply covered_app; auto.
      apply covered_one. constructor; auto.
    + destruct (some_in k k0).
      * intros a [<-|[]]. exists (pos, k0 :: y). split.
        -- apply in_or_app. right. simpl. auto.
        -- split; simpl; auto. constructor; auto.
      * apply covered_one. constructor; auto.
Qed.

Lemma smay_sound : forall r pos s y, inst s y -> covered (run r pos s) (smay r pos y).
Proof.
  induction r as [|k|a IHa b IHb|a IHa b IHb|k|n r IH| |]; intros pos s y Hs; simpl.
  - apply covered_one. exact Hs.
  - destruct Hs as [|c k0 s y Hc Hs].
    + intros a [].
    + destruct (in_cls c k) eqn:E; [|intros a []].
      rewrite (some_in_sound k k0 c Hc E). apply covered_one. exact Hs.
  - intros x HI. apply in_flat_map in HI. destruct HI as ([[p1 s1] k1] & H1 & H2).
    apply in_map_iff in H2. destruct H2 as ([[p2 s2] k2] & <- & H2).
    destruct (IHa pos s y Hs _ H1) as ([p1' y1] & HM & HR1 & HR2). simpl in HR1, HR2. subst p1'.
    destruct (IHb p1 s1 y1 HR2 _ H2) as ([p2' y2] & HM2 & HR3 & HR4). simpl in HR3, HR4.
    exists (p2', y2). split; [|split; simpl; auto].
    apply in_flat_map. exists (p1, y1). auto.
  - apply covered_app; auto.
  - apply smay_star_sound. exact Hs.
  - intros x HI. apply in_map_iff in HI. destruct HI as ([[p1 s1] k1] & <- & H1).
    destruct (IH pos s y Hs _ H1) as (b & HM & HR). exists b. split; auto.
  - destruct (Nat.eqb pos 0); [apply covered_one; exact Hs|intros a []].
  - destruct (at_end s) eqn:E; [|intros a []].
    assert (H : smay_end y = true).
    { destruct Hs as [|c k s y Hc Hs]; auto.
      destruct Hs as [|c2 k2 s y Hc2 Hs]; simpl in *; [|discriminate].
      apply existsb_exists. eauto. }
    rewrite H. apply covered_one. exact Hs.
Qed.

Lemma smay_none : forall r s y, inst s y -> smay r 0 y = [] -> re_match r s = None.
Proof.
  intros r s y Hs H. unfold re_match. destruct (run r 0 s) as [|[[e s'] k] l] eqn:E; auto.
  destruct (smay_sound r 0 s y Hs (e, s', k)) as (b & HI & _).
  - rewrite E. left. reflexivity.
  - rewrite H in HI. destruct HI.
Qed.

(** ** Common sets of characters *)
Definition lit (s : string) : list sym := map (fun c => [c]) (py s).
Arguments lit s%string.
Definition digits10 : sym := map dig [0; 1; 2; 3; 4; 5; 6; 7; 8; 9]%N.
Definition letters : sym := py "ABCDEFGHIJKLMNOPQRSTUVWXYZ".

Lemma inst_lit : forall s, inst (py s) (lit s).
Proof.
  intro s. unfold lit. induction (py s); simpl; constructor; simpl; auto.
Qed.

Lemma inst_app : forall a b y z, inst a y -> inst b z -> inst (a ++ b) (y ++ z).
Proof. intros. apply Forall2_app; auto. Qed.
