(** * The first match on a family of strings

    [srun] wants every class test decided; [sfirst] follows only the path a
    backtracking matcher takes and stops at its first success, so later
    alternatives may stay undecided.  With [more] the family is that of all
    strings which begin as described; reading past the known part is then
    undecided. *)
From Coq Require Import String Ascii.
From Coq Require Import List NArith ZArith Bool Lia.
From Verif Require Import PyBase PyRegex SymRegex ProofGroups.
Import ListNotations.
Open Scope list_scope.

Section First.
Context {X : Type}.
Variable more : bool.

(** Strings that begin, or with [more = false] consist of, one of the family. *)
Definition begs (s : str) (y : list sym) : Prop :=
  exists a b, s = a ++ b /\ inst a y /\ (more = false -> b = []).

Definition ends (y : list sym) : option bool :=
  if more then
    match y with
    | [] => None
    | [k] => if forallb (fun c => negb (N.eqb c 10)) k then Some false else None
    | _ => Some false
    end
  else sat_end y.

(** None: undecided; Some None: no match. *)
Definition sans := option (option X).
Definition or_else (a b : sans) : sans := match a with Some None => b | _ => a end.

Fixpoint sfirst_star (k : cls) (pos : nat) (y : list sym) (f : nat -> list sym -> spans -> sans) : sans :=
  match y with
  | c :: y' =>
      if all_in k c then or_else (sfirst_star k (S pos) y' f) (f pos y [])
      else if none_in k c then f pos y [] else None
  | [] => if more then None else f pos y []
  end.

Fixpoint sfirst (r : regex) (pos : nat) (y : list sym) (f : nat -> list sym -> spans -> sans) : sans :=
  match r with
  | Eps => f pos y []
  | Chr k => match y with
             | c :: y' => if all_in k c then f (S pos) y' []
                          else if none_in k c then Some None else None
             | [] => if more then None else Some None
             end
  | Seq a b =>
      sfirst a pos y (fun p1 y1 k1 => sfirst b p1 y1 (fun p2 y2 k2 => f p2 y2 (k2 ++ k1)))
  | Alt a b => or_else (sfirst a pos y f) (sfirst b pos y f)
  | Star k => sfirst_star k pos y f
  | Grp n r => sfirst r pos y (fun p1 y1 k1 => f p1 y1 ((n, (pos, p1)) :: k1))
  | Bos => if Nat.eqb pos 0 then f pos y [] else Some None
  | Eos => match ends y with
           | Some true => f pos y []
           | Some false => Some None
           | None => None
           end
  end.

(** The first success among the matches. *)
Fixpoint first_some (g : nat -> str -> spans -> option X) (l : list (nat * str * spans)) : option X :=
  match l with
  | [] => None
  | (p, s, k) :: l' => match g p s k with Some x => Some x | None => first_some g l' end
  end.

Lemma first_some_app : forall g a b,
  first_some g (a ++ b) = match first_some g a with Some x => Some x | None => first_some g b end.
Proof.
  intros g a b. induction a as [|[[p s] k] a IH]; [reflexivity|]. cbn [app first_some].
  destruct (g p s k); [reflexivity|exact IH].
Qed.

Lemma first_some_flat : forall g (h : nat * str * spans -> list (nat * str * spans)) l,
  first_some g (flat_map h l) = first_some (fun p s k => first_some g (h (p, s, k))) l.
Proof.
  intros g h l. induction l as [|[[p s] k] l IH]; [reflexivity|]. cbn [flat_map first_some].
  rewrite first_some_app, IH. reflexivity.
Qed.

Lemma first_some_map : forall g (h : nat * str * spans -> nat * str * spans) l,
  first_some g (map h l)
  = first_some (fun p s k => let '(p', s', k') := h (p, s, k) in g p' s' k') l.
Proof.
  intros g h l. induction l as [|[[p s] k] l IH]; [reflexivity|]. cbn [map first_some].
  destruct (h (p, s, k)) as [[p' s'] k']. destruct (g p' s' k'); [reflexivity|exact IH].
Qed.

Lemma first_some_ext : forall g h l, (forall p s k, g p s k = h p s k) -> first_some g l = first_some h l.
Proof.
  intros g h l E. induction l as [|[[p s] k] l IH]; [reflexivity|]. cbn [first_some]. rewrite E, IH. reflexivity.
Qed.

Definition follows (g : nat -> str -> spans -> option X) (f : nat -> list sym -> spans -> sans) : Prop :=
  forall p s y k v, begs s y -> f p y k = Some v -> g p s k = v.

Lemma or_else_some : forall a b v, or_else a b = Some v ->
  (exists x, a = Some (Some x) /\ v = Some x) \/ (a = Some None /\ b = Some v).
Proof.
  intros [[x|]|] b v H; cbn in H.
  - left. exists x. split; congruence.
  - right. auto.
  - discriminate.
Qed.

Lemma begs_cons : forall s c y, begs s (c :: y) -> exists c0 s0, s = c0 :: s0 /\ In c0 c /\ begs s0 y.
Proof.
  intros s c y (a & b & -> & Hi & Hb). inversion Hi as [|c0 k0 a0 y0 Hc Ha]; subst.
  exists c0, (a0 ++ b). split; [reflexivity|]. split; [exact Hc|]. exists a0, b. auto.
Qed.

Lemma begs_nil : forall s, more = false -> begs s [] -> s = [].
Proof. intros s Hm (a & b & -> & Hi & Hb). rewrite (Hb Hm). inversion Hi. reflexivity. Qed.

Lemma ends_sound : forall y v s, begs s y -> ends y = Some v -> at_end s = v.
Proof.
  intros y v s (a & b & -> & Hi & Hb). unfold ends. destruct more eqn:Em.
  - destruct Hi as [|c k a y Hc Ha]; [discriminate|]. destruct Ha as [|c2 k2 a y Hc2 Ha].
    + destruct (forallb (fun c => negb (N.eqb c 10)) k) eqn:E; [|discriminate]. intro H. injection H as <-.
      rewrite forallb_forall in E. apply E in Hc. apply negb_true_iff in Hc.
      destruct b as [|x b]; cbn; [exact Hc|reflexivity].
    + intro H. injection H as <-. reflexivity.
  - rewrite (Hb eq_refl), app_nil_r. apply sat_end_sound. exact Hi.
Qed.

Lemma sfirst_star_sound : forall k y pos s f g v, begs s y -> follows g f ->
  sfirst_star k pos y f = Some v -> first_some g (run_star k pos s) = v.
Proof.
  intros k y. induction y as [|c y IH]; intros pos s f g v Hs Hf H; cbn [sfirst_star] in H.
  - destruct more eqn:Em; [discriminate|].
    assert (E := begs_nil s Em Hs). subst s. cbn. rewrite (Hf pos [] [] [] v Hs H). destruct v; reflexivity.
  - destruct (begs_cons _ _ _ Hs) as (c0 & s0 & -> & Hc & Hs0). cbn [run_star].
    destruct (all_in k c) eqn:E1.
    + rewrite (all_in_sound k c c0 E1 Hc), first_some_app.
      apply or_else_some in H. destruct H as [(x & Hx & ->)|[Hn H]].
      * rewrite (IH _ _ _ _ _ Hs0 Hf Hx). reflexivity.
      * rewrite (IH _ _ _ _ _ Hs0 Hf Hn). cbn [first_some].
        rewrite (Hf _ _ _ _ _ Hs H). destruct v; reflexivity.
    + destruct (none_in k c) eqn:E2; [|discriminate].
      rewrite (none_in_sound k c c0 E2 Hc). cbn [first_some].
      rewrite (Hf _ _ _ _ _ Hs H). destruct v; reflexivity.
Qed.

Lemma sfirst_sound : forall r pos s y f g v, begs s y -> follows g f ->
  sfirst r pos y f = Some v -> first_some g (run r pos s) = v.
Proof.
  induction r as [|k|a IHa b IHb|a IHa b IHb|k|n r IH| |]; intros pos s y f g v Hs Hf H;
    cbn [sfirst run] in *.
  - cbn [first_some]. rewrite (Hf _ _ _ _ _ Hs H). destruct v; reflexivity.
  - destruct y as [|k0 y].
    + destruct more eqn:Em; [discriminate|]. rewrite (begs_nil s Em Hs). cbn. congruence.
    + destruct (begs_cons _ _ _ Hs) as (c & s0 & -> & Hc & Hs0).
      destruct (all_in k k0) eqn:E1.
      * rewrite (all_in_sound k k0 c E1 Hc). cbn [first_some].
        rewrite (Hf _ _ _ _ _ Hs0 H). destruct v; reflexivity.
      * destruct (none_in k k0) eqn:E2; [|discriminate].
        rewrite (none_in_sound k k0 c E2 Hc). cbn. congruence.
  - rewrite first_some_flat.
    refine (IHa _ _ _ _ _ _ Hs _ H).
    intros p1 s1 y1 k1 v1 H1 Hv. cbv beta in *. rewrite first_some_map.
    refine (IHb _ _ _ _ _ _ H1 _ Hv).
    intros p2 s2 y2 k2 v2 H2 Hv2. exact (Hf _ _ _ _ _ H2 Hv2).
  - rewrite first_some_app. apply or_else_some in H. destruct H as [(x & Hx & ->)|[Hn H]].
    + rewrite (IHa _ _ _ _ _ _ Hs Hf Hx). reflexivity.
    + rewrite (IHa _ _ _ _ _ _ Hs Hf Hn). exact (IHb _ _ _ _ _ _ Hs Hf H).
  - exact (sfirst_star_sound _ _ _ _ _ _ _ Hs Hf H).
  - rewrite first_some_map. refine (IH _ _ _ _ _ _ Hs _ H).
    intros p1 s1 y1 k1 v1 H1 Hv. exact (Hf _ _ _ _ _ H1 Hv).
  - destruct (Nat.eqb pos 0); [|cbn; congruence]. cbn [first_some].
    rewrite (Hf _ _ _ _ _ Hs H). destruct v; reflexivity.
  - destruct (ends y) as [b|] eqn:E; [|discriminate].
    rewrite (ends_sound _ _ _ Hs E). destruct b; [|cbn; congruence]. cbn [first_some].
    rewrite (Hf _ _ _ _ _ Hs H). destruct v; reflexivity.
Qed.
End First.

(** The match object for every string of the family. *)
Definition smatch1 (more : bool) (r : regex) (y : list sym) : option (option (nat * spans)) :=
  sfirst more r 0 y (fun p _ k => Some (Some (p, k))).

Lemma smatch1_sound : forall more r y s x, begs more s y -> smatch1 more r y = Some x ->
  re_match r s = match x with Some (e, sp) => Some (mk_match s 0 e sp) | None => None end.
Proof.
  intros more r y s x Hs H. unfold smatch1 in H. unfold re_match.
  assert (F := sfirst_sound more r 0 s y (fun p _ k => Some (Some (p, k))) (fun p _ k => Some (p, k)) x Hs).
  rewrite <- F; [|intros p s' y' k v _ Hv; congruence|exact H].
  destruct (run r 0 s) as [|[[e s'] sp] l]; reflexivity.
Qed.

(** Captures, and the end of the match. *)
Definition captures1_ok (more : bool) (r : regex) (names : list string) (e : nat) (s : shape) : bool :=
  match smatch1 more r (ssym s) with
  | Some (Some (e', sp)) => Nat.eqb e e' && forallb (fun n => span_eqb (span_of n sp) (seg_span n 0 s)) names
  | _ => false
  end.

Lemma captures1 : forall r names e t s,
  fits t s -> captures1_ok false r names e s = true ->
  exists m, re_match r (tcode t) = Some m /\ m_string m = tcode t /\ m_end m = e
    /\ forall n, In n names -> group m n = lookup n t.
Proof.
  intros r names e t s Hf H. unfold captures1_ok in H.
  destruct (smatch1 false r (ssym s)) as [[[e' sp]|]|] eqn:E; try discriminate.
  apply andb_true_iff in H. destruct H as [He H]. apply Nat.eqb_eq in He. subst e'.
  exists (mk_match (tcode t) 0 e sp). split; [|split; [|split]]; auto.
  - refine (smatch1_sound false _ _ _ _ _ E). exists (tcode t), []. rewrite app_nil_r.
    split; [reflexivity|]. split; [exact (fits_inst t s Hf)|reflexivity].
  - intros n HI. rewrite forallb_forall in H. apply H in HI. apply span_eqb_eq in HI.
    unfold group. simpl. rewrite HI. apply lookup_span. exact Hf.
Qed.

(** The same when any text follows. *)
Lemma captures_more : forall r names e t s rest,
  fits t s -> captures1_ok true r names e s = true ->
  exists m, re_match r (tcode t ++ rest) = Some m /\ m_string m = tcode t ++ rest /\ m_end m = e
    /\ forall n, In n names -> group m n = lookup n t.
Proof.
  intros r names e t s rest Hf H. unfold captures1_ok in H.
  destruct (smatch1 true r (ssym s)) as [[[e' sp]|]|] eqn:E; try discriminate.
  apply andb_true_iff in H. destruct H as [He H]. apply Nat.eqb_eq in He. subst e'.
  exists (mk_match (tcode t ++ rest) 0 e sp). split; [|split; [|split]]; auto.
  - refine (smatch1_sound true _ _ _ _ _ E). exists (tcode t), rest.
    split; [reflexivity|]. split; [exact (fits_inst t s Hf)|discriminate].
  - intros n HI. rewrite forallb_forall in H. apply H in HI. apply span_eqb_eq in HI.
    assert (L := lookup_span n t s Hf).
    unfold group. cbn [m_spans m_string]. rewrite HI.
    rewrite <- L. destruct (seg_span n 0 s) as [[x y]|] eqn:Es; [|reflexivity].
    f_equal. assert (B : (y <= length (tcode t))%nat).
    { rewrite (inst_length _ _ (fits_inst t s Hf)). clear - Es. 
      assert (G : forall s pos, seg_span n pos s = Some (x, y) -> (y <= pos + length (ssym s))%nat).
      { clear. induction s as [|[n' k] s IH]; intros pos H; [discriminate|]. cbn [seg_span] in H. unfold ssym in *. cbn [map concat snd].
        rewrite app_length. destruct (String.eqb n n').
        - injection H as _ <-. lia.
        - apply IH in H. lia. }
      apply (G s 0%nat Es). }
    unfold substr. rewrite skipn_app, firstn_app. clear - B. rewrite skipn_length.
    replace (y - x - (length (tcode t) - x))%nat with 0%nat by lia. cbn [firstn]. apply app_nil_r.
Qed.
