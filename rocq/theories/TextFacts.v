(** * Cutting texts at keywords and joining neighbouring words *)
From Coq Require Import String Ascii.
From Coq Require Import List NArith ZArith Bool Lia.
From Verif Require Import PyBase PyRegex AeroRegex Utils StrFacts SpecText ProofText.
Import ListNotations.
Open Scope list_scope.

(** ** Literal patterns *)

Lemma mlen_literal : forall p s, p <> [] ->
  mlen (literal p) s = if starts_with p s then Some (length p) else None.
Proof.
  intros p. induction p as [|c p IH]; intros s Hp; [congruence|].
  destruct p as [|d p].
  - unfold mlen. cbn [literal run chr1 length starts_with]. destruct s as [|x s]; [reflexivity|].
    unfold chr1. cbn [run]. rewrite in_one, N.eqb_sym, andb_true_r. destruct (N.eqb c x); reflexivity.
  - assert (IH' := IH s ltac:(discriminate)). clear IH'.
    change (literal (c :: d :: p)) with (Seq (chr1 c) (literal (d :: p))).
    unfold mlen. cbn [run]. unfold chr1 at 1. destruct s as [|x s]; [reflexivity|].
    cbn [run]. rewrite in_one. cbn [starts_with]. rewrite (N.eqb_sym x c).
    destruct (N.eqb c x); [|reflexivity]. cbn [flat_map andb]. rewrite app_nil_r.
    assert (E := IH s ltac:(discriminate)). unfold mlen in E.
    assert (R := run_shift (literal (d :: p)) s 1 0).
    assert (B : nobos (literal (d :: p)) = true).
    { clear. revert d. induction p as [|e p IHp]; intro d; [reflexivity|]. exact (IHp e). }
    specialize (R B). change (1 + 0) with 1 in R. rewrite R. clear R.
    change (starts_with (d :: p) s) with (starts_with (d :: p) s) in *.
    destruct (run (literal (d :: p)) 0 s) as [|[[e t] sp] l]; cbn [map sh].
    + change (match s with [] => false | y :: s' => N.eqb d y && starts_with p s' end)
        with (starts_with (d :: p) s).
      destruct (starts_with (d :: p) s); [discriminate|reflexivity].
    + change (match s with [] => false | y :: s' => N.eqb d y && starts_with p s' end)
        with (starts_with (d :: p) s).
      destruct (starts_with (d :: p) s); [|discriminate]. injection E as ->. cbn [length]. reflexivity.
Qed.

Lemma nobos_literal : forall p, nobos (literal p) = true.
Proof. induction p as [|c [|d p] IH]; try reflexivity. exact IH. Qed.

(** ** Marking the spaces before keywords *)

Fixpoint mark (P : str -> bool) (s : str) : str :=
  match s with
  | [] => []
  | c :: s' => (if N.eqb c 32 && P s' then 124%N else c) :: mark P s'
  end.

Definition keyword (kw : str) : Prop := kw <> [] /\ ~ In 32%N kw /\ ~ In 124%N kw.

Lemma mark_app : forall P a t, ~ In 32%N a -> mark P (a ++ t) = a ++ mark P t.
Proof.
  intros P a t H. induction a as [|c a IH]; [reflexivity|]. cbn [app mark].
  destruct (N.eqb_spec c 32) as [->|E]; [destruct H; left; reflexivity|]. cbn [andb].
  rewrite IH by (intro K; apply H; right; exact K). reflexivity.
Qed.

Lemma sub_mark : forall kw, keyword kw -> forall n s, length s <= n ->
  re_sub (literal (32%N :: kw)) (124%N :: kw) s None = mark (starts_with kw) s.
Proof.
  intros kw (Hn & H1 & H2) n. induction n as [|n IH]; intros s Hs.
  - destruct s; [|cbn [length] in Hs; lia]. apply re_sub_nil. rewrite mlen_literal by discriminate. reflexivity.
  - destruct s as [|c s].
    + apply re_sub_nil. rewrite mlen_literal by discriminate. reflexivity.
    + cbn [length] in Hs. cbn [mark].
      assert (M := mlen_literal (32%N :: kw) (c :: s) ltac:(discriminate)). cbn [starts_with] in M.
      rewrite (N.eqb_sym 32 c) in M. destruct (N.eqb_spec c 32) as [->|E]; cbn [andb] in *.
      * destruct (starts_with kw s) eqn:Es.
        -- apply starts_with_app in Es. destruct Es as (t & ->).
           change (32%N :: kw ++ t) with ((32%N :: kw) ++ t) in *.
           rewrite re_sub_hit; auto using nobos_literal; try discriminate.
           ++ cbn [cnt_pred]. rewrite IH by (rewrite app_length in Hs; lia).
              rewrite mark_app by exact H1. reflexivity.
           ++ rewrite mlen_literal by discriminate. reflexivity.
        -- rewrite re_sub_copy; auto using nobos_literal. rewrite IH by lia. reflexivity.
      * rewrite re_sub_copy; auto using nobos_literal. rewrite IH by lia. reflexivity.
Qed.

Lemma starts_mark : forall P p s, ~ In 32%N p -> ~ In 124%N p -> starts_with p (mark P s) = starts_with p s.
Proof.
  intros P p. induction p as [|c p IH]; intros s H1 H2; [reflexivity|].
  destruct s as [|d s]; [reflexivity|]. cbn [mark starts_with].
  rewrite IH by (intro K; first [apply H1; right; exact K|apply H2; right; exact K]).
  destruct (N.eqb_spec d 32) as [->|E]; [|reflexivity]. destruct (P s); [|reflexivity]. cbn [andb].
  destruct (N.eqb_spec c 32) as [->|E1]; [destruct H1; left; reflexivity|].
  destruct (N.eqb_spec c 124) as [->|E2]; [destruct H2; left; reflexivity|]. reflexivity.
Qed.

Lemma mark_mark : forall P kw s, keyword kw ->
  mark (starts_with kw) (mark P s) = mark (fun t => P t || starts_with kw t) s.
Proof.
  intros P kw s (Hn & H1 & H2). induction s as [|c s IH]; [reflexivity|]. cbn [mark].
  rewrite IH, starts_mark by assumption. f_equal.
  destruct (N.eqb_spec c 32) as [->|E]; cbn [andb].
  - destruct (P s); reflexivity.
  - destruct (N.eqb_spec c 32); [congruence|]. reflexivity.
Qed.

Lemma mark_ext : forall P Q s, (forall t, P t = Q t) -> mark P s = mark Q s.
Proof. intros P Q s H. induction s as [|c s IH]; [reflexivity|]. cbn [mark]. rewrite H, IH. reflexivity. Qed.

Lemma mark_false : forall s, mark (fun _ => false) s = s.
Proof.
  induction s as [|c s IH]; [reflexivity|]. cbn [mark]. rewrite IH, andb_false_r. reflexivity.
Qed.

(** split.py with a space on the left of every keyword *)
Lemma split_left : forall kws s,
  Forall (fun kw => keyword kw /\ match kw with c :: _ => is_space c = false | [] => False end) kws ->
  split_sentence s kws None SpLeft = split_on 124 (mark (begins_any kws) s).
Proof.
  intros kws s H. unfold split_sentence. f_equal.
  assert (G : forall P, fold_left (fun s kw =>
       let kw := add_space SpLeft kw in re_sub (literal kw) (py "|" ++ lstrip kw) s None) kws (mark P s)
       = mark (fun t => P t || begins_any kws t) s).
  { induction H as [|kw kws [Hk Hs] H IH]; intro P.
    - cbn [fold_left]. apply mark_ext. intro t. cbn. rewrite orb_false_r. reflexivity.
    - cbn [fold_left]. cbv zeta.
      assert (E : lstrip (add_space SpLeft kw) = kw).
      { unfold add_space. change (py " " ++ kw) with (32%N :: kw). cbn [lstrip].
        change (is_space 32) with true. cbv iota. destruct kw as [|c kw]; [destruct Hs|].
        apply lstrip_nospace. exact Hs. }
      rewrite E. unfold add_space. change (py " " ++ kw) with (32%N :: kw).
      change (py "|" ++ kw) with (124%N :: kw).
      rewrite (sub_mark kw Hk _ _ (le_n _)). rewrite mark_mark by exact Hk. rewrite IH.
      apply mark_ext. intro t. unfold begins_any. cbn [existsb]. rewrite orb_assoc. reflexivity. }
  rewrite <- (mark_false s) at 1. rewrite G. reflexivity.
Qed.

(** ** Cuts *)

Lemma begins_mark : forall P kws s, Forall keyword kws -> begins_any kws (mark P s) = begins_any kws s.
Proof.
  intros P kws s H. unfold begins_any. induction H as [|kw kws (_ & H1 & H2) H IH]; [reflexivity|].
  cbn [existsb]. rewrite IH, starts_mark by assumption. reflexivity.
Qed.

Lemma starts_cut : forall kw a t, ~ In 124%N kw -> starts_with kw (a ++ 124%N :: t) = starts_with kw a.
Proof.
  intros kw. induction kw as [|c kw IH]; intros a t H; [reflexivity|].
  destruct a as [|d a]; cbn [app starts_with].
  - destruct (N.eqb_spec c 124) as [->|E]; [destruct H; left; reflexivity|reflexivity].
  - rewrite IH by (intro K; apply H; right; exact K). reflexivity.
Qed.

Lemma starts_cut32 : forall kw a t, ~ In 32%N kw -> starts_with kw (a ++ 32%N :: t) = starts_with kw a.
Proof.
  intros kw. induction kw as [|c kw IH]; intros a t H; [reflexivity|].
  destruct a as [|d a]; cbn [app starts_with].
  - destruct (N.eqb_spec c 32) as [->|E]; [destruct H; left; reflexivity|reflexivity].
  - rewrite IH by (intro K; apply H; right; exact K). reflexivity.
Qed.

Lemma begins_cut32 : forall kws a t, Forall keyword kws ->
  begins_any kws (a ++ 32%N :: t) = begins_any kws a.
Proof.
  intros kws a t H. unfold begins_any. induction H as [|kw kws (_ & H1 & H2) H IH]; [reflexivity|].
  cbn [existsb]. rewrite IH, starts_cut32 by assumption. reflexivity.
Qed.

Lemma begins_hd : forall kws s p ps, Forall keyword kws -> split_on 124 s = p :: ps ->
  begins_any kws s = begins_any kws p.
Proof.
  intros kws s p ps H E. assert (J := join_split 124 s). rewrite E in J. subst s.
  destruct ps as [|q ps]; [reflexivity|]. cbn [join app].
  unfold begins_any. induction H as [|kw kws (_ & H1 & H2) H IH]; [reflexivity|].
  cbn [existsb]. rewrite IH by exact E. rewrite starts_cut by exact H2. reflexivity.
Qed.

Lemma mark_pieces : forall kws s, Forall keyword kws -> ~ In 124%N s ->
  pieces kws s (split_on 124 (mark (begins_any kws) s)).
Proof.
  intros kws s Hk. induction s as [|c s IH]; intro Hs.
  - split; [reflexivity|]. split; [discriminate|]. split; [|constructor].
    constructor; [|constructor]. intros a b E. destruct a; discriminate.
  - destruct IH as (E & Hn & Hu & Hb); [intro K; apply Hs; right; exact K|].
    cbn [mark]. remember (mark (begins_any kws) s) as m eqn:Em.
    assert (Hm : begins_any kws m = begins_any kws s).
    { subst m. apply begins_mark. exact Hk. }
    assert (Hp : begins_any kws s = begins_any kws (hd [] (split_on 124 m))).
    { rewrite <- Hm. destruct (split_on 124 m) as [|p ps] eqn:Ep; [congruence|].
      apply (begins_hd kws m p ps Hk Ep). }
    destruct (N.eqb_spec c 32) as [->|E32]; cbn [andb].
    + destruct (begins_any kws s) eqn:Eb.
      * cbn [split_on]. change (N.eqb 124 124) with true. cbv iota.
        split; [|split; [discriminate|]].
        -- unfold sentence in *. rewrite join_cons by exact Hn. cbn. f_equal. exact E.
        -- split.
           ++ constructor; [|exact Hu]. intros a b K. destruct a; discriminate.
           ++ cbn [tl]. destruct (split_on 124 m) as [|p ps] eqn:Ep; [congruence|].
              constructor; [symmetry; exact Hp|exact Hb].
      * cbn [split_on]. change (N.eqb 32 124) with false. cbv iota.
        destruct (split_on 124 m) as [|p ps] eqn:Ep; [congruence|].
        split; [|split; [discriminate|]].
        -- unfold sentence in *. destruct ps; cbn [join app] in *; rewrite E; reflexivity.
        -- inversion Hu as [|p0 l0 Hup Hups]; subst p0 l0. split; [|exact Hb].
           constructor; [|exact Hups]. intros a b K. destruct a as [|x a]; injection K.
           ++ intro K2. subst b. symmetry. exact Hp.
           ++ intros K2 _. apply (Hup a b K2).
    + cbn [split_on]. destruct (N.eqb_spec c 124) as [->|E124]; [destruct Hs; left; reflexivity|].
      destruct (split_on 124 m) as [|p ps] eqn:Ep; [congruence|].
      split; [|split; [discriminate|]].
      * unfold sentence in *. destruct ps; cbn [join app] in *; rewrite E; reflexivity.
      * inversion Hu as [|p0 l0 Hup Hups]; subst p0 l0. split; [|exact Hb].
        constructor; [|exact Hups]. intros a b K. destruct a as [|x a]; injection K.
        -- congruence.
        -- intros K2 _. apply (Hup a b K2).
Qed.

(** A text has only one cut. *)
Lemma mark_uncut : forall kws p t, Forall keyword kws -> uncut kws p ->
  mark (begins_any kws) (p ++ 32%N :: t) = p ++ mark (begins_any kws) (32%N :: t).
Proof.
  intros kws p t Hk. induction p as [|c p IH]; intro Hu; [reflexivity|].
  cbn [app mark]. rewrite IH.
  2:{ intros a b E. apply (Hu (c :: a) b). rewrite E. reflexivity. }
  rewrite begins_cut32 by exact Hk. cbn [mark].
  destruct (N.eqb_spec c 32) as [->|E]; cbn [andb]; [|reflexivity].
  rewrite (Hu [] p eq_refl). reflexivity.
Qed.

Lemma mark_uncut_all : forall kws p, uncut kws p -> mark (begins_any kws) p = p.
Proof.
  intros kws p. induction p as [|c p IH]; intro Hu; [reflexivity|]. cbn [mark].
  rewrite IH.
  2:{ intros a b E. apply (Hu (c :: a) b). rewrite E. reflexivity. }
  destruct (N.eqb_spec c 32) as [->|E]; cbn [andb]; [|reflexivity].
  rewrite (Hu [] p eq_refl). reflexivity.
Qed.

Lemma begins_sentence : forall kws p ps, Forall keyword kws ->
  begins_any kws (sentence (p :: ps)) = begins_any kws p.
Proof.
  intros kws p ps Hk. destruct ps as [|q ps]; [reflexivity|]. unfold sentence. cbn [join].
  change (p ++ py " " ++ join (py " ") (q :: ps)) with (p ++ 32%N :: join (py " ") (q :: ps)).
  apply begins_cut32. exact Hk.
Qed.

Lemma pieces_unique : forall kws s ps, Forall keyword kws -> ~ In 124%N s -> pieces kws s ps ->
  split_on 124 (mark (begins_any kws) s) = ps.
Proof.
  intros kws s ps Hk Hs (-> & Hn & Hu & Hb).
  assert (G : mark (begins_any kws) (sentence ps) = join [124%N] ps).
  { clear Hs. induction ps as [|p ps IH]; [congruence|]. inversion Hu as [|p0 l0 Hup Hups]; subst.
    destruct ps as [|q ps].
    - cbn [join]. unfold sentence. cbn [join]. apply mark_uncut_all. exact Hup.
    - cbn [tl] in Hb. inversion Hb as [|q0 l0 Hq Hqs]; subst.
      change (sentence (p :: q :: ps)) with (p ++ 32%N :: sentence (q :: ps)).
      rewrite mark_uncut by assumption. cbn [mark]. rewrite begins_sentence by exact Hk. rewrite Hq.
      change (N.eqb 32 32 && true) with true. cbv iota. rewrite IH; [reflexivity|discriminate|exact Hups|exact Hqs]. }
  rewrite G. apply split_join; [exact Hn|].
  apply Forall_forall. intros p Hp K. apply Hs. clear - Hp K.
  unfold sentence. induction ps as [|q ps IH]; [destruct Hp|].
  destruct ps as [|r ps].
  - destruct Hp as [->|[]]. exact K.
  - cbn [join]. destruct Hp as [->|Hp].
    + apply in_or_app. left. exact K.
    + apply in_or_app. right. apply in_or_app. right. apply IH. exact Hp.
Qed.
