(** * Texts counted in the body of a TAF *)
From Coq Require Import String Ascii.
From Coq Require Import List NArith ZArith Bool Lia.
From Verif Require Import PyBase PyRegex AeroRegex PyTime Utils Base Trend Taf
  SpecNum SpecTime SpecText SpecTaf SpecFailures SpecTafFailures StrFacts RegexPaths MergeFacts TextFacts ProofText ProofSections
  ProofTafText Keeps OutReport OutTafBody OutTafHead.
Import ListNotations.
Local Open Scope string_scope.
Local Open Scope nat_scope.
Local Open Scope list_scope.

(** ** The text of a group is one its regular expression describes *)

Fixpoint grps (r : regex) : list (string * regex) :=
  match r with
  | Seq a b | Alt a b => grps a ++ grps b
  | Grp n r => (n, r) :: grps r
  | _ => []
  end.

Lemma run_spans : forall r s pos p t sp n b e, In (p, t, sp) (run r pos s) -> In (n, (b, e)) sp ->
  exists body a x u, In (n, body) (grps r) /\ s = a ++ x ++ u /\ b = pos + length a /\ e = b + length x /\ den body x.
Proof.
  induction r as [|k|r1 IH1 r2 IH2|r1 IH1 r2 IH2|k|n r IH| |]; intros s pos p t sp n0 b e H I; cbn [run grps] in *.
  - destruct H as [H|[]]. injection H as <- <- <-. destruct I.
  - destruct s as [|c s]; [destruct H|]. destruct (in_cls c k); [|destruct H]. destruct H as [H|[]]. injection H as <- <- <-. destruct I.
  - apply in_flat_map in H. destruct H as ([[p1 s1] k1] & H1 & H2).
    apply in_map_iff in H2. destruct H2 as ([[p2 s2] k2] & E & H2). injection E as <- <- <-.
    apply in_app_or in I. destruct I as [I|I].
    + destruct (IH2 _ _ _ _ _ _ _ _ H2 I) as (body & a & x & u & G & -> & Eb & Ee & D).
      destruct (run_den _ _ _ _ _ _ H1) as (x1 & -> & -> & _).
      exists body, (x1 ++ a), x, u. split; [apply in_or_app; right; exact G|]. rewrite <- app_assoc, app_length.
      split; [reflexivity|]. split; [lia|]. split; assumption.
    + destruct (IH1 _ _ _ _ _ _ _ _ H1 I) as (body & a & x & u & G & K).
      exists body, a, x, u. split; [apply in_or_app; left; exact G|exact K].
  - apply in_app_or in H. destruct H as [H|H].
    + destruct (IH1 _ _ _ _ _ _ _ _ H I) as (body & a & x & u & G & K).
      exists body, a, x, u. split; [apply in_or_app; left; exact G|exact K].
    + destruct (IH2 _ _ _ _ _ _ _ _ H I) as (body & a & x & u & G & K).
      exists body, a, x, u. split; [apply in_or_app; right; exact G|exact K].
  - exfalso. revert pos H. induction s as [|c s IHs]; intros pos H; cbn [run_star] in H.
    + destruct H as [H|[]]. injection H as <- <- <-. destruct I.
    + destruct (in_cls c k).
      * apply in_app_or in H. destruct H as [H|[H|[]]]; [exact (IHs _ H)|]. injection H as <- <- <-. destruct I.
      * destruct H as [H|[]]. injection H as <- <- <-. destruct I.
  - apply in_map_iff in H. destruct H as ([[p1 s1] k1] & E & H). injection E as <- <- <-. destruct I as [I|I].
    + injection I as <- <- <-. destruct (run_den _ _ _ _ _ _ H) as (x & -> & -> & D).
      exists r, [], x, s1. split; [left; reflexivity|]. split; [reflexivity|]. cbn [length]. split; [lia|]. split; [lia|exact D].
    + destruct (IH _ _ _ _ _ _ _ _ H I) as (body & a & x & u & G & K). exists body, a, x, u. split; [right; exact G|exact K].
  - destruct (Nat.eqb pos 0); [|destruct H]. destruct H as [H|[]]. injection H as <- <- <-. destruct I.
  - destruct (at_end s); [|destruct H]. destruct H as [H|[]]. injection H as <- <- <-. destruct I.
Qed.

Lemma span_in : forall n l be, span_of n l = Some be -> In (n, be) l.
Proof.
  intros n l be. induction l as [|[n' sp] l IH]; intro H; cbn [span_of] in H; [discriminate|].
  destruct (String.eqb_spec n n') as [->|_]; [injection H as <-; left; reflexivity|right; exact (IH H)].
Qed.

Lemma group_den : forall r s m n g, re_match r s = Some m -> group m n = Some g -> exists body, In (n, body) (grps r) /\ den body g.
Proof.
  intros r s m n g M G. unfold re_match in M. destruct (run r 0 s) as [|[[e t] sp] l] eqn:E; [discriminate|]. injection M as <-.
  unfold group in G. cbn [m_spans m_string] in G. destruct (span_of n sp) as [[b f]|] eqn:Es; [|discriminate].
  assert (Eg : substr s b f = g) by congruence. clear G. apply span_in in Es.
  assert (I : In (e, t, sp) (run r 0 s)) by (rewrite E; left; reflexivity).
  destruct (run_spans _ _ _ _ _ _ _ _ _ I Es) as (body & a & x & u & K & -> & -> & -> & D). exists body. split; [exact K|].
  replace g with x; [exact D|]. rewrite <- Eg. unfold substr. cbn [Nat.add].
  rewrite skipn_app, skipn_all2 by lia. rewrite Nat.sub_diag. cbn [app skipn].
  replace (length a + length x - length a) with (length x) by lia.
  rewrite firstn_app, firstn_all, Nat.sub_diag. cbn [firstn]. rewrite app_nil_r. reflexivity.
Qed.

(** ** Joining a whole number and a fraction *)

Section Counted.
Variable w : str.
Hypothesis S : solid w.
Hypothesis T : exists w', w = 84%N :: w'.

Lemma one_solid : Forall solid [w]. Proof. constructor; [exact S|constructor]. Qed.

Lemma places_none : forall s, ~ In 84%N s -> places [w] s = 0.
Proof.
  intros s N. induction s as [|c s IH]; [reflexivity|]. rewrite places_cons. rewrite IH by (intro I; apply N; right; exact I).
  destruct (OutReport.begins_any [w] (c :: s)) eqn:E; [|reflexivity]. exfalso.
  unfold OutReport.begins_any in E. cbn [existsb] in E. rewrite orb_false_r in E. apply starts_split in E. destruct E as (t & E).
  destruct T as (w' & T'). rewrite T' in E. injection E as -> _. apply N. left. reflexivity.
Qed.

Lemma places_two : forall a b, places [w] a + places [w] b <= places [w] (a ++ b).
Proof.
  induction a as [|c a IH]; intro b; [cbn; lia|]. cbn [app]. rewrite !places_cons. specialize (IH b).
  destruct (OutReport.begins_any [w] (c :: a)) eqn:E; [|lia].
  rewrite (begins_mono [w] one_solid (c :: a ++ b) (c :: a)); [lia| |exact E].
  intros v _ (t & Et). exists (t ++ b). change (c :: a ++ b) with ((c :: a) ++ b). rewrite Et, <- app_assoc. reflexivity.
Qed.

Definition no_t (k : cls) : bool := negb (in_cls 84%N k).
Fixpoint free (r : regex) : bool :=
  match r with
  | Eps | Bos | Eos => true
  | Chr k | Star k => no_t k
  | Seq a b | Alt a b => free a && free b
  | Grp _ r => free r
  end.
Lemma free_den : forall r x, free r = true -> den r x -> ~ In 84%N x.
Proof.
  induction r as [|k|a IHa b IHb|a IHa b IHb|k|n r IH| |]; intros x F D; cbn [free den] in *; try (subst x; intros []).
  - destruct D as (c & -> & Hc). intros [->|[]]. unfold no_t in F. rewrite Hc in F. discriminate F.
  - destruct D as (x1 & x2 & -> & D1 & D2). apply andb_true_iff in F. destruct F as [F1 F2]. intro I. apply in_app_or in I.
    destruct I as [I|I]; [exact (IHa x1 F1 D1 I)|exact (IHb x2 F2 D2 I)].
  - apply andb_true_iff in F. destruct F as [F1 F2]. destruct D as [D|D]; [exact (IHa x F1 D)|exact (IHb x F2 D)].
  - intro I. rewrite Forall_forall in D. specialize (D _ I). unfold no_t in F. rewrite D in F. discriminate F.
  - exact (IH x F D).
Qed.

Lemma vis_group_free : forall s m n g, re_match r_SAN_VIS s = Some m -> group m n = Some g -> ~ In 84%N g.
Proof.
  intros s m n g M G. destruct (group_den _ _ _ _ _ M G) as (body & I & D). apply (free_den body); [|exact D].
  assert (K : forallb (fun p => free (snd p)) (grps r_SAN_VIS) = true) by (vm_compute; reflexivity).
  rewrite forallb_forall in K. exact (K _ I).
Qed.

Lemma vis_step_places : forall s s', sanitize_visibility_step s = Some s' -> places [w] s' <= places [w] s.
Proof.
  intros s s' H. unfold sanitize_visibility_step in H. destruct (re_search r_SAN_VIS s) as [m|] eqn:Es; [|discriminate].
  destruct (group m "int") as [i|] eqn:Ei; [|discriminate]. destruct (group m "frac") as [f|] eqn:Ef; [|discriminate].
  assert (H' : re_sub r_SAN_VIS (py " " ++ i ++ py "_" ++ f ++ py " ") s (Some 1) = s') by congruence.
  clear H. rewrite <- H'. clear H'.
  destruct (sub_first r_SAN_VIS s m (py " " ++ i ++ py "_" ++ f ++ py " ") eq_refl eq_refl Es)
    as (a & x & t & m0 & Ea & M & Ee & G & Eq).
  rewrite G in Ei, Ef. apply (vis_group_free _ _ _ _ M) in Ei. apply (vis_group_free _ _ _ _ M) in Ef.
  assert (Nx : x <> []).
  { assert (L := re_match_mlen _ _ _ M). destruct (mlen_den _ _ _ L) as (x0 & t0 & E0 & L0 & D).
    apply (den_nonempty r_SAN_VIS) in D; [|reflexivity]. intros ->. cbn in Ee. rewrite Ee in L0. destruct x0; [contradiction|discriminate]. }
  rewrite (Eq Nx).
  assert (E : a ++ (py " " ++ i ++ py "_" ++ f ++ py " ") ++ t = a ++ 32%N :: (i ++ 95%N :: (f ++ 32%N :: t))).
  { rewrite <- !app_assoc. reflexivity. }
  rewrite E, Ea. rewrite !(places_sep [w] one_solid) by reflexivity. rewrite (places_none i Ei), (places_none f Ef).
  pose proof (places_two a (x ++ t)). pose proof (places_two x t). lia.
Qed.

Lemma vis_places : forall s, places [w] (sanitize_visibility s) <= places [w] s.
Proof.
  intro s. unfold sanitize_visibility. generalize 3 as n. intro n. revert s.
  induction n as [|n IH]; intro s; cbn [sanitize_visibility_n]; [apply le_n|].
  destruct (sanitize_visibility_step s) as [s'|] eqn:E; [|apply le_n].
  exact (Nat.le_trans _ _ _ (IH s') (vis_step_places s s' E)).
Qed.

(** ** The groups that begin with it *)

Lemma begun_places : forall n s, length s <= n -> begun w (split_on 32 s) <= places [w] s.
Proof.
  assert (B : forall u, (if starts_with w u then 1 else 0) <= places [w] u).
  { intro u. destruct (starts_with w u) eqn:E; [|lia]. destruct u as [|c u].
    - exfalso. destruct T as (w' & T'). rewrite T' in E. discriminate E.
    - rewrite places_cons. unfold OutReport.begins_any. cbn [existsb]. rewrite E. cbn [orb]. lia. }
  induction n as [|n IH]; intros s L.
  - destruct s; [|cbn in L; lia]. specialize (B []). unfold begun. cbn [split_on filter]. destruct (starts_with w []); exact B.
  - assert (C : ~ In 32%N s \/ exists a b, s = a ++ 32%N :: b /\ ~ In 32%N a).
    { clear. induction s as [|c s IH]; [left; intros []|]. destruct (N.eq_dec c 32) as [->|N].
      - right. exists [], s. split; [reflexivity|intros []].
      - destruct IH as [IH|(a & b & -> & IH)].
        + left. intros [E|E]; [congruence|exact (IH E)].
        + right. exists (c :: a), b. split; [reflexivity|]. intros [E|E]; [congruence|exact (IH E)]. }
    destruct C as [N|(a & b & -> & N)].
    + rewrite split_on_nosep by exact N. unfold begun. cbn [filter]. specialize (B s). destruct (starts_with w s); exact B.
    + rewrite split_on_app by exact N. rewrite (places_sep [w] one_solid) by reflexivity.
      assert (Lb : length b <= n) by (rewrite app_length in L; cbn in L; lia).
      specialize (IH b Lb). specialize (B a). unfold begun in *. cbn [filter]. destruct (starts_with w a); cbn [length]; lia.
Qed.
End Counted.
