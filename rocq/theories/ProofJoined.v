(** * The groups of a section, whatever its words *)
From Coq Require Import String Ascii.
From Coq Require Import List NArith ZArith Bool Lia.
From Verif Require Import PyBase PyRegex AeroRegex Utils StrFacts SpecText SpecWords SpecJoined ProofText TextFacts
  RegexPaths MergeFacts ProofWords Base.
Import ListNotations.
Local Open Scope string_scope.
Local Open Scope nat_scope.
Local Open Scope list_scope.

Lemma solid_ink : forall w, solid w -> ink w.
Proof. intros w H. eapply Forall_impl; [|exact H]. intros c Hc. unfold blank in Hc. destruct (is_space c); congruence. Qed.

(** ** The first match *)

Definition heads (r : regex) (pos : nat) (s : str) (e : nat) (t : str) (sp : spans) : Prop :=
  exists l, run r pos s = (e, t, sp) :: l.

Lemma heads_chr : forall k pos c s, in_cls c k = true -> heads (Chr k) pos (c :: s) (S pos) s [].
Proof. intros k pos c s H. exists []. cbn [run]. rewrite H. reflexivity. Qed.
Lemma heads_seq : forall a b pos s p1 s1 k1 p2 s2 k2, heads a pos s p1 s1 k1 -> heads b p1 s1 p2 s2 k2 ->
  heads (Seq a b) pos s p2 s2 (k2 ++ k1).
Proof.
  intros a b pos s p1 s1 k1 p2 s2 k2 (l1 & E1) (l2 & E2). unfold heads. cbn [run]. rewrite E1. cbn [flat_map]. rewrite E2.
  cbn [map app]. eexists. reflexivity.
Qed.
Lemma heads_grp : forall n r pos s e t sp, heads r pos s e t sp -> heads (Grp n r) pos s e t ((n, (pos, e)) :: sp).
Proof. intros n r pos s e t sp (l & E). unfold heads. cbn [run]. rewrite E. cbn [map]. eexists. reflexivity. Qed.
Lemma heads_alt : forall a b pos s e t sp, heads a pos s e t sp -> heads (Alt a b) pos s e t sp.
Proof. intros a b pos s e t sp (l & E). unfold heads. cbn [run]. rewrite E. eexists. reflexivity. Qed.
Lemma heads_alt2 : forall a b pos s e t sp, run a pos s = [] -> heads b pos s e t sp -> heads (Alt a b) pos s e t sp.
Proof. intros a b pos s e t sp E0 (l & E). unfold heads. cbn [run]. rewrite E0, E. eexists. reflexivity. Qed.
Lemma heads_star : forall k u t pos, Forall (fun c => in_cls c k = true) u ->
  (match t with [] => True | c :: _ => in_cls c k = false end) -> heads (Star k) pos (u ++ t) (pos + length u) t [].
Proof.
  intros k u t pos H. revert pos. induction H as [|c u Hc Hu IH]; intros pos T.
  - unfold heads. cbn [app run length]. rewrite Nat.add_0_r. destruct t as [|c t]; cbn [run_star]; [eexists; reflexivity|].
    rewrite T. eexists. reflexivity.
  - destruct (IH (S pos) T) as (l & E). cbn [run] in E. unfold heads. cbn [app run run_star]. rewrite Hc, E.
    cbn [app length]. rewrite Nat.add_succ_r. eexists. reflexivity.
Qed.
Lemma heads_match : forall r s e t sp, heads r 0 s e t sp ->
  exists m, re_match r s = Some m /\ m_end m = e /\ forall n, group m n = match span_of n sp with Some (b, d) => Some (substr s b d) | None => None end.
Proof.
  intros r s e t sp (l & E). unfold re_match. rewrite E. eexists. split; [reflexivity|]. split; [reflexivity|]. intros n. reflexivity.
Qed.

(** ** Mixed numbers of miles *)

Lemma number_digits : forall u, number u = true -> exists c v, u = c :: v /\ Forall (fun c => is_digit c = true) u.
Proof.
  intros u H. unfold number in H. destruct u as [|c v]; [discriminate H|]. exists c, v. split; [reflexivity|].
  apply Forall_forall. apply forallb_forall. exact H.
Qed.
Lemma digits_number : forall u, u <> [] -> Forall (fun c => is_digit c = true) u -> number u = true.
Proof. intros u N H. unfold number. destruct u as [|c v]; [congruence|]. apply forallb_forall. apply Forall_forall. exact H. Qed.

Lemma mixed_match : forall u a b sp t, number u = true -> is_digit a = true -> is_digit b = true ->
  (sp = [32%N] \/ sp = [] /\ match t with [] => True | c :: _ => is_space c = false end) ->
  exists m, let x := 32%N :: u ++ 32%N :: [a; 47; b; 83; 77]%N ++ sp in
  re_match r_SAN_VIS (x ++ t) = Some m /\ m_end m = length x
  /\ group m "int" = Some u /\ group m "frac" = Some [a; 47; b; 83; 77]%N.
Proof.
  intros u a b sp t Nu Da Db Hs. cbv zeta. destruct (number_digits u Nu) as (c & v & -> & Du).
  assert (Dc : is_digit c = true) by (inversion Du; assumption). assert (Dv : Forall (fun c => is_digit c = true) v) by (inversion Du; assumption).
  set (s := (32%N :: (c :: v) ++ 32%N :: [a; 47; b; 83; 77]%N ++ sp) ++ t).
  assert (Es : s = 32%N :: c :: v ++ 32%N :: a :: 47%N :: b :: 83%N :: 77%N :: sp ++ t).
  { unfold s. cbn [app]. rewrite <- !app_assoc. reflexivity. }
  assert (Sp : in_cls 32%N [CSpace] = true) by reflexivity.
  assert (H : exists e sps, heads r_SAN_VIS 0 s e t sps /\ e = 8 + length v + length sp
    /\ span_of "int" sps = Some (1, 2 + length v) /\ span_of "frac" sps = Some (3 + length v, 8 + length v)).
  { rewrite Es. unfold r_SAN_VIS.
    assert (O : exists e, heads (Alt (Chr [CSpace]) Eps) (8 + length v) (sp ++ t) e t [] /\ e = 8 + length v + length sp).
    { destruct Hs as [->|[-> Ht]].
      - exists (9 + length v). split; [apply heads_alt, heads_chr; exact Sp|cbn; lia].
      - exists (8 + length v). split; [|cbn; lia]. apply heads_alt2; [|exists []; reflexivity].
        cbn [app run]. destruct t as [|d t]; [reflexivity|]. rewrite in_space, Ht. reflexivity. }
    destruct O as (e & O & Ee). exists e. eexists. split; [|split; [exact Ee|]].
    - eapply heads_seq; [apply heads_chr; exact Sp|].
      eapply heads_seq.
      { apply heads_grp. eapply heads_seq; [apply heads_chr; rewrite in_digit; exact Dc|].
        apply (heads_star [CDigit] v (32%N :: a :: 47%N :: b :: 83%N :: 77%N :: sp ++ t) 2); [|reflexivity].
        eapply Forall_impl; [|exact Dv]. intros d Hd. rewrite in_digit. exact Hd. }
      eapply heads_seq; [apply heads_chr; exact Sp|].
      eapply heads_seq; [|exact O].
      apply heads_grp. eapply heads_seq; [apply heads_chr; rewrite in_digit; exact Da|].
      eapply heads_seq; [apply heads_chr; reflexivity|].
      eapply heads_seq; [apply heads_chr; rewrite in_digit; exact Db|].
      eapply heads_seq; [apply heads_chr; reflexivity|]. apply heads_chr. reflexivity.
    - split; reflexivity. }
  destruct H as (e & sps & H & Ee & E1 & E2). destruct (heads_match _ _ _ _ _ H) as (m & M & Me & G).
  exists m. split; [exact M|]. split; [rewrite Me, Ee; cbn [length]; rewrite app_length; cbn [length]; rewrite ?app_length; cbn [length]; lia|].
  rewrite !G, E1, E2. rewrite Es. split; f_equal.
  - unfold substr. replace (2 + length v - 1) with (length (c :: v)) by (cbn [length]; lia). cbn [skipn].
    change (c :: v ++ 32%N :: a :: 47%N :: b :: 83%N :: 77%N :: sp ++ t) with ((c :: v) ++ 32%N :: a :: 47%N :: b :: 83%N :: 77%N :: sp ++ t).
    rewrite firstn_app, Nat.sub_diag, firstn_O, app_nil_r. apply firstn_all.
  - unfold substr. replace (8 + length v - (3 + length v)) with 5 by lia.
    change (32%N :: c :: v ++ 32%N :: a :: 47%N :: b :: 83%N :: 77%N :: sp ++ t)
      with ((32%N :: c :: v) ++ 32%N :: a :: 47%N :: b :: 83%N :: 77%N :: sp ++ t).
    replace (3 + length v) with (length (32%N :: c :: v) + 1) by (cbn [length]; lia).
    rewrite skipn_app, skipn_all2 by lia. replace (length (32%N :: c :: v) + 1 - length (32%N :: c :: v)) with 1 by lia. reflexivity.
Qed.

(** No pair begins in [tails A]. *)
Fixpoint nchain (A : list str) (R : str) : Prop :=
  match A with
  | [] => True
  | u :: A' => number u && frac_next (tails A' ++ R) = false /\ nchain A' R
  end.

Lemma vis_den_number : forall x, den r_SAN_VIS x -> exists b i b2 a c t, x = b :: i ++ b2 :: a :: 47%N :: c :: 83%N :: 77%N :: t
  /\ is_space b = true /\ is_space b2 = true /\ i <> [] /\ Forall (fun c => is_digit c = true) i
  /\ is_digit a = true /\ is_digit c = true.
Proof.
  intros x D. unfold r_SAN_VIS in D. cbn [den] in D.
  destruct D as (x1 & x2 & -> & (b & -> & Hb) & (x3 & x4 & -> & (x5 & x6 & -> & (d & -> & Hd) & Hi)
    & (y5 & y6 & -> & (b2 & -> & Hb2) & (x7 & x8 & -> & (x9 & x10 & -> & (a & -> & Ha) & (x11 & x12 & -> & (c1 & -> & H1)
    & (x13 & x14 & -> & (c & -> & Hc) & (x15 & x16 & -> & (c2 & -> & H2) & (c3 & -> & H3))))) & _)))).
  apply in_one_eq in H1, H2, H3. subst. rewrite in_space in Hb, Hb2. rewrite in_digit in Hd, Ha, Hc.
  exists b, (d :: x6), b2, a, c, x8. split; [cbn [app]; rewrite <- ?app_assoc; reflexivity|].
  split; [exact Hb|]. split; [exact Hb2|]. split; [discriminate|]. split; [|split; assumption].
  constructor; [exact Hd|]. eapply Forall_impl; [|exact Hi]. intros z Hz. cbv beta in Hz. rewrite in_digit in Hz. exact Hz.
Qed.

Lemma mixed_quiet : forall A R, Forall ink A -> bfirst R -> nchain A R -> quiet r_SAN_VIS (tails A) R.
Proof.
  intros A R HA HR. induction HA as [|u A Hu HA IH]; intro H; [apply quiet_nil|]. destruct H as [H1 H2].
  change (tails (u :: A)) with ((32%N :: u) ++ tails A). apply quiet_app; [|apply IH; exact H2].
  apply quiet_cons; [|apply vis_quiet_ink; exact Hu].
  apply mlen_none. intros x t E D. destruct (vis_den_number x D) as (b & i & b2 & a & c & t0 & -> & Hb & Hb2 & Ni & Hi & Ha & Hc).
  cbn [app] in E. injection E as _ E. rewrite <- app_assoc in E.
  destruct (tails_bfirst_app A R HR) as [T|(T & ET)].
  - rewrite T, app_nil_r in E. rewrite T in H1. eapply (ink_no_blank u i b2); [exact Hu|exact Hb2|exact E].
  - rewrite ET in E, H1. apply first_blank in E; [|exact Hu|eapply Forall_impl; [exact is_digit_space|exact Hi]|reflexivity|exact Hb2].
    destruct E as (-> & _ & E). cbn [frac_next] in H1. rewrite (digits_number i Ni Hi) in H1. cbn [andb] in H1.
    rewrite <- not_true_iff_false in H1. apply H1. apply frac_like_iff. exists a, c, (t0 ++ t).
    split; [|split; assumption]. rewrite E. reflexivity.
Qed.

Lemma frac_head_false : forall v t, bfirst t -> frac_like v = false -> frac_like (v ++ t) = false.
Proof. intros v t B H. destruct (frac_like (v ++ t)) eqn:E; [|reflexivity]. rewrite (frac_head v t B E) in H. discriminate H. Qed.

Lemma join_none : forall ws, join_first ws = None -> nchain ws [].
Proof.
  induction ws as [|u [|v rest] IH]; intros H; [exact I|split; [apply andb_false_r|exact I]|].
  cbn [join_first] in H. destruct (number u && frac_like v) eqn:E; [discriminate H|].
  assert (IH' : nchain (v :: rest) []).
  { apply IH. cbn [join_first]. destruct (match rest with [] => None | _ => _ end); [discriminate H|reflexivity]. }
  split; [|exact IH']. rewrite app_nil_r. cbn [tails flat_map frac_next app]. fold (tails rest).
  apply andb_false_iff in E. apply andb_false_iff. destruct E as [E|E]; [left; exact E|right].
  apply frac_head_false; [apply tails_bfirst|exact E].
Qed.

Definition left_over (v : str) (rest : list str) : list str :=
  match skipn 5 v, rest with
  | [], [] => [[]]
  | [], _ => rest
  | w, _ => w :: rest
  end.

Lemma number_no_frac : forall u, number u = true -> frac_like u = false.
Proof.
  intros u H. destruct (frac_like u) eqn:E; [|reflexivity]. apply frac_like_iff in E. destruct E as (a & b & t & -> & _).
  cbn [number forallb] in H. apply andb_prop in H. destruct H as [_ H]. apply andb_prop in H. destruct H as [H _]. vm_compute in H. discriminate H.
Qed.

Lemma join_some : forall ws ws', join_first ws = Some ws' -> exists A u v rest, ws = A ++ u :: v :: rest
  /\ number u = true /\ frac_like v = true /\ nchain A (tails (u :: v :: rest))
  /\ ws' = A ++ (u ++ py "_" ++ firstn 5 v) :: left_over v rest.
Proof.
  induction ws as [|u [|v rest] IH]; intros ws' H; [discriminate H|discriminate H|].
  change (join_first (u :: v :: rest)) with (if number u && frac_like v
      then Some ((u ++ py "_" ++ firstn 5 v) :: left_over v rest)
      else option_map (cons u) (join_first (v :: rest))) in H.
  destruct (number u && frac_like v) eqn:E.
  - apply andb_prop in E. destruct E as [E1 E2]. injection H as <-. exists [], u, v, rest. cbn [app nchain]. auto.
  - destruct (join_first (v :: rest)) as [l|]; [|discriminate H]. cbn [option_map] in H. injection H as <-.
    destruct (IH l eq_refl) as (A & u' & v' & rest' & Ew & N & F & C & ->). exists (u :: A), u', v', rest'. rewrite Ew.
    split; [reflexivity|]. split; [exact N|]. split; [exact F|]. split; [|reflexivity]. split; [|exact C].
    replace (tails A ++ tails (u' :: v' :: rest')) with (tails (v :: rest)) by (rewrite Ew, tails_app; reflexivity).
    cbn [tails flat_map frac_next app]. fold (tails rest). apply andb_false_iff in E. apply andb_false_iff.
    destruct E as [E|E]; [left; exact E|right]. apply frac_head_false; [apply tails_bfirst|exact E].
Qed.

Lemma join_step : forall w0 ws, ink w0 -> Forall ink ws ->
  sanitize_visibility_step (w0 ++ tails ws) = option_map (fun l => w0 ++ tails l) (join_first ws).
Proof.
  intros w0 ws H0 HW. unfold sanitize_visibility_step. destruct (join_first ws) as [ws'|] eqn:J; cbn [option_map].
  - destruct (join_some ws ws' J) as (A & u & v & rest & -> & N & F & C & ->).
    apply Forall_app in HW. destruct HW as [HA HW]. inversion HW as [|u0 l0 Hu HW2]; subst. inversion HW2 as [|v0 l1 Hv HR]; subst.
    apply frac_like_iff in F. destruct F as (a & b & tv & -> & Da & Db).
    assert (Q : quiet r_SAN_VIS (w0 ++ tails A) (tails (@cons str u (@cons str (a :: 47%N :: b :: 83%N :: 77%N :: tv) rest)))).
    { apply quiet_app; [apply vis_quiet_ink; exact H0|]. apply mixed_quiet; [exact HA|apply tails_bfirst|exact C]. }
    assert (Sp : exists sp t, tv ++ tails rest = sp ++ t
      /\ (sp = [32%N] \/ sp = [] /\ match t with [] => True | c :: _ => is_space c = false end)
      /\ 32%N :: t = tails (left_over (a :: 47%N :: b :: 83%N :: 77%N :: tv) rest)).
    { unfold left_over. cbn [skipn]. destruct tv as [|c tv].
      - destruct rest as [|r rest].
        + exists [], []. split; [reflexivity|]. split; [right; split; [reflexivity|exact I]|reflexivity].
        + exists [32%N], (r ++ tails rest). split; [reflexivity|]. split; [left; reflexivity|reflexivity].
      - exists [], ((c :: tv) ++ tails rest). split; [reflexivity|]. split; [|reflexivity]. right. split; [reflexivity|].
        cbn [app]. assert (K : In c (a :: 47%N :: b :: 83%N :: 77%N :: c :: tv)) by (cbn; tauto).
        exact (proj1 (Forall_forall _ _) Hv c K). }
    destruct Sp as (sp & t & Et & Hs & El).
    destruct (mixed_match u a b sp t N Da Db Hs) as (m & Em & Ee & Gi & Gf).
    set (x := 32%N :: u ++ 32%N :: [a; 47; b; 83; 77]%N ++ sp) in *.
    assert (Ex : tails (@cons str u (@cons str (a :: 47%N :: b :: 83%N :: 77%N :: tv) rest)) = x ++ t).
    { unfold x. cbn [tails flat_map app]. fold (tails rest). rewrite <- app_assoc. cbn [app]. rewrite Et. reflexivity. }
    rewrite (tails_app A (u :: _)), (app_assoc w0 (tails A)), Ex. rewrite Ex in Q.
    destruct (step_at r_SAN_VIS (py " " ++ u ++ py "_" ++ [a; 47; b; 83; 77]%N ++ py " ") (w0 ++ tails A) x t m eq_refl eq_refl Q)
      as (S1 & m' & S2 & S3); [discriminate|exact Em|exact Ee|].
    rewrite S2, !S3, Gi, Gf, S1. f_equal. rewrite tails_app, <- app_assoc. f_equal. f_equal.
    cbn [firstn tails flat_map]. fold (tails (left_over (a :: 47%N :: b :: 83%N :: 77%N :: tv) rest)). rewrite <- El.
    cbn [app]. rewrite <- !app_assoc. reflexivity.
  - rewrite re_search_none; [reflexivity|reflexivity|reflexivity|].
    apply quiet_app; [apply vis_quiet_ink; exact H0|]. apply mixed_quiet; [exact HW|left; reflexivity|exact (join_none ws J)].
Qed.

Lemma join_ink : forall ws ws', Forall ink ws -> join_first ws = Some ws' -> Forall ink ws'.
Proof.
  intros ws ws' HW J. destruct (join_some ws ws' J) as (A & u & v & rest & -> & N & F & _ & ->).
  apply Forall_app in HW. destruct HW as [HA HW]. inversion HW as [|u0 l0 Hu HW2]; subst. inversion HW2 as [|v0 l1 Hv HR]; subst.
  apply Forall_app. split; [exact HA|]. constructor.
  - apply Forall_app. split; [exact Hu|]. apply Forall_app. split; [repeat constructor|].
    rewrite <- (firstn_skipn 5 v) in Hv. apply Forall_app in Hv. apply Hv.
  - unfold left_over. assert (Hs : ink (skipn 5 v)) by (rewrite <- (firstn_skipn 5 v) in Hv; apply Forall_app in Hv; apply Hv).
    destruct (skipn 5 v) as [|c s]; [|constructor; assumption]. destruct rest; [constructor; constructor|exact HR].
Qed.

Lemma join_rounds : forall n w0 ws, ink w0 -> Forall ink ws ->
  sanitize_visibility_n n (w0 ++ tails ws) = w0 ++ tails (join_times n ws).
Proof.
  induction n as [|n IH]; intros w0 ws H0 HW; [reflexivity|]. cbn [sanitize_visibility_n join_times].
  rewrite (join_step w0 ws H0 HW). destruct (join_first ws) as [ws'|] eqn:J; [|reflexivity]. cbn [option_map].
  apply IH; [exact H0|exact (join_ink ws ws' HW J)].
Qed.

Lemma join_times_ink : forall n ws, Forall ink ws -> Forall ink (join_times n ws).
Proof.
  induction n as [|n IH]; intros ws H; [exact H|]. cbn [join_times]. destruct (join_first ws) as [ws'|] eqn:J; [|exact H].
  apply IH. exact (join_ink ws ws' H J).
Qed.

Lemma solids : forall ws, Forall solid ws -> Forall ink ws.
Proof. intros ws H. eapply Forall_impl; [|exact H]. exact solid_ink. Qed.

Theorem mixed_text : forall w ws, Forall solid (w :: ws) ->
  sanitize_visibility (sentence (w :: ws)) = sentence (w :: join_times 3 ws).
Proof.
  intros w ws H. apply solids in H. inversion H as [|w0 l0 H0 HW]; subst. rewrite !sentence_tails. apply join_rounds; assumption.
Qed.

Theorem mixed_groups : forall S (hs : list (handler S)) st w ws, Forall solid (w :: ws) ->
  parse_section hs (sanitize_visibility (sentence (w :: ws))) st = parse_groups hs (w :: join_times 3 ws) 0 [] st.
Proof.
  intros S hs st w ws H. rewrite (mixed_text w ws H). unfold parse_section. apply solids in H. inversion H as [|w0 l0 H0 HW]; subst.
  rewrite split_sentence_ink; [reflexivity|discriminate|]. constructor; [exact H0|]. apply join_times_ink. exact HW.
Qed.
