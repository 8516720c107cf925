(** * Joining the words of mixed visibilities and windshear groups *)
From Coq Require Import String Ascii.
From Coq Require Import List NArith ZArith Bool Lia.
From Verif Require Import PyBase PyRegex AeroRegex Utils StrFacts SpecNum SpecGroups SpecText SpecWords ProofText TextFacts
  RegexPaths MergeFacts SymRegex ProofGroups ProofGroups2 SymFirst ProofMerge ProofTafText Base Metar.
Import ListNotations.
Local Open Scope string_scope.
Local Open Scope nat_scope.
Local Open Scope list_scope.

(** ** Digits *)

Lemma is_digit_space : forall c, is_digit c = true -> is_space c = false.
Proof.
  intros c H. destruct (is_space c) eqn:E; [|reflexivity]. exfalso.
  assert (D : In c [9; 10; 11; 12; 13; 28; 29; 30; 31; 32; 133; 160; 5760; 8192; 8193; 8194; 8195; 8196; 8197; 8198;
     8199; 8200; 8201; 8202; 8232; 8233; 8239; 8287; 12288]%N).
  { unfold is_space in E. repeat (apply orb_true_iff in E; destruct E as [E|E]);
      repeat match goal with H : (_ && _)%bool = true |- _ => apply andb_true_iff in H; destruct H end;
      repeat match goal with H : (_ <=? _)%N = true |- _ => apply N.leb_le in H end;
      repeat match goal with H : (_ =? _)%N = true |- _ => apply N.eqb_eq in H end; subst; cbn; lia. }
  cbn in D. repeat (destruct D as [<-|D]; [vm_compute in H; discriminate|]). exact D.
Qed.

Lemma digits_digit : forall k n, Forall (fun c => is_digit c = true) (digits k n).
Proof.
  induction k as [|k IH]; intro n; [constructor|]. cbn [digits]. apply Forall_app. split; [apply IH|].
  constructor; [|constructor]. assert (n mod 10 < 10)%N by (apply N.mod_lt; discriminate). unfold dig.
  remember (n mod 10)%N as d eqn:Ed. clear Ed.
  assert (D : In d [0; 1; 2; 3; 4; 5; 6; 7; 8; 9]%N) by (cbn; lia).
  cbn in D. repeat (destruct D as [<-|D]; [reflexivity|]). destruct D.
Qed.

Lemma digits_ink : forall k n, ink (digits k n).
Proof. intros k n. eapply Forall_impl; [|apply digits_digit]. exact is_digit_space. Qed.

Lemma digits1 : forall n, exists d, digits 1 n = [d] /\ is_digit d = true.
Proof.
  intro n. exists (dig (n mod 10)). split; [reflexivity|]. assert (H := digits_digit 1 n). inversion H; subst. assumption.
Qed.

Lemma int_word : forall two n, exists c w, one_or_two two n = c :: w /\ Forall (fun c => is_digit c = true) (c :: w).
Proof.
  intros two n. unfold one_or_two. assert (H := digits_digit (if two then 2 else 1) n).
  destruct (digits (if two then 2 else 1) n) as [|c w] eqn:E; [|exists c, w; auto].
  destruct two; cbn [digits] in E; [destruct (digits 1 (n / 10)); discriminate|discriminate].
Qed.

Lemma frac_ink : forall a b, ink (frac_word a b).
Proof.
  intros a b. unfold frac_word. destruct (digits1 a) as (x & -> & Hx). destruct (digits1 b) as (y & -> & Hy).
  apply is_digit_space in Hx, Hy. repeat constructor; assumption.
Qed.

(** ** Mixed visibilities *)

Definition tails (ws : list str) : str := flat_map (fun w => 32%N :: w) ws.

Lemma sentence_tails : forall w ws, sentence (w :: ws) = w ++ tails ws.
Proof.
  intros w ws. revert w. induction ws as [|v ws IH]; intro w; [cbn; rewrite app_nil_r; reflexivity|].
  change (sentence (w :: v :: ws)) with (w ++ 32%N :: sentence (v :: ws)). rewrite IH. reflexivity.
Qed.

Lemma tails_app : forall a b, tails (a ++ b) = tails a ++ tails b.
Proof. intros a b. apply flat_map_app. Qed.

Fixpoint chain (bad : str -> str -> bool) (ws : list str) : Prop :=
  match ws with
  | u :: ws' => match ws' with v :: _ => bad u v = false | [] => True end /\ chain bad ws'
  | [] => True
  end.

Definition bfirst (t : str) : Prop := t = [] \/ exists t2, t = 32%N :: t2.

Lemma tails_bfirst : forall ws, bfirst (tails ws).
Proof. intros [|w ws]; [left; reflexivity|right; eexists; reflexivity]. Qed.

Lemma str_eqb3 : forall a b c x y z, str_eqb [a; b; c] [x; y; z] = (a =? x)%N && ((b =? y)%N && (c =? z)%N).
Proof.
  intros. cbn. rewrite andb_true_r. reflexivity.
Qed.

Lemma frac_like_iff : forall v, frac_like v = true <->
  exists a b t, v = a :: 47%N :: b :: 83%N :: 77%N :: t /\ is_digit a = true /\ is_digit b = true.
Proof.
  intro v. unfold frac_like. change (py "/SM") with [47; 83; 77]%N. split.
  - destruct v as [|a [|s [|b [|m [|n t]]]]]; try (intro H; discriminate H). rewrite str_eqb3, !andb_true_iff, !N.eqb_eq.
    intros ((Ha & Hb) & -> & -> & ->). exists a, b, t. auto.
  - intros (a & b & t & -> & -> & ->). reflexivity.
Qed.

Lemma frac_head : forall v t, bfirst t -> frac_like (v ++ t) = true -> frac_like v = true.
Proof.
  intros v t Ht H. apply frac_like_iff in H. destruct H as (a & b & t' & E & Ha & Hb).
  assert (Z : is_digit 32 = false) by (vm_compute; reflexivity).
  destruct v as [|c1 [|c2 [|c3 [|c4 [|c5 v]]]]]; cbn [app] in E;
    [destruct Ht as [->|(t2 & ->)]; [discriminate E|injection E as <- _; congruence]
    |destruct Ht as [->|(t2 & ->)]; [discriminate E|injection E; discriminate]
    |destruct Ht as [->|(t2 & ->)]; [discriminate E|injection E as _ _ <- _; congruence]
    |destruct Ht as [->|(t2 & ->)]; [discriminate E|injection E; discriminate]
    |destruct Ht as [->|(t2 & ->)]; [discriminate E|injection E; discriminate]
    |].
  injection E as -> -> -> -> -> E. apply frac_like_iff. exists a, b, v. auto.
Qed.

Lemma in_digit : forall c, in_cls c [CDigit] = is_digit c.
Proof. intro c. unfold in_cls. cbn [existsb in_citem]. apply orb_false_r. Qed.

Lemma vis_den : forall x, den r_SAN_VIS x -> exists b i b2 a c t, x = b :: i ++ b2 :: a :: 47%N :: c :: 83%N :: 77%N :: t
  /\ is_space b = true /\ is_space b2 = true /\ Forall (fun c => is_digit c = true) i
  /\ is_digit a = true /\ is_digit c = true.
Proof.
  intros x D. unfold r_SAN_VIS in D. cbn [den] in D.
  destruct D as (x1 & x2 & -> & (b & -> & Hb) & (x3 & x4 & -> & (x5 & x6 & -> & (d & -> & Hd) & Hi)
    & (y5 & y6 & -> & (b2 & -> & Hb2) & (x7 & x8 & -> & (x9 & x10 & -> & (a & -> & Ha) & (x11 & x12 & -> & (c1 & -> & H1)
    & (x13 & x14 & -> & (c & -> & Hc) & (x15 & x16 & -> & (c2 & -> & H2) & (c3 & -> & H3))))) & _)))).
  apply in_one_eq in H1, H2, H3. subst. rewrite in_space in Hb, Hb2. rewrite in_digit in Hd, Ha, Hc.
  exists b, (d :: x6), b2, a, c, x8. split; [cbn [app]; rewrite <- ?app_assoc; reflexivity|].
  split; [exact Hb|]. split; [exact Hb2|]. split; [|split; assumption].
  constructor; [exact Hd|]. eapply Forall_impl; [|exact Hi]. intros z Hz. cbv beta in Hz. rewrite in_digit in Hz. exact Hz.
Qed.

Lemma vis_quiet_ink : forall w t, ink w -> quiet r_SAN_VIS w t.
Proof.
  intros w t H. induction H as [|c w Hc Hw IH]; [apply quiet_nil|]. apply quiet_cons; [|exact IH].
  apply mlen_none. intros x t' E D. destruct (vis_den x D) as (b & i & b2 & a & c0 & t0 & -> & Hb & _).
  injection E as -> _. congruence.
Qed.

Definition frac_next (t : str) : bool := match t with _ :: t' => frac_like t' | [] => false end.

Fixpoint vchain (A : list str) (R : str) : Prop :=
  match A with
  | [] => True
  | u :: A' => forallb is_digit u && frac_next (tails A' ++ R) = false /\ vchain A' R
  end.

Lemma tails_bfirst_app : forall A R, bfirst R -> bfirst (tails A ++ R).
Proof. intros [|w A] R H; [exact H|right; eexists; reflexivity]. Qed.

Lemma vis_quiet : forall A R, Forall ink A -> bfirst R -> vchain A R -> quiet r_SAN_VIS (tails A) R.
Proof.
  intros A R HA HR. induction HA as [|u A Hu HA IH]; intro H; [apply quiet_nil|]. destruct H as [H1 H2].
  change (tails (u :: A)) with ((32%N :: u) ++ tails A). apply quiet_app; [|apply IH; exact H2].
  apply quiet_cons; [|apply vis_quiet_ink; exact Hu].
  apply mlen_none. intros x t E D. destruct (vis_den x D) as (b & i & b2 & a & c & t0 & -> & Hb & Hb2 & Hi & Ha & Hc).
  cbn [app] in E. injection E as _ E. rewrite <- app_assoc in E.
  destruct (tails_bfirst_app A R HR) as [T|(T & ET)].
  - rewrite T, app_nil_r in E. rewrite T in H1. eapply (ink_no_blank u i b2); [exact Hu|exact Hb2|exact E].
  - rewrite ET in E, H1. apply first_blank in E; [|exact Hu|eapply Forall_impl; [exact is_digit_space|exact Hi]|reflexivity|exact Hb2].
    destruct E as (-> & _ & E). cbn [frac_next] in H1. apply andb_false_iff in H1. destruct H1 as [H1|H1].
    + rewrite <- not_true_iff_false in H1. apply H1. apply forallb_forall.
      rewrite Forall_forall in Hi. exact Hi.
    + rewrite <- not_true_iff_false in H1. apply H1. apply frac_like_iff. exists a, c, (t0 ++ t).
      split; [|split; assumption]. rewrite E. reflexivity.
Qed.

Lemma vis_match : forall two n a b t, exists m,
  let x := 32%N :: one_or_two two n ++ 32%N :: frac_word a b ++ [32%N] in
  re_match r_SAN_VIS (x ++ t) = Some m /\ m_end m = length x
  /\ group m "int" = Some (one_or_two two n) /\ group m "frac" = Some (frac_word a b).
Proof.
  intros two n a b t. cbv zeta.
  set (tx := [("", py " "); ("int", one_or_two two n); ("", py " "); ("frac", frac_word a b); ("", py " ")]).
  set (sh := [("", lit " "); ("int", dsym (if two then 2 else 1)); ("", lit " ");
              ("frac", dsym 1 ++ lit "/" ++ dsym 1 ++ lit "SM"); ("", lit " ")]).
  assert (F : fits tx sh).
  { unfold tx, sh, frac_word, one_or_two. auto 12 with inst. }
  destruct (captures_more r_SAN_VIS ["int"; "frac"] (if two then 10 else 9) tx sh t F) as (m & E1 & E2 & E3 & E4).
  { destruct two; vm_compute; reflexivity. }
  assert (ET : tcode tx = 32%N :: one_or_two two n ++ 32%N :: frac_word a b ++ [32%N]).
  { unfold tx, tcode. cbn [map snd concat]. rewrite app_nil_r. reflexivity. }
  exists m. rewrite <- ET. split; [exact E1|]. split.
  - rewrite E3, (inst_length _ _ (fits_inst tx sh F)). destruct two; reflexivity.
  - split; rewrite E4 by (cbn; auto); reflexivity.
Qed.

Definition flat (t : mtok) : Prop :=
  match t with MWord w => ink w | MMixed _ _ _ _ => True | MWs _ _ => False end.
Definition mixed (l : list mtok) : nat := length (filter is_mixed l).

Lemma first_mixed : forall l, Forall flat l ->
  (exists A, l = map MWord A /\ mixed l = 0 /\ Forall ink A) \/
  exists A two n a b B, l = map MWord A ++ MMixed two n a b :: B /\ mixed l = S (mixed B) /\ Forall ink A.
Proof.
  intros l H. induction H as [|t l Ht Hl IH].
  - left. exists []. repeat constructor.
  - destruct t as [w|two n a b|]; [|right; exists [], two, n, a, b, l; repeat constructor|destruct Ht].
    destruct IH as [(A & -> & E & F)|(A & two & n & a & b & B & -> & E & F)].
    + left. exists (w :: A). split; [reflexivity|]. split; [exact E|]. constructor; assumption.
    + right. exists (w :: A), two, n, a, b, B. split; [reflexivity|]. split; [exact E|]. constructor; assumption.
Qed.

Lemma mword_words : forall A, flat_map m_words (map MWord A) = A.
Proof. induction A as [|w A IH]; [reflexivity|]. cbn [map flat_map m_words app]. rewrite IH. reflexivity. Qed.

Lemma mword_joined : forall A, map m_joined (map MWord A) = A.
Proof. induction A as [|w A IH]; [reflexivity|]. cbn [map m_joined]. rewrite IH. reflexivity. Qed.

Lemma unmixed_tail : forall t l, unmixed (t :: l) -> unmixed l.
Proof. intros [w|two n a b|wy g] l H; cbn [unmixed] in H; [apply H|exact H|exact H]. Qed.

Lemma int_not_frac : forall two n t, bfirst t -> frac_like (one_or_two two n ++ t) = false.
Proof.
  intros two n t Ht. destruct (frac_like (one_or_two two n ++ t)) eqn:E; [|reflexivity]. exfalso.
  apply frac_head in E; [|exact Ht]. apply frac_like_iff in E. destruct E as (x & y & t0 & E & _).
  destruct (int_word two n) as (c & w & Ei & Hi). rewrite <- Ei, E in Hi. inversion Hi as [|? ? _ Hi2]; subst.
  inversion Hi2 as [|? ? K _]; subst. vm_compute in K. discriminate.
Qed.

Lemma joined_not_frac : forall two n a b t, frac_like ((one_or_two two n ++ py "_" ++ frac_word a b) ++ t) = false.
Proof.
  intros two n a b t. destruct (frac_like ((one_or_two two n ++ py "_" ++ frac_word a b) ++ t)) eqn:E; [|reflexivity]. exfalso.
  apply frac_like_iff in E. destruct E as (x & y & t0 & E & _). unfold one_or_two in E.
  destruct two; [|destruct (digits1 n) as (d & Ed & Hd); rewrite Ed in E; injection E; discriminate].
  change (digits 2 n) with (digits 1 (n / 10) ++ [dig (n mod 10)]) in E.
  assert (H := digits_digit 2 n). change (digits 2 n) with (digits 1 (n / 10) ++ [dig (n mod 10)]) in H.
  destruct (digits1 (n / 10)) as (d & Ed & Hd). rewrite Ed in E, H. inversion H as [|? ? _ H2]; subst.
  inversion H2 as [|? ? K _]; subst. injection E as _ E _. rewrite E in K. vm_compute in K. discriminate.
Qed.

Lemma joined_not_digits : forall two n a b, forallb is_digit (one_or_two two n ++ py "_" ++ frac_word a b) = false.
Proof.
  intros two n a b. rewrite !forallb_app. replace (forallb is_digit (py "_")) with false by (vm_compute; reflexivity).
  apply andb_false_r.
Qed.

Lemma unmixed_merge : forall A two n a b B, unmixed (map MWord A ++ MMixed two n a b :: B) ->
  unmixed (map MWord A ++ MWord (one_or_two two n ++ py "_" ++ frac_word a b) :: B).
Proof.
  induction A as [|u A IH]; intros two n a b B H.
  - cbn [map app unmixed] in *. split; [|exact H]. destruct B as [|[v| |] B]; try exact I.
    unfold mixed_like. rewrite joined_not_digits. reflexivity.
  - assert (H2 := IH _ _ _ _ _ (unmixed_tail _ _ H)). cbn [map app unmixed] in *. destruct H as [H1 _]. split; [|exact H2].
    destruct A as [|v A]; [|exact H1]. cbn [map app]. unfold mixed_like.
    rewrite <- (app_nil_r (one_or_two two n ++ _)), joined_not_frac. apply andb_false_r.
Qed.

Lemma unmixed_chain : forall A R l, unmixed (map MWord A ++ l) -> bfirst R -> frac_next R = false -> vchain A R.
Proof.
  induction A as [|u A IH]; intros R l H HR Hf; [exact I|]. split; [|apply (IH R l); [apply (unmixed_tail _ _ H)|exact HR|exact Hf]].
  destruct A as [|v A].
  - cbn [tails flat_map app]. rewrite Hf. apply andb_false_r.
  - cbn [map app unmixed] in H. destruct H as [H _]. unfold mixed_like in H. apply andb_false_iff in H.
    destruct H as [->|H]; [reflexivity|]. apply andb_false_iff. right. cbn [tails flat_map app frac_next].
    fold (tails A). match goal with |- ?g = false => destruct g eqn:E; [|reflexivity] end. rewrite <- app_assoc in E.
    apply frac_head in E; [congruence|]. apply tails_bfirst_app. exact HR.
Qed.

Lemma last_cons2 : forall {X} (l : list X) x y d, last (x :: y :: l) d = last (y :: l) d.
Proof. reflexivity. Qed.

Lemma last_mid : forall {X} (A : list X) x y B d, last (A ++ x :: y :: B) d = last (A ++ y :: B) d.
Proof.
  intros X A x y B d. induction A as [|a A IH]; [reflexivity|].
  cbn [app]. destruct A as [|a2 A]; [reflexivity|]. cbn [app] in *. rewrite !last_cons2. exact IH.
Qed.

Lemma last_any : forall {X} (A : list X) x z y B d, last (A ++ x :: y :: B) d = last (A ++ z :: y :: B) d.
Proof. intros. rewrite !last_mid. reflexivity. Qed.

Lemma san_vis : forall k w0 l, ink w0 -> Forall flat l -> unmixed l -> is_mixed (last l (MWord [])) = false -> mixed l <= k ->
  sanitize_visibility_n k (w0 ++ tails (flat_map m_words l)) = w0 ++ tails (map m_joined l).
Proof.
  induction k as [|k IH]; intros w0 l H0 Hl Hu Hlast Hk.
  - destruct (first_mixed l Hl) as [(A & -> & _)|(A & two & n & a & b & B & _ & E & _)]; [|lia].
    rewrite mword_words, mword_joined. reflexivity.
  - destruct (first_mixed l Hl) as [(A & -> & _ & HA)|(A & two & n & a & b & B & -> & E & HA)].
    + rewrite mword_words, mword_joined. cbn [sanitize_visibility_n]. unfold sanitize_visibility_step.
      rewrite re_search_none; [reflexivity|reflexivity|reflexivity|].
      apply quiet_app; [apply vis_quiet_ink; exact H0|]. apply vis_quiet; [exact HA|left; reflexivity|].
      apply (unmixed_chain A [] []); [rewrite app_nil_r; exact Hu|left; reflexivity|reflexivity].
    + assert (NB : B <> []).
      { intros ->. rewrite last_last in Hlast. discriminate. }
      destruct B as [|tb B]; [congruence|]. clear NB.
      assert (EB : exists v vs, flat_map m_words (tb :: B) = v :: vs).
      { destruct tb as [w|? ? ? ?|? [|r]]; do 2 eexists; reflexivity. }
      destruct EB as (v & vs & EB).
      set (i := one_or_two two n). set (f := frac_word a b).
      assert (IH' := IH w0 (map MWord A ++ MWord (i ++ py "_" ++ f) :: tb :: B) H0).
      rewrite !flat_map_app, !map_app, !mword_words, !mword_joined. cbn [flat_map m_words map m_joined].
      rewrite flat_map_app, map_app, mword_words, mword_joined in IH'. cbn [flat_map m_words map m_joined] in IH'.
      fold i f.
      change (m_words tb ++ flat_map m_words B) with (flat_map m_words (tb :: B)) in *.
      rewrite EB in *.
      destruct (vis_match two n a b (v ++ tails vs)) as (m & Em & Ee & Ei & Ef). fold i f in Em, Ee, Ei, Ef.
      set (x := 32%N :: i ++ 32%N :: f ++ [32%N]) in *.
      assert (ET : w0 ++ tails (A ++ [i; f] ++ v :: vs) = (w0 ++ tails A) ++ x ++ (v ++ tails vs)).
      { rewrite tails_app, <- app_assoc. f_equal. f_equal. unfold x. cbn [app tails flat_map].
        rewrite <- !app_assoc. cbn [app]. rewrite <- !app_assoc. reflexivity. }
      assert (Q : quiet r_SAN_VIS (w0 ++ tails A) (x ++ v ++ tails vs)).
      { apply quiet_app; [apply vis_quiet_ink; exact H0|]. apply vis_quiet; [exact HA|right; eexists; reflexivity|].
        apply (unmixed_chain A _ _ Hu); [right; eexists; reflexivity|].
        cbn [x app frac_next]. rewrite <- app_assoc. apply int_not_frac. right. eexists. reflexivity. }
      cbn [sanitize_visibility_n]. unfold sanitize_visibility_step. rewrite ET.
      destruct (step_at r_SAN_VIS (py " " ++ i ++ py "_" ++ f ++ py " ") (w0 ++ tails A) x (v ++ tails vs) m eq_refl eq_refl Q)
        as (S1 & m' & S2 & S3); [discriminate|exact Em|exact Ee|].
      rewrite S2, !S3, Ei, Ef, S1. rewrite <- IH'.
      * f_equal. rewrite tails_app, <- !app_assoc. f_equal. f_equal. cbn [app tails flat_map].
        rewrite <- !app_assoc. cbn [app]. reflexivity.
      * apply Forall_app in Hl. destruct Hl as [L1 L2]. apply Forall_app. split; [exact L1|].
        inversion L2 as [|? ? _ L3]; subst. constructor; [|exact L3]. cbn [flat].
        unfold ink. apply Forall_app. split; [|apply Forall_app; split; [repeat constructor|apply frac_ink]].
        apply digits_ink.
      * apply unmixed_merge. exact Hu.
      * rewrite last_mid in Hlast |- *. exact Hlast.
      * unfold mixed in *. rewrite filter_app, app_length in *. cbn [filter is_mixed length] in *.
        assert (Z : length (filter is_mixed (map MWord A)) = 0).
        { clear. induction A as [|a A IH]; [reflexivity|]. exact IH. }
        lia.
Qed.

(** ** Windshear groups *)

Definition lt_ws (w : str) : bool := ends_with (py "WS") w.

Lemma all_link : forall x, den r_SAN_WS_ALL x -> exists l b m1 m2, x = l ++ b :: m1 ++ m2 /\ l <> [] /\ ink l
  /\ is_space b = true /\ ink m1 /\ (forall w, lt_ws (w ++ l) = true) /\ (forall v, starts_with (py "ALL") (m1 ++ v) = true).
Proof.
  intros x D. apply den_paths in D; [|reflexivity]. destruct D as (p & Hp & A).
  cbv in Hp. destruct Hp as [<-|[]]. read A. rewrite in_space in Hc.
  exists (py "WS"), c, (py "ALL"), (c0 :: py "RWY").
  split; [reflexivity|]. split; [discriminate|]. split; [repeat constructor|]. split; [exact Hc|]. split; [repeat constructor|].
  split; [intro w; apply ends_with_app|]. intro v. apply starts_with_self.
Qed.

Lemma ws_link : forall x, den r_SAN_WS x -> exists l b m1 m2, x = l ++ b :: m1 ++ m2 /\ l <> [] /\ ink l
  /\ is_space b = true /\ ink m1 /\ (forall w, lt_ws (w ++ l) = true) /\ (forall v, starts_with (py "R") (m1 ++ v) = true).
Proof.
  intros x D. apply den_paths in D; [|reflexivity]. destruct D as (p & Hp & A).
  assert (K : exists b m2, x = py "WS" ++ b :: py "R" ++ m2 /\ is_space b = true).
  { cbv in Hp. repeat (destruct Hp as [<-|Hp]; [read A; rewrite in_space in Hc; do 2 eexists; split; [reflexivity|exact Hc]|]).
    destruct Hp. }
  destruct K as (b & m2 & -> & Hb). exists (py "WS"), b, (py "R"), m2.
  split; [reflexivity|]. split; [discriminate|]. split; [repeat constructor|]. split; [exact Hb|]. split; [repeat constructor|].
  split; [intro w; apply ends_with_app|]. intro v. apply starts_with_self.
Qed.

(** What is left of a group after the first replacement. *)
Definition m_words1 (t : mtok) : list str := match t with MWs _ WsAll => [py "WS_ALL_RWY"] | _ => m_words t end.

Definition is_all (t : mtok) : bool := match t with MWs _ WsAll => true | _ => false end.

Lemma runway_ink : forall r, runway_wf r -> ink (runway_code r).
Proof.
  intros [n [s|]] [_ H]; unfold runway_code; cbn [rn_number rn_side opt opt_all] in *.
  - apply Forall_app. split; [apply digits_ink|]. cbn in H. repeat (destruct H as [<-|H]; [repeat constructor|]). destruct H.
  - rewrite app_nil_r. apply digits_ink.
Qed.

Definition sheared (t : mtok) : Prop :=
  match t with MWord w => ink w | MMixed _ _ _ _ => False | MWs _ g => ws_wf g end.

Lemma ws_words_ink : forall t, sheared t -> Forall ink (m_words t).
Proof.
  intros [w|two n a b|wy [|r]] H; cbn [sheared m_words] in *.
  - constructor; [exact H|constructor].
  - destruct H.
  - repeat constructor.
  - constructor; [repeat constructor|]. constructor; [|constructor]. unfold ink. apply Forall_app.
    split; [destruct wy; repeat constructor|]. apply runway_ink. exact H.
Qed.

Lemma runway_end : forall p r, runway_wf r -> lt_ws (p ++ runway_code r) = false.
Proof.
  intros p r H. unfold lt_ws, ends_with. rewrite rev_app_distr.
  destruct r as [n [s|]]; unfold runway_code; cbn [rn_number rn_side opt].
  - destruct H as [_ H]. cbn in H. rewrite rev_app_distr. repeat (destruct H as [<-|H]; [reflexivity|]). destruct H.
  - rewrite app_nil_r. change (digits 2 n) with (digits 1 (n / 10) ++ [dig (n mod 10)]). rewrite rev_app_distr.
    assert (K := digits_digit 1 n). change (digits 1 n) with [dig (n mod 10)] in K. inversion K as [|? ? K1 K2]; subst.
    cbn [rev app]. change (rev (py "WS")) with [83; 87]%N. cbn [starts_with].
    destruct (83 =? dig (n mod 10))%N eqn:E; [|reflexivity]. apply N.eqb_eq in E. rewrite <- E in K1.
    vm_compute in K1. discriminate.
Qed.

Lemma unsheared_tail : forall t l, unsheared (t :: l) -> unsheared l.
Proof. intros [w|two n a b|wy g] l H; cbn [unsheared] in H; [apply H|exact H|exact H]. Qed.

Lemma ws_apart : forall l v, Forall sheared l -> Forall (fun t => is_all t = false) l -> unsheared l ->
  starts_with (py "ALL") v = false -> apart lt_ws (starts_with (py "ALL")) (flat_map m_words l) v.
Proof.
  intros l v Hl Ha Hu Hv. induction l as [|t l IH]; [exact I|]. inversion Hl as [|? ? Ht Hl']; subst.
  inversion Ha as [|? ? Hn Ha']; subst.
  assert (IH' : apart lt_ws (starts_with (py "ALL")) (flat_map m_words l) v)
    by (apply IH; [exact Hl'|exact Ha'|exact (unsheared_tail _ _ Hu)]).
  destruct t as [w|two n a b|wy [|r]]; cbn [sheared is_all] in *.
  - cbn [flat_map m_words app]. split; [|exact IH']. destruct Hu as [Hu _].
    destruct l as [|[u|two n a b|wy [|r]] l]; cbn [flat_map m_words app hd].
    + rewrite Hv. apply andb_false_r.
    + unfold sheared_like in Hu. fold (lt_ws w) in Hu. destruct (lt_ws w); [|reflexivity].
      cbn [andb] in *. apply orb_false_iff in Hu. apply Hu.
    + inversion Hl' as [|? ? Hx Hy]; subst. destruct Hx.
    + apply andb_false_r.
    + apply andb_false_r.
  - destruct Ht.
  - discriminate.
  - cbn [flat_map m_words app]. split; [|split; [|exact IH']].
    + cbn [hd]. destruct wy; apply andb_false_r.
    + rewrite runway_end by exact Ht. reflexivity.
Qed.

Lemma apart_next : forall lt rt ws v A x y B, apart lt rt ws v -> ws = A ++ x :: y :: B -> lt x && rt y = false.
Proof.
  intros lt rt ws v A x y B. revert ws. induction A as [|a A IH]; intros ws H ->.
  - destruct H as [H _]. exact H.
  - destruct H as [_ H]. apply (IH (A ++ x :: y :: B) H eq_refl).
Qed.

Lemma ws_ink : forall l, Forall sheared l -> Forall ink (flat_map m_words l).
Proof.
  intros l H. induction H as [|t l Ht Hl IH]; [constructor|]. cbn [flat_map]. apply Forall_app. split; [|exact IH].
  apply ws_words_ink. exact Ht.
Qed.

Lemma tails_sentence : forall l, l <> [] -> tails l = 32%N :: sentence l.
Proof. intros [|w l] H; [congruence|]. rewrite sentence_tails. reflexivity. Qed.

Lemma words_nonempty : forall f t l, (forall t, f t <> []) -> flat_map f (t :: l : list mtok) <> ([] : list str).
Proof. intros f t l H E. cbn [flat_map] in E. apply app_eq_nil in E. apply (H t). apply E. Qed.

Lemma m_words_some : forall t, m_words t <> [].
Proof. intros [| |? [|]]; discriminate. Qed.
Lemma m_words1_some : forall t, m_words1 t <> [].
Proof. intros [| |? [|]]; discriminate. Qed.

Lemma all_blank : forall s, quiet r_SAN_WS_ALL [32%N] s.
Proof.
  intro s. apply quiet_cons; [|apply quiet_nil]. apply mlen_none. intros x t E D.
  destruct (all_link x D) as (l & b & m1 & m2 & -> & Hl & Hi & _). destruct l as [|c l]; [congruence|].
  injection E as <- _. inversion Hi; subst. discriminate.
Qed.

Lemma first_all : forall l, Forall (fun t => is_all t = false) l \/
  exists A wy B, l = A ++ MWs wy WsAll :: B /\ Forall (fun t => is_all t = false) A.
Proof.
  induction l as [|t l IH]; [left; constructor|]. destruct (is_all t) eqn:E.
  - right. destruct t as [| |wy [|r]]; try discriminate. exists [], wy, l. split; [reflexivity|constructor].
  - destruct IH as [H|(A & wy & B & -> & H)]; [left; constructor; assumption|]. right. exists (t :: A), wy, B.
    split; [reflexivity|]. constructor; assumption.
Qed.

Lemma not_all_words : forall l, Forall (fun t => is_all t = false) l -> flat_map m_words1 l = flat_map m_words l.
Proof.
  intros l H. induction H as [|t l Ht Hl IH]; [reflexivity|]. cbn [flat_map]. rewrite IH.
  destruct t as [| |wy [|r]]; try reflexivity. discriminate.
Qed.

Lemma unsheared_app : forall A B, unsheared (A ++ B) -> unsheared A /\ unsheared B.
Proof.
  induction A as [|t A IH]; intros B H; [split; [exact I|exact H]|].
  destruct (IH B (unsheared_tail _ _ H)) as [I1 I2]. split; [|exact I2].
  destruct t as [w|two n a b|wy g]; [|exact I1|exact I1]. destruct H as [H _]. split; [|exact I1].
  destruct A as [|t2 A]; [exact I|exact H].
Qed.

Lemma san_all : forall n l, length l <= n -> Forall sheared l -> unsheared l ->
  re_sub r_SAN_WS_ALL (py "WS_ALL_RWY") (sentence (flat_map m_words l)) None = sentence (flat_map m_words1 l).
Proof.
  induction n as [|n IH]; intros l Hn Hl Hu.
  - destruct l; [reflexivity|cbn in Hn; lia].
  - destruct (first_all l) as [H|(A & wy & B & -> & HA)].
    + rewrite not_all_words by exact H. rewrite <- (app_nil_r (sentence _)) at 1.
      rewrite re_sub_quiet; [rewrite app_nil_r; reflexivity|reflexivity|].
      apply (sentence_quiet _ lt_ws (starts_with (py "ALL")) all_link); [apply ws_ink; exact Hl|].
      intros A u v B E. apply (apart_next _ _ _ [] A u v B (ws_apart l [] Hl H Hu eq_refl) E).
    + rewrite !flat_map_app. rewrite (not_all_words A HA). cbn [flat_map m_words m_words1 app]. rewrite !sentence_pre.
      apply Forall_app in Hl. destruct Hl as [L1 L2]. inversion L2 as [|? ? _ LB]; subst.
      destruct (unsheared_app _ _ Hu) as [U1 U2]. apply unsheared_tail in U2.
      rewrite sentence_tails. rewrite (sentence_tails (py "WS_ALL_RWY")).
      change (py "WS" ++ tails (py "ALL" :: py "RWY" :: flat_map m_words B))
        with (py "WS ALL RWY" ++ tails (flat_map m_words B)).
      rewrite (all_at r_SAN_WS_ALL _ (pre (flat_map m_words A)) (py "WS ALL RWY") (tails (flat_map m_words B)) 10);
        [|reflexivity|reflexivity| |discriminate| |reflexivity].
      * f_equal. f_equal. destruct B as [|t B]; [reflexivity|].
        rewrite !tails_sentence by (apply words_nonempty; first [exact m_words_some|exact m_words1_some]).
        change (32%N :: sentence (flat_map m_words (t :: B))) with ([32%N] ++ sentence (flat_map m_words (t :: B))).
        rewrite re_sub_quiet by (try reflexivity; apply all_blank). cbn [app]. f_equal. apply IH; [|exact LB|exact U2].
        rewrite app_length in Hn. cbn [length] in *. lia.
      * change (py "WS ALL RWY" ++ tails (flat_map m_words B)) with (py "WS" ++ 32%N :: py "ALL RWY" ++ tails (flat_map m_words B)).
        apply (quiet_pre _ lt_ws (starts_with (py "ALL")) all_link); [apply ws_ink; exact L1|repeat constructor|right; eexists; reflexivity|].
        apply ws_apart; [exact L1|exact HA|exact U1|reflexivity].
      * set (tx := [("", py "WS ALL RWY")]). set (sh := [("", lit "WS ALL RWY")]).
        destruct (captures_more r_SAN_WS_ALL [] 10 tx sh (tails (flat_map m_words B))) as (m & E1 & _ & E3 & _);
          [unfold tx, sh; auto with inst|vm_compute; reflexivity|].
        rewrite <- E3. apply re_match_mlen. exact E1.
Qed.

(** The second pass: runways one by one. *)
Definition shears (l : list mtok) : nat := length (filter is_runway_ws l).

Lemma ws_match : forall (wy : bool) r t, runway_wf r -> bfirst t -> exists m,
  let x := py "WS " ++ py (if wy then "RWY" else "R") ++ runway_code r in
  re_match r_SAN_WS (x ++ t) = Some m /\ m_end m = length x /\ group m "name" = Some (runway_code r).
Proof.
  intros wy r t Hr Ht. cbv zeta.
  set (e := (if wy then 6 else 4) + 2 + match rn_side r with Some _ => 1 | None => 0 end).
  set (tx0 := [("", py "WS " ++ py (if wy then "RWY" else "R")); ("name", runway_code r)]).
  set (sh0 := [("", lit "WS " ++ lit (if wy then "RWY" else "R")); ("name", runway_sym r)]).
  assert (F0 : fits tx0 sh0) by (unfold tx0, sh0; destruct wy; auto 8 with inst).
  assert (ET : tcode tx0 = py "WS " ++ py (if wy then "RWY" else "R") ++ runway_code r).
  { unfold tx0, tcode. cbn [map snd concat]. rewrite app_nil_r, <- app_assoc. reflexivity. }
  assert (EL : length (tcode tx0) = e).
  { rewrite (inst_length _ _ (fits_inst tx0 sh0 F0)). unfold e. destruct wy, r as [n [s|]]; reflexivity. }
  rewrite <- ET. destruct Ht as [->|(t2 & ->)].
  - rewrite app_nil_r.
    destruct (captures1 r_SAN_WS ["name"] e tx0 sh0 F0) as (m & E1 & _ & E3 & E4).
    { destruct wy, r as [n [s|]]; vm_compute; reflexivity. }
    exists m. split; [exact E1|]. split; [rewrite E3, EL; reflexivity|]. rewrite E4 by (left; reflexivity). reflexivity.
  - set (tx := tx0 ++ [("", py " ")]). set (sh := sh0 ++ [("", lit " ")]).
    assert (F : fits tx sh) by (apply fits_app; [exact F0|auto with inst]).
    destruct (captures_more r_SAN_WS ["name"] e tx sh t2 F) as (m & E1 & _ & E3 & E4).
    { destruct wy, r as [n [s|]]; vm_compute; reflexivity. }
    assert (EX : tcode tx ++ t2 = tcode tx0 ++ 32%N :: t2).
    { unfold tx, tcode. rewrite map_app, concat_app, <- app_assoc. reflexivity. }
    exists m. rewrite <- EX. split; [exact E1|]. split; [rewrite E3, EL; reflexivity|].
    rewrite E4 by (left; reflexivity). reflexivity.
Qed.

Lemma first_shear : forall l, Forall sheared l -> Forall (fun t => is_all t = false) l ->
  (exists A, l = map MWord A /\ shears l = 0 /\ Forall ink A) \/
  exists A wy r B, l = map MWord A ++ MWs wy (WsRunway r) :: B /\ shears l = S (shears B)
    /\ Forall ink A.
Proof.
  intros l H. induction H as [|t l Ht Hl IH]; intro Ha.
  - left. exists []. repeat constructor.
  - inversion Ha as [|? ? Ha1 Ha2]; subst. specialize (IH Ha2).
    destruct t as [w|two n a b|wy [|r]]; cbn [sheared is_all] in *; try discriminate; try (destruct Ht; fail).
    + destruct IH as [(A & -> & E & F1)|(A & wy & r & B & -> & E & F1)].
      * left. exists (w :: A). split; [reflexivity|]. split; [exact E|]. constructor; assumption.
      * right. exists (w :: A), wy, r, B. split; [reflexivity|]. split; [exact E|]. constructor; assumption.
    + right. exists [], wy, r, l. split; [reflexivity|]. split; [reflexivity|]. constructor.
Qed.

Lemma unsheared_apart : forall A v l, unsheared (map MWord A ++ l) -> starts_with (py "R") v = false ->
  apart lt_ws (starts_with (py "R")) A v.
Proof.
  induction A as [|u A IH]; intros v l H Hv; [exact I|]. split; [|apply (IH v l); [exact (unsheared_tail _ _ H)|exact Hv]].
  destruct A as [|u2 A]; cbn [hd]; [rewrite Hv; apply andb_false_r|]. destruct H as [H _]. cbn [map app] in H.
  unfold sheared_like in H. fold (lt_ws u) in H. destruct (lt_ws u); [|reflexivity].
  cbn [andb] in *. apply orb_false_iff in H. apply H.
Qed.

Lemma unsheared_merge : forall A wy r B, runway_wf r -> unsheared (map MWord A ++ MWs wy (WsRunway r) :: B) ->
  unsheared (map MWord A ++ MWord (py "WS_R" ++ runway_code r) :: B).
Proof.
  induction A as [|u A IH]; intros wy r B Hr H.
  - cbn [map app unsheared] in *. split; [|exact H]. destruct B as [|[v| |] B]; try exact I.
    unfold sheared_like. fold (lt_ws (py "WS_R" ++ runway_code r)). rewrite runway_end by exact Hr. reflexivity.
  - assert (H2 := IH wy r B Hr (unsheared_tail _ _ H)). cbn [map app unsheared] in *. destruct H as [H1 _]. split; [|exact H2].
    destruct A as [|v A]; [|exact H1]. cbn [map app]. apply andb_false_r.
Qed.

Fixpoint ws_rounds (k : nat) (s : str) : str :=
  match k with O => s | S k => ws_rounds k (sanitize_windshear_step s) end.

Lemma san_ws : forall k l, Forall sheared l -> Forall (fun t => is_all t = false) l -> unsheared l -> shears l <= k ->
  ws_rounds k (sentence (flat_map m_words l)) = sentence (map m_joined l).
Proof.
  induction k as [|k IH]; intros l Hl Ha Hu Hk.
  - destruct (first_shear l Hl Ha) as [(A & -> & _)|(A & wy & r & B & _ & E & _)]; [|lia].
    rewrite mword_words, mword_joined. reflexivity.
  - cbn [ws_rounds]. destruct (first_shear l Hl Ha) as [(A & -> & E & F1)|(A & wy & r & B & -> & E & F1)].
    + assert (EQ : sanitize_windshear_step (sentence (flat_map m_words (map MWord A))) = sentence (flat_map m_words (map MWord A))).
      { unfold sanitize_windshear_step. rewrite mword_words. rewrite re_search_none; [reflexivity|reflexivity|reflexivity|].
        apply (sentence_quiet _ lt_ws (starts_with (py "R")) ws_link); [exact F1|].
        intros A0 u v B0 EA. apply (apart_next _ _ _ [] A0 u v B0 (unsheared_apart A [] [] (eq_ind_r unsheared Hu (app_nil_r _)) eq_refl) EA). }
      rewrite EQ. apply IH; [exact Hl|exact Ha|exact Hu|]. rewrite E. lia.
    + apply Forall_app in Hl. destruct Hl as [L1 L2]. inversion L2 as [|? ? Lr LB]; subst. cbn [sheared ws_wf] in Lr.
      apply Forall_app in Ha. destruct Ha as [A1 A2]. inversion A2 as [|? ? _ AB]; subst.
      set (W := py "WS_R" ++ runway_code r).
      assert (IH' := IH (map MWord A ++ MWord W :: B)).
      rewrite !flat_map_app, map_app, mword_words, mword_joined in *. cbn [flat_map m_words map m_joined app] in *.
      rewrite !sentence_pre in *. rewrite (sentence_tails (py "WS")).
      set (x := py "WS " ++ py (if wy then "RWY" else "R") ++ runway_code r).
      assert (EX : py "WS" ++ tails ((py (if wy then "RWY" else "R") ++ runway_code r) :: flat_map m_words B)
                   = x ++ tails (flat_map m_words B)).
      { unfold x. cbn [tails flat_map app]. rewrite <- !app_assoc. reflexivity. }
      match goal with |- ws_rounds k (sanitize_windshear_step ?s) = _ =>
        replace s with (pre A ++ x ++ tails (flat_map m_words B)) by exact (eq_sym (f_equal (app (pre A)) EX)) end.
      destruct (ws_match wy r (tails (flat_map m_words B)) Lr (tails_bfirst _)) as (m & Em & Ee & Eg). fold x in Em, Ee.
      assert (Q : quiet r_SAN_WS (pre A) (x ++ tails (flat_map m_words B))).
      { unfold x. change (py "WS " ++ py (if wy then "RWY" else "R") ++ runway_code r)
          with (py "WS" ++ 32%N :: py (if wy then "RWY" else "R") ++ runway_code r). rewrite <- app_assoc.
        apply (quiet_pre _ lt_ws (starts_with (py "R")) ws_link); [exact F1|repeat constructor|right; eexists; reflexivity|].
        apply (unsheared_apart A _ _ Hu). reflexivity. }
      unfold sanitize_windshear_step.
      destruct (step_at r_SAN_WS (py "WS_R" ++ fmt_opt (group m "name")) (pre A) x (tails (flat_map m_words B)) m eq_refl eq_refl Q)
        as (S1 & m' & S2 & S3); [discriminate|exact Em|exact Ee|].
      rewrite S2, S3, S1, Eg. cbn [fmt_opt]. fold W.
      rewrite sentence_tails in IH'. transitivity (pre A ++ sentence (W :: map m_joined B)); [apply IH'|reflexivity].
      * apply Forall_app. split; [exact L1|]. constructor; [|exact LB].
        unfold sheared, ink, W. apply Forall_app. split; [repeat constructor|apply runway_ink; exact Lr].
      * apply Forall_app. split; [exact A1|]. constructor; [reflexivity|exact AB].
      * apply (unsheared_merge A wy r B Lr Hu).
      * unfold shears in *. rewrite filter_app, app_length in *. cbn [filter is_runway_ws length] in *.
        assert (Z : length (filter is_runway_ws (map MWord A)) = 0).
        { clear. induction A as [|a A IH]; [reflexivity|]. exact IH. }
        lia.
Qed.

Definition conv (t : mtok) : mtok := match t with MWs _ WsAll => MWord (py "WS_ALL_RWY") | _ => t end.

Lemma conv_unsheared : forall l, unsheared l -> unsheared (map conv l).
Proof.
  induction l as [|t l IH]; intro H; [exact I|]. specialize (IH (unsheared_tail _ _ H)).
  destruct t as [w|two n a b|wy [|r]]; cbn [map conv].
  - split; [|exact IH]. destruct H as [H _]. destruct l as [|[v|two n a b|wy [|r]] l]; cbn [map conv]; try exact I; [exact H|].
    apply andb_false_r.
  - exact IH.
  - split; [|exact IH]. destruct (map conv l) as [|[v| |] ?]; try exact I. reflexivity.
  - exact IH.
Qed.

Lemma san_windshear : forall l, Forall sheared l -> unsheared l -> shears l <= 3 ->
  sanitize_windshear (sentence (flat_map m_words l)) = sentence (map m_joined l).
Proof.
  intros l Hl Hu Hk. unfold sanitize_windshear. rewrite (san_all (length l) l (le_n _) Hl Hu).
  assert (E1 : flat_map m_words1 l = flat_map m_words (map conv l)).
  { clear. induction l as [|t l IH]; [reflexivity|]. cbn [flat_map map]. rewrite IH. destruct t as [| |wy [|r]]; reflexivity. }
  assert (E2 : map m_joined l = map m_joined (map conv l)).
  { clear. induction l as [|t l IH]; [reflexivity|]. cbn [map]. rewrite IH. destruct t as [| |wy [|r]]; reflexivity. }
  rewrite E1, E2. apply (san_ws 3).
  - clear - Hl. induction Hl as [|t l Ht Hl IH]; [constructor|]. cbn [map]. constructor; [|exact IH].
    destruct t as [| |wy [|r]]; try exact Ht. repeat constructor.
  - clear. induction l as [|t l IH]; [constructor|]. cbn [map]. constructor; [|exact IH]. destruct t as [| |wy [|r]]; reflexivity.
  - apply conv_unsheared. exact Hu.
  - clear - Hk. assert (E : shears (map conv l) = shears l); [|lia]. clear Hk. unfold shears.
    induction l as [|t l IH]; [reflexivity|]. cbn [map filter]. destruct t as [| |wy [|r]]; cbn [conv is_runway_ws length]; lia.
Qed.

(** ** Both passes *)

Definition split_ws (t : mtok) : list mtok := match t with MWs _ _ => map MWord (m_words t) | _ => [t] end.
Definition join_mixed (t : mtok) : mtok := match t with MMixed _ _ _ _ => MWord (m_joined t) | _ => t end.

Lemma ws_no_digits : forall (wy : bool) r, forallb is_digit (py (if wy then "RWY" else "R") ++ runway_code r) = false.
Proof. intros wy r. destruct wy; reflexivity. Qed.

Lemma ws_no_frac : forall (wy : bool) r, frac_like (py (if wy then "RWY" else "R") ++ runway_code r) = false.
Proof.
  intros wy r. destruct (frac_like _) eqn:E; [|reflexivity]. apply frac_like_iff in E. destruct E as (a & b & t & E & Ha & _).
  destruct wy; injection E as <- _; vm_compute in Ha; discriminate.
Qed.

Lemma split_unmixed : forall l, unmixed l -> unmixed (flat_map split_ws l).
Proof.
  induction l as [|t l IH]; intro H; [exact I|]. specialize (IH (unmixed_tail _ _ H)).
  destruct t as [w|two n a b|wy [|r]]; cbn [flat_map split_ws m_words map app].
  - split; [|exact IH]. destruct H as [H _]. destruct l as [|[v|two n a b|wy [|r]] l]; cbn [flat_map split_ws m_words map app].
    + exact I.
    + exact H.
    + exact I.
    + unfold mixed_like. apply andb_false_r.
    + unfold mixed_like. apply andb_false_r.
  - exact IH.
  - cbn [unmixed]. split; [reflexivity|]. split; [reflexivity|]. split; [|exact IH].
    destruct (flat_map split_ws l) as [|[v| |] ?]; try exact I. reflexivity.
  - cbn [unmixed]. split; [unfold mixed_like; rewrite ws_no_frac; apply andb_false_r|]. split; [|exact IH].
    destruct (flat_map split_ws l) as [|[v| |] ?]; try exact I. unfold mixed_like. rewrite ws_no_digits. reflexivity.
Qed.

Lemma split_words : forall l, flat_map m_words (flat_map split_ws l) = flat_map m_words l.
Proof.
  induction l as [|t l IH]; [reflexivity|]. cbn [flat_map]. rewrite flat_map_app, IH. f_equal.
  destruct t as [w|two n a b|wy g]; try reflexivity. cbn [split_ws]. apply mword_words.
Qed.

Lemma split_joined : forall l, map m_joined (flat_map split_ws l) = flat_map m_words (map join_mixed l).
Proof.
  induction l as [|t l IH]; [reflexivity|]. cbn [flat_map map]. rewrite map_app, IH. f_equal.
  destruct t as [w|two n a b|wy g]; try reflexivity. cbn [split_ws join_mixed]. apply mword_joined.
Qed.

Lemma split_flat : forall l, Forall mtok_wf l -> Forall flat (flat_map split_ws l).
Proof.
  intros l H. induction H as [|t l Ht Hl IH]; [constructor|]. cbn [flat_map]. apply Forall_app. split; [|exact IH].
  destruct t as [w|two n a b|wy g]; cbn [split_ws].
  - constructor; [apply word_ink; exact Ht|constructor].
  - repeat constructor.
  - assert (K := ws_words_ink (MWs wy g) Ht). induction K as [|w ws Hw Hws IHw]; [constructor|]. constructor; assumption.
Qed.

Lemma split_mixed : forall l, mixed (flat_map split_ws l) = mixed l.
Proof.
  intro l. unfold mixed. induction l as [|t l IH]; [reflexivity|]. cbn [flat_map]. rewrite filter_app, app_length, IH.
  destruct t as [w|two n a b|wy [|r]]; reflexivity.
Qed.

Lemma last_app : forall {X} (a b : list X) d, b <> [] -> last (a ++ b) d = last b d.
Proof.
  intros X a b d Hb. induction a as [|x a IH]; [reflexivity|]. cbn [app]. destruct (a ++ b) eqn:E.
  - apply app_eq_nil in E. destruct E. congruence.
  - rewrite <- E. rewrite <- IH, E. reflexivity.
Qed.

Lemma split_last : forall l, is_mixed (last l (MWord [])) = false -> is_mixed (last (flat_map split_ws l) (MWord [])) = false.
Proof.
  intro l. destruct (rev l) as [|t l0] eqn:E.
  - assert (l = []) by (rewrite <- (rev_involutive l), E; reflexivity). subst. auto.
  - assert (El : l = rev l0 ++ [t]) by (rewrite <- (rev_involutive l), E; reflexivity). subst l.
    rewrite last_last, flat_map_app. intro H. rewrite last_app by (destruct t as [| |? [|]]; discriminate).
    destruct t as [w|two n a b|wy [|r]]; try reflexivity. discriminate.
Qed.

Lemma join_sheared : forall l, Forall mtok_wf l -> Forall sheared (map join_mixed l).
Proof.
  intros l H. induction H as [|t l Ht Hl IH]; [constructor|]. cbn [map]. constructor; [|exact IH].
  destruct t as [w|two n a b|wy g]; cbn [join_mixed].
  - apply word_ink. exact Ht.
  - cbn [m_joined sheared]. unfold ink. apply Forall_app. split; [apply digits_ink|]. apply Forall_app.
    split; [repeat constructor|apply frac_ink].
  - exact Ht.
Qed.

Lemma mixed_end : forall two n a b, lt_ws (one_or_two two n ++ py "_" ++ frac_word a b) = false.
Proof. intros. unfold frac_word. rewrite !app_assoc. unfold lt_ws, ends_with. rewrite rev_app_distr. reflexivity. Qed.

Lemma digit_head : forall two n t p c, p = c :: t -> is_digit c = false -> forall u, starts_with p (one_or_two two n ++ u) = false.
Proof.
  intros two n t p c -> Hc u. destruct (int_word two n) as (d & w & -> & Hd). inversion Hd as [|? ? Hd1 Hd2]; subst.
  cbn [app starts_with]. destruct (c =? d)%N eqn:E; [|reflexivity]. apply N.eqb_eq in E. congruence.
Qed.

Lemma join_unsheared : forall l, unsheared l -> unsheared (map join_mixed l).
Proof.
  induction l as [|t l IH]; intro H; [exact I|]. specialize (IH (unsheared_tail _ _ H)).
  destruct t as [w|two n a b|wy g]; cbn [map join_mixed].
  - split; [|exact IH]. destruct H as [H _]. destruct l as [|[v|two n a b|wy g] l]; cbn [map join_mixed]; try exact I; [exact H|].
    unfold sheared_like. cbn [m_joined].
    rewrite (digit_head two n [] (py "R") 82%N eq_refl eq_refl), (digit_head two n [76; 76]%N (py "ALL") 65%N eq_refl eq_refl).
    apply andb_false_r.
  - split; [|exact IH]. destruct (map join_mixed l) as [|[v| |] ?]; try exact I.
    unfold sheared_like. cbn [m_joined]. fold (lt_ws (one_or_two two n ++ py "_" ++ frac_word a b)). rewrite mixed_end. reflexivity.
  - exact IH.
Qed.

Lemma join_joined : forall l, map m_joined (map join_mixed l) = map m_joined l.
Proof. intro l. rewrite map_map. apply map_ext. intros [w|two n a b|wy g]; reflexivity. Qed.

Lemma join_shears : forall l, shears (map join_mixed l) = shears l.
Proof.
  intro l. unfold shears. induction l as [|t l IH]; [reflexivity|]. cbn [map filter].
  destruct t as [w|two n a b|wy [|r]]; cbn [join_mixed is_runway_ws length]; rewrite ?IH; reflexivity.
Qed.

Lemma body_joined : forall w l, word w -> Forall mtok_wf l -> unmixed l -> unsheared (MWord w :: l) ->
  is_mixed (last l (MWord w)) = false -> length (filter is_mixed l) <= 3 -> length (filter is_runway_ws l) <= 3 ->
  sanitize_windshear (sanitize_visibility (sentence (flat_map m_words (MWord w :: l)))) = sentence (map m_joined (MWord w :: l)).
Proof.
  intros w l Hw Hl Hu Hws Hlast Hm Hr. cbn [flat_map m_words app]. rewrite sentence_tails.
  assert (HL : is_mixed (last l (MWord [])) = false).
  { destruct l as [|t l]; [reflexivity|]. rewrite <- Hlast. f_equal. clear. revert t. induction l as [|t2 l IH]; intro t; [reflexivity|].
    rewrite !last_cons2. apply IH. }
  rewrite <- (split_words l). unfold sanitize_visibility.
  rewrite (san_vis 3 w (flat_map split_ws l)); [|apply word_ink; exact Hw|apply split_flat; exact Hl|apply split_unmixed; exact Hu
    |apply split_last; exact HL|rewrite split_mixed; exact Hm].
  rewrite split_joined, <- sentence_tails.
  change (w :: flat_map m_words (map join_mixed l)) with (flat_map m_words (MWord w :: map join_mixed l)).
  rewrite san_windshear.
  - cbn [map]. rewrite join_joined. reflexivity.
  - constructor; [apply word_ink; exact Hw|]. apply join_sheared. exact Hl.
  - exact (join_unsheared _ Hws).
  - unfold shears in *. cbn [filter is_runway_ws]. assert (E := join_shears l). unfold shears in E. rewrite E. exact Hr.
Qed.

(** Sections in which only the visibility is joined. *)
Lemma vis_joined : forall w l, word w -> Forall (fun t => match t with MWord v => word v | MMixed _ _ _ _ => True | MWs _ _ => False end) l ->
  unmixed l -> is_mixed (last l (MWord w)) = false -> length (filter is_mixed l) <= 3 ->
  sanitize_visibility (sentence (flat_map m_words (MWord w :: l))) = sentence (map m_joined (MWord w :: l)).
Proof.
  intros w l Hw Hl Hu Hlast Hm. cbn [flat_map m_words app]. rewrite sentence_tails.
  assert (HL : is_mixed (last l (MWord [])) = false).
  { destruct l as [|t l]; [reflexivity|]. rewrite <- Hlast. f_equal. clear. revert t. induction l as [|t2 l IH]; intro t; [reflexivity|].
    rewrite !last_cons2. apply IH. }
  unfold sanitize_visibility. rewrite (san_vis 3 w l); [cbn [map m_joined]; rewrite sentence_tails; reflexivity| | | | |].
  - apply word_ink. exact Hw.
  - eapply Forall_impl; [|exact Hl]. intros [v|two n a b|wy g] K; [apply word_ink; exact K|exact I|exact K].
  - exact Hu.
  - exact HL.
  - exact Hm.
Qed.

Lemma split_sentence_ink : forall ws, ws <> [] -> Forall ink ws -> split_on 32%N (sentence ws) = ws.
Proof.
  intros ws H0 H. destruct H as [|w ws Hw Hws]; [congruence|]. clear H0. revert w Hw. induction Hws as [|v ws Hv Hws IH]; intros w Hw.
  - cbn [sentence join]. apply split_on_nosep. intro K. unfold ink in Hw. rewrite Forall_forall in Hw. apply Hw in K. discriminate.
  - change (sentence (w :: v :: ws)) with (w ++ 32%N :: sentence (v :: ws)). rewrite split_on_app; [rewrite IH by exact Hv; reflexivity|].
    intro K. unfold ink in Hw. rewrite Forall_forall in Hw. apply Hw in K. discriminate.
Qed.

Lemma joined_ink : forall l, Forall mtok_wf l -> Forall ink (map m_joined l).
Proof.
  intros l H. induction H as [|t l Ht Hl IH]; [constructor|]. cbn [map]. constructor; [|exact IH].
  destruct t as [w|two n a b|wy [|r]]; cbn [m_joined mtok_wf ws_token] in *.
  - apply word_ink. exact Ht.
  - unfold ink. apply Forall_app. split; [apply digits_ink|]. apply Forall_app. split; [repeat constructor|apply frac_ink].
  - repeat constructor.
  - unfold ink. apply Forall_app. split; [repeat constructor|apply runway_ink; exact Ht].
Qed.

Lemma body_groups : forall {S} (hs : list (handler S)) st w l, word w -> Forall mtok_wf l -> unmixed l -> unsheared (MWord w :: l) ->
  is_mixed (last l (MWord w)) = false -> length (filter is_mixed l) <= 3 -> length (filter is_runway_ws l) <= 3 ->
  parse_section hs (sanitize_body (sentence (flat_map m_words (MWord w :: l)))) st
  = parse_groups hs (w :: map m_joined l) 0 [] st.
Proof.
  intros S hs st w l Hw Hl Hu Hws Hlast Hm Hr. unfold parse_section, sanitize_body.
  rewrite (body_joined w l Hw Hl Hu Hws Hlast Hm Hr), split_sentence_ink; [reflexivity|discriminate|].
  apply joined_ink. constructor; [exact Hw|exact Hl].
Qed.
