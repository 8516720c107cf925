(** * Joining neighbouring words: searching in a sentence word by word *)
From Coq Require Import String Ascii.
From Coq Require Import List NArith ZArith Bool Lia.
From Verif Require Import PyBase PyRegex AeroRegex Utils StrFacts SpecText ProofText TextFacts.
Import ListNotations.
Open Scope list_scope.

Definition ink (w : str) : Prop := Forall (fun c => is_space c = false) w.

Lemma word_ink : forall w, word w -> ink w.
Proof. intros w [_ H]. eapply Forall_impl; [|exact H]. intros c Hc. apply not_blank. exact Hc. Qed.

(** The first whitespace of a text is where it is. *)
Lemma first_blank : forall w w' b b' t t', ink w -> ink w' -> is_space b = true -> is_space b' = true ->
  w ++ b :: t = w' ++ b' :: t' -> w = w' /\ b = b' /\ t = t'.
Proof.
  intros w. induction w as [|c w IH]; intros w' b b' t t' Hw Hw' Hb Hb' E.
  - destruct w' as [|c' w']; [injection E as -> ->; auto|].
    injection E as -> _. inversion Hw'; subst. congruence.
  - destruct w' as [|c' w']; [injection E as -> _; inversion Hw; subst; congruence|].
    injection E as -> E. inversion Hw; subst. inversion Hw'; subst.
    destruct (IH w' b b' t t') as (-> & -> & ->); auto.
Qed.

Lemma ink_no_blank : forall w l b t, ink w -> is_space b = true -> w <> l ++ b :: t.
Proof.
  intros w l b t Hw Hb ->. unfold ink in Hw. apply Forall_app in Hw. destruct Hw as [_ Hw].
  inversion Hw; subst. congruence.
Qed.

Lemma ink_app_r : forall a b, ink (a ++ b) -> ink b.
Proof. intros a b H. apply Forall_app in H. apply H. Qed.

Lemma ink_starts : forall m v t, ink m -> (exists t', v ++ t = m ++ t') ->
  (t = [] \/ exists t2, t = 32%N :: t2) -> exists v', v = m ++ v'.
Proof.
  intros m. induction m as [|c m IH]; intros v t Hm (t' & E) Ht; [exists v; reflexivity|].
  inversion Hm as [|c0 m0 Hc Hm']; subst. destruct v as [|d v].
  - cbn [app] in E. destruct Ht as [->|(t2 & ->)]; [discriminate|]. injection E as <- _. discriminate.
  - injection E as -> E. destruct (IH v t Hm') as (v' & ->); [exists t'; exact E|exact Ht|].
    exists v'. reflexivity.
Qed.

Section Links.
Variable r : regex.
Variables lt rt : str -> bool.
Hypothesis Hbos : nobos r = true.
Hypothesis Hnil : mlen r [] = None.
(** A match is the end of a word, whitespace, and the beginning of the next. *)
Hypothesis Hlink : forall x, den r x -> exists l b m1 m2, x = l ++ b :: m1 ++ m2 /\ l <> [] /\ ink l
  /\ is_space b = true /\ ink m1 /\ (forall w, lt (w ++ l) = true) /\ (forall v, rt (m1 ++ v) = true).

Lemma quiet_ink : forall w, ink w -> quiet r w [].
Proof.
  intros w Hw a1 c a2 E. apply mlen_none. intros x t Ex D.
  destruct (Hlink x D) as (l & b & m1 & m2 & -> & Hl & _ & Hb & _).
  rewrite app_nil_r in Ex. assert (K := ink_no_blank (c :: a2) l b ((m1 ++ m2) ++ t)).
  apply K; [apply (ink_app_r a1); rewrite <- E; exact Hw|exact Hb|].
  rewrite Ex, <- app_assoc. reflexivity.
Qed.

Lemma quiet_word : forall w v t, ink w -> ink v -> (t = [] \/ exists t2, t = 32%N :: t2) ->
  lt w && rt v = false -> quiet r (w ++ [32%N]) (v ++ t).
Proof.
  intros w v t Hw Hv Ht Hap a1 c a2 E. apply mlen_none. intros x t' Ex D.
  destruct (Hlink x D) as (l & b & m1 & m2 & -> & Hl & Hli & Hb & Hm & HL & HR).
  (* where the match begins: inside w or at the space *)
  destruct (rev a2) as [|z a2r] eqn:Er.
  - assert (a2 = []) by (rewrite <- (rev_involutive a2), Er; reflexivity). subst a2.
    apply app_inj_tail in E. destruct E as [<- <-].
    destruct l as [|l0 l]; [congruence|]. injection Ex as <- Ex. inversion Hli; subst. discriminate.
  - assert (E2 : a2 = rev a2r ++ [z]) by (rewrite <- (rev_involutive a2), Er; reflexivity). subst a2.
    change (c :: rev a2r ++ [z]) with ((c :: rev a2r) ++ [z]) in E. rewrite app_assoc in E.
    apply app_inj_tail in E. destruct E as [E <-].
    assert (F : (c :: rev a2r) ++ 32%N :: v ++ t = l ++ b :: (m1 ++ m2) ++ t').
    { cbn [app] in *. rewrite <- !app_assoc in Ex. cbn [app] in Ex. rewrite Ex, <- !app_assoc. reflexivity. }
    apply first_blank in F.
    + destruct F as (Fl & Fb & Ft).
      assert (W : lt w = true) by (rewrite E, Fl; apply HL).
      destruct (ink_starts m1 v t Hm) as (v' & ->).
      * exists (m2 ++ t'). rewrite Ft, <- app_assoc. reflexivity.
      * exact Ht.
      * rewrite W, HR in Hap. discriminate.
    + apply (ink_app_r a1). rewrite <- E. exact Hw.
    + exact Hli.
    + reflexivity.
    + exact Hb.
Qed.

(** The words before a point, each with its space. *)
Definition pre (ws : list str) : str := flat_map (fun w => w ++ [32%N]) ws.

Fixpoint apart (ws : list str) (v : str) : Prop :=
  match ws with
  | [] => True
  | w :: ws' => lt w && rt (hd v ws') = false /\ apart ws' v
  end.

Lemma pre_text : forall ws v t, (t = [] \/ exists t2, t = 32%N :: t2) ->
  exists t', pre ws ++ v ++ t = hd v ws ++ t' /\ (t' = [] \/ exists t2, t' = 32%N :: t2).
Proof.
  intros [|w ws] v t Ht; [exists t; auto|]. exists (32%N :: pre ws ++ v ++ t). split; [|right; eexists; reflexivity].
  cbn [pre flat_map hd]. fold (pre ws). rewrite <- !app_assoc. reflexivity.
Qed.

Lemma quiet_pre : forall ws v t, Forall ink ws -> ink v -> (t = [] \/ exists t2, t = 32%N :: t2) ->
  apart ws v -> quiet r (pre ws) (v ++ t).
Proof.
  intros ws v t Hws Hv Ht. induction Hws as [|w ws Hw Hws IH]; intro Ha; [apply quiet_nil|].
  destruct Ha as [Ha1 Ha2]. cbn [pre flat_map]. fold (pre ws). apply quiet_app; [|apply IH; exact Ha2].
  destruct (pre_text ws v t Ht) as (t' & E & Ht'). rewrite E.
  apply quiet_word; auto. destruct Hws; [exact Hv|assumption].
Qed.

Lemma sentence_pre : forall ws v B, sentence (ws ++ v :: B) = pre ws ++ sentence (v :: B).
Proof.
  intros ws v B. induction ws as [|w ws IH]; [reflexivity|].
  unfold sentence in *. change ((w :: ws) ++ v :: B) with (w :: (ws ++ v :: B)).
  rewrite join_cons by (destruct ws; discriminate). rewrite IH. cbn [pre flat_map]. fold (pre ws).
  rewrite <- !app_assoc. reflexivity.
Qed.

(** Nothing to find. *)
Lemma sentence_quiet : forall ws, Forall ink ws ->
  (forall A u v B, ws = A ++ u :: v :: B -> lt u && rt v = false) -> quiet r (sentence ws) [].
Proof.
  intros ws Hi Ha. destruct (rev ws) as [|v A] eqn:Er.
  - assert (ws = []) by (rewrite <- (rev_involutive ws), Er; reflexivity). subst. apply quiet_nil.
  - assert (E : ws = rev A ++ [v]) by (rewrite <- (rev_involutive ws), Er; reflexivity). clear Er.
    subst ws. rewrite sentence_pre. apply Forall_app in Hi. destruct Hi as [Hi Hv]. inversion Hv; subst.
    cbn [sentence join]. apply quiet_app.
    + apply quiet_pre; auto. clear Hi Hv. induction (rev A) as [|w ws IH]; [exact I|]. split.
      * destruct ws as [|w2 ws]; [apply (Ha [] w v []); reflexivity|].
        apply (Ha [] w w2 (ws ++ [v])). reflexivity.
      * apply IH. intros A0 u v0 B E. apply (Ha (w :: A0) u v0 B). cbn [app]. rewrite E. reflexivity.
    + apply quiet_ink. assumption.
Qed.
End Links.

(** One replacement at the first match. *)
Lemma step_at : forall r w a x t m, nobos r = true -> mlen r [] = None -> quiet r a (x ++ t) ->
  x <> [] -> re_match r (x ++ t) = Some m -> m_end m = length x ->
  re_sub r w (a ++ x ++ t) (Some 1) = a ++ w ++ t
  /\ exists m', re_search r (a ++ x ++ t) = Some m' /\ (forall n, group m' n = group m n).
Proof.
  intros r w a x t m Hb Hn Q Hx Hm He. split.
  - rewrite re_sub_quiet by assumption. rewrite re_sub_hit; auto; try discriminate.
    + cbn [cnt_pred]. rewrite re_sub_zero. reflexivity.
    + rewrite <- He. apply re_match_mlen. exact Hm.
  - destruct (re_search_some r a (x ++ t) m Hb Q Hm) as (m' & E & G & _). exists m'. auto.
Qed.

(** Replacing every match. *)
Lemma all_at : forall r w a x t n, nobos r = true -> mlen r [] = None -> quiet r a (x ++ t) ->
  x <> [] -> mlen r (x ++ t) = Some n -> n = length x ->
  re_sub r w (a ++ x ++ t) None = a ++ w ++ re_sub r w t None.
Proof.
  intros r w a x t n Hb Hn Q Hx Hm ->. rewrite re_sub_quiet by assumption.
  rewrite re_sub_hit; auto; discriminate.
Qed.
