(** * Raw code normalisation *)
From Coq Require Import String Ascii.
From Coq Require Import List NArith ZArith Bool Lia.
From Verif Require Import PyBase PyRegex AeroRegex Base StrFacts SpecText.
Import ListNotations.
Open Scope list_scope.

Lemma not_blank : forall c, ~ blank c <-> is_space c = false.
Proof. intro c. unfold blank. destruct (is_space c); split; intro H; congruence. Qed.

Lemma star_head : forall k x t pos, Forall (fun c => in_cls c k = true) x ->
  match t with c :: _ => in_cls c k = false | [] => True end ->
  exists l, run_star k pos (x ++ t) = (pos + length x, t, []) :: l.
Proof.
  intros k x t pos Hx Ht. revert pos. induction Hx as [|c x Hc Hx IH]; intro pos.
  - cbn [app length]. rewrite Nat.add_0_r. destruct t as [|c t]; cbn [run_star]; [exists []; reflexivity|].
    rewrite Ht. exists []. reflexivity.
  - cbn [app length run_star]. rewrite Hc. destruct (IH (S pos)) as (l & ->).
    exists (l ++ [(pos, c :: x ++ t, [])]). cbn [app]. do 3 f_equal. lia.
Qed.

Lemma in_space : forall c, in_cls c [CSpace] = is_space c.
Proof. intro c. cbn. apply orb_false_r. Qed.

Lemma in_one : forall c d, in_cls c [CRange d d] = N.eqb c d.
Proof.
  intros c d. cbn. rewrite orb_false_r. destruct (N.eqb_spec c d) as [->|E].
  - rewrite N.leb_refl. reflexivity.
  - apply not_true_is_false. intro H. apply andb_true_iff in H. destruct H as [H1 H2].
    apply N.leb_le in H1, H2. lia.
Qed.

(** What the normalising pattern matches at whitespace. *)
Definition head_ink (t : str) : Prop := match t with c :: _ => is_space c = false | [] => True end.

Lemma norm_ink : forall t, head_ink t -> mlen r_NORMALISE t = None.
Proof.
  intros t H. apply mlen_none. intros x t' E D. cbn in D.
  assert (K : exists c x', x = c :: x' /\ is_space c = true).
  { destruct D as [(x1 & x2 & -> & (c & -> & Hc) & _)|[(x1 & x2 & -> & (c & -> & Hc) & _)|(x1 & x2 & -> & (c & -> & Hc) & _)]];
      exists c, x2; (split; [reflexivity|]).
    - rewrite orb_false_r in Hc. exact Hc.
    - change ((10 <=? c)%N && (c <=? 10)%N || false)%bool with (in_cls c [CRange 10 10]) in Hc.
      rewrite in_one in Hc. apply N.eqb_eq in Hc. subst c. reflexivity.
    - change ((9 <=? c)%N && (c <=? 9)%N || false)%bool with (in_cls c [CRange 9 9]) in Hc.
      rewrite in_one in Hc. apply N.eqb_eq in Hc. subst c. reflexivity. }
  destruct K as (c & x' & -> & Hc). subst t. cbn in H. congruence.
Qed.

Lemma norm_many : forall x t, 2 <= length x -> blanks x -> head_ink t ->
  mlen r_NORMALISE (x ++ t) = Some (length x).
Proof.
  intros x t Hl Hx Ht. destruct x as [|a [|b x]]; cbn [length] in Hl; try lia.
  unfold mlen, r_NORMALISE. cbn [run app].
  inversion Hx as [|a0 l Ha Hx']; subst. inversion Hx' as [|b0 l Hb Hx'']; subst.
  rewrite !in_space. rewrite Ha. cbn [flat_map]. rewrite in_space, Hb. cbn [flat_map].
  destruct (star_head [CSpace] x t 2) as (l & ->).
  - eapply Forall_impl; [|exact Hx'']. intros c Hc. rewrite in_space. exact Hc.
  - destruct t as [|c t]; [exact I|]. rewrite in_space. exact Ht.
  - reflexivity.
Qed.

Lemma norm_single : forall c t, is_space c = true -> head_ink t ->
  mlen r_NORMALISE (c :: t) = if N.eqb c 10 || N.eqb c 9 then Some 1 else None.
Proof.
  intros c t Hc Ht. unfold mlen, r_NORMALISE.
  assert (E1 : run (Seq (Chr [CSpace]) (Seq (Chr [CSpace]) (Star [CSpace]))) 0 (c :: t) = []).
  { cbn [run]. rewrite in_space, Hc. cbn [flat_map]. destruct t as [|d t]; [reflexivity|].
    rewrite in_space. cbn in Ht. rewrite Ht. reflexivity. }
  assert (E2 : forall k, is_space k = true -> run (Seq (Chr [CRange k k]) (Star [CRange k k])) 0 (c :: t)
                   = if N.eqb c k then [(1, t, [])] else []).
  { intros k Hk. cbn [run]. rewrite in_one. destruct (N.eqb c k) eqn:E; [|reflexivity].
    cbn [flat_map]. destruct t as [|d t]; [reflexivity|]. cbn [run_star]. rewrite in_one.
    destruct (N.eqb_spec d k) as [->|]; [cbn in Ht; congruence|reflexivity]. }
  change (run _ 0 (c :: t)) with
    (run (Seq (Chr [CSpace]) (Seq (Chr [CSpace]) (Star [CSpace]))) 0 (c :: t)
     ++ run (Seq (Chr [CRange 10 10]) (Star [CRange 10 10])) 0 (c :: t)
     ++ run (Seq (Chr [CRange 9 9]) (Star [CRange 9 9])) 0 (c :: t)).
  rewrite E1, !E2 by reflexivity. destruct (N.eqb c 10) eqn:T1; [reflexivity|].
  destruct (N.eqb c 9); reflexivity.
Qed.

(** What a run of whitespace becomes. *)
Definition squeeze (s : str) : str :=
  match s with
  | [c] => if N.eqb c 10 || N.eqb c 9 then [32%N] else [c]
  | _ => [32%N]
  end.

Lemma norm_nil : mlen r_NORMALISE [] = None.
Proof. reflexivity. Qed.

Lemma norm_nobos : nobos r_NORMALISE = true.
Proof. reflexivity. Qed.

Definition norm (s : str) : str := re_sub r_NORMALISE (py " ") s None.

Lemma norm_blanks : forall x t, x <> [] -> blanks x -> head_ink t -> norm (x ++ t) = squeeze x ++ norm t.
Proof.
  intros x t Hn Hx Ht. unfold norm. destruct x as [|c [|d x]]; [congruence| |].
  - inversion Hx as [|c0 l Hc _]; subst. cbn [squeeze].
    assert (E := norm_single c t Hc Ht). destruct (N.eqb c 10 || N.eqb c 9).
    + rewrite re_sub_hit; auto using norm_nobos, norm_nil; discriminate.
    + cbn [app]. rewrite re_sub_copy; auto using norm_nobos.
  - assert (E : mlen r_NORMALISE ((c :: d :: x) ++ t) = Some (length (c :: d :: x))).
    { apply norm_many; [cbn [length]; lia|exact Hx|exact Ht]. }
    rewrite re_sub_hit; auto using norm_nobos, norm_nil; try discriminate.
Qed.

Lemma norm_word : forall w t, Forall (fun c => ~ blank c) w -> norm (w ++ t) = w ++ norm t.
Proof.
  intros w t Hw. unfold norm. apply re_sub_quiet; [exact norm_nobos|].
  induction Hw as [|c w Hc Hw IH]; [apply quiet_nil|]. apply quiet_cons; [|exact IH].
  apply norm_ink. apply not_blank. exact Hc.
Qed.

(** A text as a word and then whitespace and words. *)
Definition tail_text (l : list (str * str)) : str := flat_map (fun x => fst x ++ snd x) l.
Definition good_tail (l : list (str * str)) : Prop :=
  Forall (fun x => fst x <> [] /\ blanks (fst x) /\ word (snd x)) l.

Lemma word_head : forall w t, word w -> head_ink (w ++ t).
Proof.
  intros w t [Hn Hw]. destruct w as [|c w]; [congruence|]. inversion Hw as [|c0 l Hc _]; subst.
  cbn. apply not_blank. exact Hc.
Qed.

Lemma norm_tail : forall l, good_tail l ->
  norm (tail_text l) = tail_text (map (fun x => (squeeze (fst x), snd x)) l).
Proof.
  intros l H. induction H as [|[b w] l (Hn & Hb & Hw) H IH]; [reflexivity|].
  cbn [tail_text flat_map map fst snd] in *. fold (tail_text l) in *.
  rewrite <- !app_assoc. rewrite norm_blanks by (auto using word_head).
  rewrite norm_word by (apply Hw). rewrite IH. reflexivity.
Qed.

Lemma word_last : forall w, word w -> is_space (last w 0%N) = false.
Proof.
  intros w [Hn Hw]. apply not_blank. rewrite Forall_forall in Hw. apply Hw.
  rewrite (app_removelast_last 0%N Hn) at 2. apply in_or_app. right. left. reflexivity.
Qed.

Lemma last_app : forall (a b : str) d, b <> [] -> last (a ++ b) d = last b d.
Proof.
  intros a b d H. induction a as [|x a IH]; [reflexivity|]. cbn [app].
  destruct (a ++ b) eqn:E; [destruct a; [cbn in E; congruence|discriminate]|].
  cbn [last] in *. exact IH.
Qed.

Lemma text_trimmed : forall w l, word w -> good_tail l -> trimmed (w ++ tail_text l).
Proof.
  intros w l Hw Hl.
  assert (Hh := word_head w (tail_text l) Hw).
  assert (Hlast : is_space (last (w ++ tail_text l) 0%N) = false).
  { revert w Hw Hh. induction Hl as [|[b v] l (Hn & Hb & Hv) Hl IH]; intros w Hw Hh.
    - cbn [tail_text flat_map]. rewrite app_nil_r. apply word_last. exact Hw.
    - cbn [fst snd] in Hn, Hb, Hv. assert (F : tail_text ((b, v) :: l) = b ++ v ++ tail_text l).
      { unfold tail_text. cbn [flat_map fst snd]. apply app_assoc_reverse. }
      rewrite F. rewrite app_assoc.
      rewrite last_app by (destruct Hv as [Hvn _]; destruct v; [congruence|discriminate]).
      apply IH; [exact Hv|]. apply word_head. exact Hv. }
  destruct (w ++ tail_text l) as [|c t]; [exact I|]. split; [exact Hh|exact Hlast].
Qed.

(** Every text with ink is of this form, between whitespace. *)
Lemma take_word : forall s, exists w t, s = w ++ t /\ Forall (fun c => ~ blank c) w
  /\ match t with c :: _ => is_space c = true | [] => True end.
Proof.
  induction s as [|c s IH]; [exists [], []; auto|]. destruct (is_space c) eqn:E.
  - exists [], (c :: s). auto.
  - destruct IH as (w & t & -> & Hw & Ht). exists (c :: w), t. split; [reflexivity|].
    split; [|exact Ht]. constructor; [apply not_blank; exact E|exact Hw].
Qed.

Lemma tail_split : forall n s, length s <= n -> (match s with c :: _ => is_space c = true | [] => True end) ->
  exists l b, s = tail_text l ++ b /\ good_tail l /\ blanks b.
Proof.
  induction n as [|n IH]; intros s Hn Hs.
  - destruct s; [|cbn [length] in Hn; lia]. exists [], []. repeat split; constructor.
  - destruct (lstrip_split s) as (a & Ha & Es & Hc). destruct (lstrip s) as [|c u] eqn:Eu.
    + exists [], s. split; [reflexivity|]. split; [constructor|]. rewrite Es, app_nil_r. exact Ha.
    + destruct (take_word (c :: u)) as (w & t & Ew & Hw & Ht).
      assert (Hwn : w <> []).
      { intros ->. cbn [app] in Ew. subst t. rewrite Ht in Hc. discriminate. }
      assert (Han : a <> []).
      { intros ->. cbn [app] in Es. subst s. rewrite Hc in Hs. discriminate. }
      destruct (IH t) as (l & b & -> & Hl & Hb); [|exact Ht|].
      { rewrite Es, Ew, !app_length in Hn. destruct a; [congruence|]. cbn [length] in Hn. lia. }
      exists ((a, w) :: l), b. split; [|split; [|exact Hb]].
      * rewrite Es, Ew. unfold tail_text. cbn [flat_map fst snd]. rewrite <- !app_assoc. reflexivity.
      * constructor; [|exact Hl]. cbn [fst snd]. split; [exact Han|]. split; [exact Ha|]. split; assumption.
Qed.

Lemma text_split : forall s, has_ink s ->
  exists a w l b, s = a ++ (w ++ tail_text l) ++ b /\ blanks a /\ blanks b /\ word w /\ good_tail l.
Proof.
  intros s (c & Hc & Hi). destruct (lstrip_split s) as (a & Ha & Es & Hh).
  destruct (lstrip s) as [|d u] eqn:Eu.
  - rewrite app_nil_r in Es. subst a. rewrite Forall_forall in Ha. destruct (Hi (Ha c Hc)).
  - destruct (take_word (d :: u)) as (w & t & Ew & Hw & Ht).
    assert (Hwn : w <> []). { intros ->. cbn [app] in Ew. subst t. rewrite Ht in Hh. discriminate. }
    destruct (tail_split (length t) t (le_n _) Ht) as (l & b & Et & Hl & Hb).
    exists a, w, l, b. split; [|split; [exact Ha|split; [exact Hb|split; [split; assumption|exact Hl]]]].
    rewrite Es, Ew, Et, <- !app_assoc. reflexivity.
Qed.

Lemma strip_text : forall a w l b, blanks a -> blanks b -> word w -> good_tail l ->
  strip (a ++ (w ++ tail_text l) ++ b) = w ++ tail_text l.
Proof. intros a w l b Ha Hb Hw Hl. apply strip_pad; auto using text_trimmed. Qed.

Lemma remove_app : forall c a b, remove_char c (a ++ b) = remove_char c a ++ remove_char c b.
Proof. intros c a b. apply filter_app. Qed.

Lemma remove_none : forall c s, ~ In c s -> remove_char c s = s.
Proof.
  intros c s. unfold remove_char. induction s as [|x s IH]; intro H; [reflexivity|]. cbn [filter].
  destruct (N.eqb_spec x c) as [->|E]; [destruct H; left; reflexivity|]. cbn [negb].
  rewrite IH by (intro K; apply H; right; exact K). reflexivity.
Qed.

Lemma normalise_eq : forall s, normalise s = remove_char 61 (norm (strip s)).
Proof. intro s. unfold normalise, norm. apply (replace_char_del 61). Qed.

(** ** C01 *)

Lemma separator_blanks : forall s, separator s -> s <> [] /\ blanks s /\ squeeze s = [32%N].
Proof.
  intros s [-> | [-> | [-> | [Hl Hb]]]]; try (split; [discriminate|]; split; [repeat constructor|reflexivity]).
  destruct s as [|a [|b s]]; cbn [length] in Hl; try lia. split; [discriminate|]. auto.
Qed.

Lemma laid_tail : forall ws t, laid_out ws t -> Forall word ws ->
  exists w l, ws = w :: map snd l /\ t = w ++ tail_text l /\ good_tail l
    /\ Forall (fun x => separator (fst x)) l.
Proof.
  intros ws t H. induction H as [w|w sep ws t Hs H IH]; intro Hw.
  - exists w, []. cbn. rewrite app_nil_r. repeat split; constructor.
  - inversion Hw as [|w0 l0 Hw0 Hws]; subst. destruct (IH Hws) as (v & l & -> & -> & Hl & Hsl).
    exists w, ((sep, v) :: l). split; [reflexivity|]. split.
    { unfold tail_text. cbn [flat_map fst snd]. rewrite <- app_assoc. reflexivity. }
    inversion Hws as [|v0 l0 Hv Hl0]; subst.
    split; constructor; auto. cbn [fst snd]. destruct (separator_blanks sep Hs) as (A & B & _). auto.
Qed.

Lemma tail_joined : forall w l, Forall (fun x => fst x = [32%N]) l ->
  w ++ tail_text l = sentence (w :: map snd l).
Proof.
  intros w l H. revert w. induction H as [|[b v] l E H IH]; intro w.
  - unfold sentence. cbn. apply app_nil_r.
  - cbn [fst] in E. subst b. change (map snd (([32%N], v) :: l)) with (v :: map snd l).
    unfold sentence in *. rewrite join_cons by discriminate. rewrite <- IH.
    unfold tail_text. cbn [flat_map fst snd]. rewrite <- !app_assoc. reflexivity.
Qed.

Lemma no_eq_tail : forall w l, ~ In 61%N w -> Forall (fun v => ~ In 61%N v) (map snd l) ->
  Forall (fun x => fst x = [32%N]) l -> ~ In 61%N (w ++ tail_text l).
Proof.
  intros w l Hw Hl Hs. intro K. apply in_app_or in K. destruct K as [K|K]; [auto|].
  unfold tail_text in K. apply in_flat_map in K. destruct K as ([b v] & HI & K). cbn [fst snd] in K.
  rewrite Forall_forall in Hs. assert (E := Hs _ HI). cbn [fst] in E. subst b.
  apply in_app_or in K. destruct K as [[K|[]]|K]; [discriminate|].
  rewrite Forall_forall in Hl. apply (Hl v); [|exact K]. apply in_map_iff. exists ([32%N], v). auto.
Qed.

(** Gluing a sign to the last word. *)
Lemma glue_last : forall w l e, Forall (fun c => ~ blank c) e -> word w -> good_tail l ->
  exists w' l', (w ++ tail_text l) ++ e = w' ++ tail_text l' /\ word w' /\ good_tail l'
    /\ map fst l' = map fst l
    /\ (w' ++ tail_text (map (fun x => (squeeze (fst x), snd x)) l')
        = (w ++ tail_text (map (fun x => (squeeze (fst x), snd x)) l)) ++ e).
Proof.
  intros w l e He Hw Hl. destruct (rev l) as [|[b v] r] eqn:E.
  - assert (l = []) by (rewrite <- (rev_involutive l), E; reflexivity). subst l.
    exists (w ++ e), []. cbn [map]. unfold tail_text. cbn [flat_map]. rewrite !app_nil_r.
    split; [reflexivity|]. split; [|repeat split; constructor].
    destruct Hw as [Hn Hw]. split; [destruct w; [congruence|discriminate]|]. apply Forall_app. auto.
  - assert (El : l = rev r ++ [(b, v)]) by (rewrite <- (rev_involutive l), E; reflexivity).
    subst l. apply Forall_app in Hl. destruct Hl as [Hr Hv]. inversion Hv as [|x0 l0 (Hb1 & Hb2 & Hv1 & Hv2) _]; subst.
    cbn [fst snd] in *.
    exists w, (rev r ++ [(b, v ++ e)]). unfold tail_text. rewrite !map_app, !flat_map_app. cbn [map flat_map fst snd].
    rewrite !app_nil_r, <- !app_assoc. split; [reflexivity|]. split; [exact Hw|].
    split; [|split; reflexivity].
    apply Forall_app. split; [exact Hr|]. constructor; [|constructor]. cbn [fst snd].
    split; [exact Hb1|]. split; [exact Hb2|]. split; [destruct v; [congruence|discriminate]|].
    apply Forall_app. auto.
Qed.

Lemma raw_layout : forall ws t a e b,
  laid_out ws t -> Forall word ws -> Forall (fun w => ~ In 61%N w) ws ->
  blanks a -> blanks b -> e = [] \/ e = py "=" ->
  report_raw_code (a ++ t ++ e ++ b) = Ok (sentence ws).
Proof.
  intros ws t a e b Ht Hw Hq Ha Hb He. destruct (laid_tail ws t Ht Hw) as (w & l & -> & -> & Hl & Hs).
  inversion Hw as [|w0 l0 Hw0 Hl0]; subst. inversion Hq as [|w0 l1 Hq0 Hql]; subst.
  assert (Hen : Forall (fun c => ~ blank c) e).
  { destruct He as [-> | ->]; repeat constructor. intro K. discriminate. }
  destruct (glue_last w l e Hen Hw0 Hl) as (w' & l' & E1 & Hw' & Hl' & _ & E2).
  assert (Hsq : Forall (fun x => fst x = [32%N]) (map (fun x => (squeeze (fst x), snd x)) l)).
  { clear - Hs. induction Hs as [|[s v] l Hs0 Hs IH]; constructor; [|exact IH]. cbn [fst].
    apply separator_blanks. exact Hs0. }
  assert (Es : strip (a ++ (w ++ tail_text l) ++ e ++ b) = w' ++ tail_text l').
  { rewrite (app_assoc (w ++ tail_text l)), E1. apply strip_text; assumption. }
  assert (En : normalise (a ++ (w ++ tail_text l) ++ e ++ b) = sentence (w :: map snd l)).
  { rewrite normalise_eq, Es. rewrite norm_word by apply Hw'. rewrite norm_tail by exact Hl'.
    rewrite E2, remove_app.
    rewrite remove_none.
    2:{ apply no_eq_tail; [exact Hq0| |exact Hsq]. rewrite map_map. exact Hql. }
    rewrite tail_joined by exact Hsq. rewrite map_map.
    destruct He as [-> | ->]; cbn; apply app_nil_r. }
  unfold report_raw_code. destruct (a ++ (w ++ tail_text l) ++ e ++ b) as [|c s] eqn:Ec.
  - exfalso. apply app_eq_nil in Ec. destruct Ec as [_ Ec]. apply app_eq_nil in Ec. destruct Ec as [Ec _].
    apply app_eq_nil in Ec. destruct Ec as [Ec _]. destruct Hw0 as [Hn _]. auto.
  - f_equal. exact En.
Qed.

(** The output never has these characters. *)
Lemma squeeze_clean : forall s, blanks s -> ~ In 10%N (squeeze s) /\ ~ In 9%N (squeeze s).
Proof.
  intros s H. destruct s as [|c [|d s]]; cbn [squeeze].
  - split; intros [K|[]]; discriminate.
  - destruct (N.eqb_spec c 10) as [->|E1]; cbn [orb].
    + split; intros [K|[]]; discriminate.
    + destruct (N.eqb_spec c 9) as [->|E2].
      * split; intros [K|[]]; discriminate.
      * split; intros [K|[]]; congruence.
  - split; intros [K|[]]; discriminate.
Qed.

Lemma tail_clean : forall l, good_tail l ->
  let s := tail_text (map (fun x => (squeeze (fst x), snd x)) l) in ~ In 10%N s /\ ~ In 9%N s.
Proof.
  intros l H s. subst s. induction H as [|[b v] l (Hn & Hb & Hv1 & Hv2) H IH].
  - split; intros [].
  - unfold tail_text in *. cbn [map flat_map fst snd]. cbn [fst snd] in *.
    destruct (squeeze_clean b Hb) as [S1 S2]. destruct IH as [I1 I2]. rewrite Forall_forall in Hv2.
    split; intro K; apply in_app_or in K; (destruct K as [K|K]; [apply in_app_or in K; destruct K as [K|K]; [auto|]|auto]);
      apply (Hv2 _ K); reflexivity.
Qed.

Lemma has_ink_dec : forall s, has_ink s \/ blanks s.
Proof.
  induction s as [|c s IH]; [right; constructor|]. destruct (is_space c) eqn:E.
  - destruct IH as [(d & Hd & Hi)|H].
    + left. exists d. split; [right; exact Hd|exact Hi].
    + right. constructor; [exact E|exact H].
  - left. exists c. split; [left; reflexivity|]. apply not_blank. exact E.
Qed.

Lemma raw_clean : forall code raw, report_raw_code code = Ok raw ->
  ~ In 10%N raw /\ ~ In 9%N raw /\ ~ In 61%N raw.
Proof.
  intros code raw H. unfold report_raw_code in H. destruct code as [|c0 code0]; [discriminate|].
  remember (c0 :: code0) as code eqn:Ec. clear Ec c0 code0. injection H as <-.
  rewrite normalise_eq.
  assert (A : ~ In 10%N (norm (strip code)) /\ ~ In 9%N (norm (strip code))).
  { destruct (has_ink_dec code) as [Hi|Hb].
    - destruct (text_split code Hi) as (a & w & l & b & -> & Ha & Hb & Hw & Hl).
      rewrite strip_text by assumption. rewrite norm_word by apply Hw. rewrite norm_tail by exact Hl.
      destruct (tail_clean l Hl) as [T1 T2]. destruct Hw as [_ Hw]. rewrite Forall_forall in Hw.
      split; intro K; apply in_app_or in K; (destruct K as [K|K]; [|auto]); apply (Hw _ K); reflexivity.
    - assert (E := strip_pad code [] [] Hb (Forall_nil _) I). rewrite app_nil_r in E. cbn [app] in E.
      rewrite E. split; intros []. }
  destruct A as [A1 A2]. unfold remove_char.
  split; [|split]; intro K; apply filter_In in K; destruct K as [K1 K2]; auto. discriminate.
Qed.

(** ** C02 *)

Definition tidy_tail (l : list (str * str)) : Prop :=
  Forall (fun x => (exists c, fst x = [c] /\ blank c /\ c <> 10%N /\ c <> 9%N) /\ word (snd x)) l.

Lemma tidy_good : forall l, tidy_tail l -> good_tail l.
Proof.
  intros l H. eapply Forall_impl; [|exact H]. intros [b v] [(c & E & Hc & _) Hv]. cbn [fst snd] in *.
  subst b. split; [discriminate|]. split; [constructor; [exact Hc|constructor]|exact Hv].
Qed.

Lemma tidy_norm : forall w l, word w -> tidy_tail l -> norm (strip (w ++ tail_text l)) = w ++ tail_text l.
Proof.
  intros w l Hw Hl. rewrite strip_trimmed by (apply text_trimmed; auto using tidy_good).
  rewrite norm_word by apply Hw. rewrite norm_tail by (apply tidy_good; exact Hl). f_equal. f_equal.
  clear - Hl. induction Hl as [|[b v] l [(c & E & Hc & N1 & N2) Hv] H IH]; [reflexivity|].
  cbn [map fst snd] in *. subst b. rewrite IH. cbn [squeeze].
  destruct (N.eqb_spec c 10); [congruence|]. destruct (N.eqb_spec c 9); [congruence|]. reflexivity.
Qed.

(** Removing the signs from words that do not begin with one. *)
Definition no_eq_head (w : str) : Prop := match w with c :: _ => c <> 61%N | [] => True end.

Lemma remove_word : forall w, word w -> no_eq_head w -> word (remove_char 61 w).
Proof.
  intros w [Hn Hw] Hh. destruct w as [|c w]; [congruence|]. cbn in Hh. split.
  - unfold remove_char. cbn [filter]. destruct (N.eqb_spec c 61); [congruence|]. discriminate.
  - unfold remove_char. apply Forall_forall. intros d Hd. apply filter_In in Hd.
    rewrite Forall_forall in Hw. apply Hw. apply Hd.
Qed.

Lemma remove_tail : forall l, tidy_tail l -> Forall (fun x => no_eq_head (snd x)) l ->
  exists l', remove_char 61 (tail_text l) = tail_text l' /\ tidy_tail l'.
Proof.
  intros l H Hh. induction H as [|[b v] l [(c & E & Hc & N1 & N2) Hv] H IH].
  - exists []. split; [reflexivity|constructor].
  - inversion Hh as [|x0 l0 Hv0 Hl0]; subst. destruct (IH Hl0) as (l' & E' & Hl').
    cbn [fst snd] in *. subst b. exists (([c], remove_char 61 v) :: l'). split.
    + unfold tail_text in *. cbn [flat_map fst snd]. rewrite !remove_app, E'. f_equal. f_equal.
      unfold remove_char. cbn [filter]. destruct (N.eqb_spec c 61) as [->|]; [discriminate|reflexivity].
    + constructor; [|exact Hl']. cbn [fst snd]. split; [exists c; auto|]. apply remove_word; assumption.
Qed.

Lemma glued_heads : forall p l, (forall a b, p ++ tail_text l = a ++ 61%N :: b ->
    exists a' c, a = a' ++ [c] /\ ~ blank c) -> good_tail l ->
  Forall (fun x => no_eq_head (snd x)) l.
Proof.
  intros p l. revert p. induction l as [|[b v] l IH]; intros p Hg Hl; [constructor|].
  inversion Hl as [|x0 l0 (Hn & Hb & Hv1 & Hv2) Hl0]; subst. cbn [fst snd] in *.
  assert (F : tail_text ((b, v) :: l) = b ++ v ++ tail_text l).
  { unfold tail_text. cbn [flat_map fst snd]. apply app_assoc_reverse. }
  constructor.
  - cbn [snd]. destruct v as [|c v]; [exact I|]. cbn. intros ->.
    destruct (Hg (p ++ b) (v ++ tail_text l)) as (a' & c & E & Hc).
    { rewrite F. rewrite <- app_assoc. reflexivity. }
    apply Hc. unfold blanks in Hb. rewrite Forall_forall in Hb. apply Hb.
    rewrite (app_removelast_last 0%N Hn) in E. rewrite app_assoc in E. apply app_inj_tail in E. destruct E as [_ <-].
    rewrite (app_removelast_last 0%N Hn) at 2. apply in_or_app. right. left. reflexivity.
  - apply (IH (p ++ b ++ v)); [|exact Hl0]. intros a c E. apply (Hg a c). rewrite F, <- E, <- !app_assoc. reflexivity.
Qed.

Lemma raw_idempotent : forall code, has_ink code -> glued code ->
  exists raw, report_raw_code code = Ok raw /\ report_raw_code raw = Ok raw.
Proof.
  intros code Hi Hg. destruct (text_split code Hi) as (a & w & l & b & Ecode & Ha & Hb & Hw & Hl).
  assert (Hwh : no_eq_head w).
  { destruct w as [|c w]; [exact I|]. cbn. intros ->.
    destruct (Hg a ((w ++ tail_text l) ++ b)) as (a' & c & E & Hc); [exact Ecode|].
    apply Hc. subst a. apply Forall_app in Ha. destruct Ha as [_ Ha]. inversion Ha; assumption. }
  assert (Hlh : Forall (fun x => no_eq_head (snd x)) l).
  { apply (glued_heads (a ++ w)); [|exact Hl]. intros x y E. apply (Hg x (y ++ b)).
    rewrite Ecode. rewrite app_assoc, app_assoc, E, <- app_assoc. reflexivity. }
  set (l1 := map (fun x => (squeeze (fst x), snd x)) l).
  assert (H1 : tidy_tail l1).
  { unfold l1. clear - Hl. induction Hl as [|[s v] l (Hn & Hb & Hv) Hl IH]; [constructor|]. cbn [map].
    constructor; [|exact IH]. cbn [fst snd] in *. split; [|exact Hv].
    destruct s as [|c [|d s]]; [congruence| |].
    - cbn [squeeze]. inversion Hb as [|c0 l0 Hc _]; subst.
      destruct (N.eqb_spec c 10) as [->|N1]; cbn [orb].
      + exists 32%N. repeat split; try discriminate.
      + destruct (N.eqb_spec c 9) as [->|N2].
        * exists 32%N. repeat split; try discriminate.
        * exists c. auto.
    - exists 32%N. repeat split; try discriminate. }
  assert (Hlh1 : Forall (fun x => no_eq_head (snd x)) l1).
  { unfold l1. apply Forall_map. exact Hlh. }
  destruct (remove_tail l1 H1 Hlh1) as (l2 & E2 & H2).
  assert (Hw2 : word (remove_char 61 w)) by (apply remove_word; assumption).
  assert (En : normalise code = remove_char 61 w ++ tail_text l2).
  { rewrite normalise_eq, Ecode, strip_text by assumption. rewrite norm_word by apply Hw.
    rewrite norm_tail by exact Hl. fold l1. rewrite remove_app, E2. reflexivity. }
  exists (remove_char 61 w ++ tail_text l2). split.
  - unfold report_raw_code. destruct code as [|c code]; [destruct Hi as (c & [] & _)|]. rewrite En. reflexivity.
  - assert (Er : normalise (remove_char 61 w ++ tail_text l2) = remove_char 61 w ++ tail_text l2).
    { rewrite normalise_eq, tidy_norm by assumption. apply remove_none.
      rewrite <- E2, <- remove_app. unfold remove_char. intro K. apply filter_In in K. destruct K as [_ K]. discriminate. }
    unfold report_raw_code. rewrite Er. destruct (remove_char 61 w ++ tail_text l2) eqn:E; [|reflexivity].
    apply app_eq_nil in E. destruct E as [E _]. destruct Hw2 as [Hn _]. congruence.
Qed.
