(** * When the raw code is final (C02): proof *)
From Coq Require Import String Ascii.
From Coq Require Import List NArith ZArith Bool Lia.
From Verif Require Import PyBase PyRegex AeroRegex StrFacts Base SpecText ProofText SpecBare.
Import ListNotations.
Open Scope list_scope.

Definition single_tail (l : list (str * str)) : Prop :=
  Forall (fun x => (exists c, fst x = [c] /\ blank c) /\ word (snd x)) l.

(** No blank is the first character, the last one or beside another. *)
Definition lone (s : str) : Prop := head_ink s
  /\ forall X c r, s = X ++ c :: r -> blank c -> exists d r', r = d :: r' /\ ~ blank d.

Lemma strip_blank : forall s, blanks s -> strip s = [].
Proof. intros s B. rewrite <- (app_nil_r s). apply (strip_pad s [] []); [exact B|constructor|exact I]. Qed.

Lemma squeeze_len : forall s, length (squeeze s) = 1.
Proof. intros [|c [|d s]]; try reflexivity. cbn [squeeze]. destruct (N.eqb c 10 || N.eqb c 9); reflexivity. Qed.

Lemma remove_len : forall c s, length (remove_char c s) <= length s.
Proof. intros c s. unfold remove_char. induction s as [|x s IH]; [reflexivity|]. cbn [filter]. destruct (negb (N.eqb x c)); cbn [length]; lia. Qed.

Lemma tail_cons : forall b v l, tail_text ((b, v) :: l) = b ++ v ++ tail_text l.
Proof. intros b v l. unfold tail_text. cbn [flat_map fst snd]. apply app_assoc_reverse. Qed.

Lemma tail_app : forall l l', tail_text (l ++ l') = tail_text l ++ tail_text l'.
Proof. intros l l'. apply flat_map_app. Qed.

Lemma squeezed_len : forall l, good_tail l ->
  length (tail_text (map (fun x => (squeeze (fst x), snd x)) l)) <= length (tail_text l)
  /\ (length (tail_text (map (fun x => (squeeze (fst x), snd x)) l)) = length (tail_text l) -> single_tail l).
Proof.
  intros l H. induction H as [|[b v] l (Hn & Hb & Hv) H IH]; [split; [reflexivity|constructor]|]. destruct IH as [I1 I2].
  cbn [map fst snd] in *. rewrite !tail_cons, !app_length, squeeze_len.
  assert (L : 1 <= length b) by (destruct b; [congruence|cbn [length]; lia]). split; [lia|]. intros E.
  constructor; [|apply I2; lia]. cbn [fst snd]. split; [|exact Hv].
  destruct b as [|c [|d b]]; [congruence| |cbn [length] in E; lia]. exists c. split; [reflexivity|]. exact (Forall_inv Hb).
Qed.

Lemma ink_in : forall w c, Forall (fun c => ~ blank c) w -> blank c -> ~ In c w.
Proof. intros w c F B I. rewrite Forall_forall in F. exact (F c I B). Qed.

Lemma single_lone : forall l w, Forall (fun c => ~ blank c) w -> single_tail l ->
  forall X c r, w ++ tail_text l = X ++ c :: r -> blank c -> exists d r', r = d :: r' /\ ~ blank d.
Proof.
  induction l as [|[b v] l IH]; intros w W S X c r E B.
  - cbn [tail_text flat_map] in E. rewrite app_nil_r in E. exfalso. apply (ink_in w c W B). rewrite E. apply in_or_app. right. left. reflexivity.
  - destruct (Forall_inv S) as [(x & Eb & Bx) [Vn Vw]]. cbn [fst snd] in *. subst b. rewrite tail_cons in E.
    revert X E. induction w as [|d w IHw]; intros X E.
    + cbn [app] in E. destruct X as [|y X]; injection E as E1 E2.
      * subst r. destruct v as [|d v]; [congruence|]. exists d, (v ++ tail_text l). split; [reflexivity|]. exact (Forall_inv Vw).
      * exact (IH v Vw (Forall_inv_tail S) X c r E2 B).
    + cbn [app] in E. destruct X as [|y X]; injection E as E1 E2.
      * exfalso. subst d. exact (Forall_inv W B).
      * exact (IHw (Forall_inv_tail W) X E2).
Qed.

Lemma fixed_lone : forall raw, raw <> [] -> normalise raw = raw -> lone raw.
Proof.
  intros raw N E. rewrite normalise_eq in E. destruct (has_ink_dec raw) as [I|B].
  - destruct (text_split raw I) as (a & w & l & b & Er & Ha & Hb & Hw & Hl).
    assert (L : length raw <= length (w ++ tail_text (map (fun x => (squeeze (fst x), snd x)) l))).
    { rewrite <- E at 1. etransitivity; [apply remove_len|]. rewrite Er, strip_text by assumption.
      rewrite norm_word by apply Hw. rewrite norm_tail by exact Hl. reflexivity. }
    destruct (squeezed_len l Hl) as [Q1 Q2]. rewrite Er, !app_length in L.
    assert (S : single_tail l) by (apply Q2; lia).
    destruct a as [|? a]; [|cbn [length] in L; lia]. destruct b as [|? b]; [|cbn [length] in L; lia].
    cbn [app] in Er. rewrite app_nil_r in Er. split; [rewrite Er; apply word_head; exact Hw|].
    intros X c r Ex Bc. rewrite Er in Ex. exact (single_lone l w (proj2 Hw) S X c r Ex Bc).
  - exfalso. apply N. rewrite <- E. rewrite strip_blank by exact B. reflexivity.
Qed.

(** The raw code of a text given by its words. *)
Definition unsigned (x : str * str) : str * str := (squeeze (fst x), remove_char 61 (snd x)).

Lemma blank_not_sign : forall c, blank c -> c <> 61%N.
Proof. intros c B ->. discriminate B. Qed.

Lemma squeeze_blank : forall s, s <> [] -> blanks s -> exists c, squeeze s = [c] /\ blank c /\ c <> 10%N /\ c <> 9%N.
Proof.
  intros [|c [|d s]] Hn Hb; [congruence| |exists 32%N; repeat split; discriminate].
  cbn [squeeze]. pose proof (Forall_inv Hb) as Hc.
  destruct (N.eqb_spec c 10) as [->|N1]; [exists 32%N; repeat split; discriminate|].
  destruct (N.eqb_spec c 9) as [->|N2]; [exists 32%N; repeat split; discriminate|]. exists c. auto.
Qed.

Lemma unsigned_tail : forall l, good_tail l ->
  remove_char 61 (tail_text (map (fun x => (squeeze (fst x), snd x)) l)) = tail_text (map unsigned l).
Proof.
  intros l H. induction H as [|[b v] l (Hn & Hb & Hv) H IH]; [reflexivity|]. cbn [map fst snd] in *.
  unfold unsigned at 1. cbn [fst snd]. rewrite !tail_cons, !remove_app, IH. f_equal.
  destruct (squeeze_blank b Hn Hb) as (c & -> & Bc & _). unfold remove_char. cbn [filter].
  destruct (N.eqb_spec c 61) as [->|_]; [discriminate Bc|reflexivity].
Qed.

Lemma raw_words : forall a w l b, blanks a -> blanks b -> word w -> good_tail l ->
  normalise (a ++ (w ++ tail_text l) ++ b) = remove_char 61 w ++ tail_text (map unsigned l).
Proof.
  intros a w l b Ha Hb Hw Hl. rewrite normalise_eq, strip_text by assumption. rewrite norm_word by apply Hw.
  rewrite norm_tail by exact Hl. rewrite remove_app, unsigned_tail by exact Hl. reflexivity.
Qed.

Definition signs (e : str) : Prop := e <> [] /\ Forall (fun c => c = 61%N) e.

Lemma signs_word : forall e, signs e -> word e.
Proof. intros e [N F]. split; [exact N|]. eapply Forall_impl; [|exact F]. intros c -> B. discriminate B. Qed.

Lemma signs_removed : forall e, signs e -> remove_char 61 e = [].
Proof. intros e [_ F]. induction F as [|c e -> F IH]; [reflexivity|]. exact IH. Qed.

Lemma signs_dec : forall v, word v -> signs v \/ word (remove_char 61 v).
Proof.
  intros v [N W]. destruct (remove_char 61 v) as [|c u] eqn:E.
  - left. split; [exact N|]. clear N W. induction v as [|d v IH]; [constructor|]. unfold remove_char in *. cbn [filter] in E.
    destruct (N.eqb_spec d 61) as [->|Nd]; cbn [negb] in E; [|discriminate E]. constructor; [reflexivity|apply IH; exact E].
  - right. split; [discriminate|]. rewrite <- E. apply Forall_forall. intros d I. apply filter_In in I.
    rewrite Forall_forall in W. apply W. apply I.
Qed.

(** A word of signs spoils the raw code. *)
Lemma sign_word_spoils : forall a w l b, blanks a -> blanks b -> word w -> good_tail l ->
  signs w \/ Exists (fun x => signs (snd x)) l ->
  let raw := normalise (a ++ (w ++ tail_text l) ++ b) in raw = [] \/ ~ lone raw.
Proof.
  intros a w l b Ha Hb Hw Hl S raw. unfold raw. rewrite raw_words by assumption. clear raw.
  assert (T : forall l, good_tail l -> match tail_text (map unsigned l) with [] => True | c :: _ => blank c end).
  { intros m Hm. destruct m as [|[s v] m]; [exact I|]. cbn [map]. unfold unsigned at 1. cbn [fst snd]. rewrite tail_cons.
    destruct (Forall_inv Hm) as (Hn & Hs & _). cbn [fst snd] in *. destruct (squeeze_blank s Hn Hs) as (c & -> & Bc & _). exact Bc. }
  destruct S as [S|S].
  - rewrite (signs_removed w S). cbn [app]. specialize (T l Hl). destruct (tail_text (map unsigned l)) as [|c r]; [left; reflexivity|].
    right. intros [L _]. cbn in L. unfold blank in T. congruence.
  - right. intros [_ L]. apply Exists_exists in S. destruct S as ([s v] & I & S). cbn [snd] in S.
    apply in_split in I. destruct I as (l1 & l2 & ->). unfold good_tail in Hl. rewrite Forall_app in Hl. destruct Hl as [_ Hl2].
    destruct (Forall_inv Hl2) as (Hn & Hs & _). cbn [fst snd] in *. destruct (squeeze_blank s Hn Hs) as (c & Ec & Bc & _).
    specialize (L (remove_char 61 w ++ tail_text (map unsigned l1)) c (tail_text (map unsigned l2))).
    destruct L as (d & r' & E & Nd); [|exact Bc|].
    + rewrite map_app, tail_app. cbn [map]. unfold unsigned at 2. cbn [fst snd]. rewrite tail_cons, Ec, (signs_removed v S), <- app_assoc. reflexivity.
    + specialize (T l2 (Forall_inv_tail Hl2)). rewrite E in T. exact (Nd T).
Qed.

Lemma ends_in : forall (a : str), (a = [] \/ exists a' c, a = a' ++ [c] /\ blank c) -> has_ink a ->
  exists a0 w l b, a = a0 ++ (w ++ tail_text l) ++ b /\ blanks a0 /\ b <> [] /\ blanks b /\ word w /\ good_tail l.
Proof.
  intros a E I. destruct (text_split a I) as (a0 & w & l & b & Ea & Ha & Hb & Hw & Hl). exists a0, w, l, b.
  split; [exact Ea|]. split; [exact Ha|]. split; [|auto]. intros ->. rewrite app_nil_r in Ea.
  destruct E as [E|(a' & c & E & Bc)]; [subst a; destruct I as (c & [] & _)|].
  assert (Z : exists u d, w ++ tail_text l = u ++ [d] /\ ~ blank d).
  { clear - Hw Hl. revert w Hw. induction Hl as [|[s v] l (Hn & Hs & Hv) Hl IH]; intros w Hw.
    - exists (removelast w), (last w 0%N). unfold tail_text. cbn [flat_map]. rewrite app_nil_r.
      split; [apply app_removelast_last; apply Hw|]. apply not_blank. apply word_last. exact Hw.
    - rewrite tail_cons. destruct (IH v Hv) as (u & d & E & D). exists (w ++ s ++ u), d. split; [|exact D]. rewrite E, <- !app_assoc. reflexivity. }
  destruct Z as (u & d & Ez & Nd). rewrite Ez, E, app_assoc in Ea. apply app_inj_tail in Ea. destruct Ea as [_ <-]. exact (Nd Bc).
Qed.

Lemma begins_in : forall (b : str), (b = [] \/ exists c b', b = c :: b' /\ blank c) -> has_ink b ->
  exists l b0, b = tail_text l ++ b0 /\ blanks b0 /\ good_tail l.
Proof.
  intros b E I. destruct (tail_split (length b) b (le_n _)) as (l & b0 & Eb & Hl & Hb).
  - destruct E as [->|(c & b' & -> & Bc)]; [exact Logic.I|exact Bc].
  - exists l, b0. auto.
Qed.

Lemma bare_split : forall code, bare code ->
  exists a w l b, code = a ++ (w ++ tail_text l) ++ b /\ blanks a /\ blanks b /\ word w /\ good_tail l
    /\ (signs w \/ Exists (fun x => signs (snd x)) l).
Proof.
  intros code (a & e & b & Ec & En & Ee & Ea & Eb). assert (S : signs e) by (split; assumption).
  assert (Tb : exists l b0, b = tail_text l ++ b0 /\ blanks b0 /\ good_tail l).
  { destruct (has_ink_dec b) as [I|B]; [exact (begins_in b Eb I)|]. exists [], b. split; [reflexivity|]. split; [exact B|constructor]. }
  destruct Tb as (l' & b0 & -> & Hb0 & Hl'). destruct (has_ink_dec a) as [I|B].
  - destruct (ends_in a Ea I) as (a0 & w & l & s & -> & Ha0 & Hsn & Hs & Hw & Hl).
    exists a0, w, (l ++ (s, e) :: l'), b0. split; [|split; [exact Ha0|split; [exact Hb0|split; [exact Hw|split]]]].
    + rewrite Ec, tail_app, tail_cons, <- !app_assoc. reflexivity.
    + apply Forall_app. split; [exact Hl|]. constructor; [|exact Hl']. cbn [fst snd]. split; [exact Hsn|]. split; [exact Hs|apply signs_word; exact S].
    + right. apply Exists_app. right. left. exact S.
  - exists a, e, l', b0. split; [rewrite Ec, <- !app_assoc; reflexivity|]. repeat (split; [first [assumption|apply signs_word; exact S]|]). left. exact S.
Qed.

Lemma last_in : forall s : str, s <> [] -> blanks s -> exists s' c, s = s' ++ [c] /\ blank c.
Proof.
  intros s N B. exists (removelast s), (last s 0%N). split; [apply app_removelast_last; exact N|].
  unfold blanks in B. rewrite Forall_forall in B. apply B. rewrite (app_removelast_last 0%N N) at 2. apply in_or_app. right. left. reflexivity.
Qed.

Lemma tail_blank : forall l b, good_tail l -> blanks b -> tail_text l ++ b = [] \/ exists c b', tail_text l ++ b = c :: b' /\ blank c.
Proof.
  intros l b Hl Hb. destruct l as [|[s v] l].
  - destruct b as [|c b]; [left; reflexivity|]. right. exists c, b. split; [reflexivity|exact (Forall_inv Hb)].
  - right. destruct (Forall_inv Hl) as (Hn & Hs & _). cbn [fst snd] in *. destruct s as [|c s]; [congruence|].
    rewrite tail_cons. do 2 eexists. split; [reflexivity|exact (Forall_inv Hs)].
Qed.

Lemma sign_word_bare : forall a w l b, blanks a -> blanks b -> word w -> good_tail l ->
  signs w \/ Exists (fun x => signs (snd x)) l -> bare (a ++ (w ++ tail_text l) ++ b).
Proof.
  intros a w l b Ha Hb Hw Hl [S|S].
  - exists a, w, (tail_text l ++ b). split; [rewrite <- !app_assoc; reflexivity|]. split; [apply S|]. split; [apply S|].
    split; [|apply tail_blank; assumption]. destruct a as [|c a]; [left; reflexivity|]. right. apply last_in; [discriminate|exact Ha].
  - apply Exists_exists in S. destruct S as ([s v] & I & S). cbn [snd] in S. apply in_split in I. destruct I as (l1 & l2 & ->).
    unfold good_tail in Hl. rewrite Forall_app in Hl. destruct Hl as [_ Hl2]. destruct (Forall_inv Hl2) as (Hn & Hs & _). cbn [fst snd] in *.
    exists (a ++ w ++ tail_text l1 ++ s), v, (tail_text l2 ++ b).
    split; [rewrite tail_app, tail_cons, <- !app_assoc; reflexivity|]. split; [apply S|]. split; [apply S|].
    split; [|apply tail_blank; [exact (Forall_inv_tail Hl2)|exact Hb]].
    right. destruct (last_in s Hn Hs) as (s' & c & -> & Bc). exists (a ++ w ++ tail_text l1 ++ s'), c. split; [|exact Bc]. rewrite <- !app_assoc. reflexivity.
Qed.

Lemma unsigned_tidy : forall l, good_tail l -> ~ Exists (fun x => signs (snd x)) l -> tidy_tail (map unsigned l).
Proof.
  intros l H N. induction H as [|[b v] l (Hn & Hb & Hv) H IH]; [constructor|]. cbn [map fst snd] in *. constructor.
  - unfold unsigned. cbn [fst snd]. split; [apply squeeze_blank; assumption|]. destruct (signs_dec v Hv) as [S|W]; [|exact W].
    destruct N. left. exact S.
  - apply IH. intros K. apply N. right. exact K.
Qed.

Lemma raw_final : forall code,
  (exists raw, report_raw_code code = Ok raw /\ report_raw_code raw = Ok raw) <-> has_ink code /\ ~ bare code.
Proof.
  intros code. split.
  - intros (raw & E1 & E2). unfold report_raw_code in E1, E2. destruct code as [|c0 code0]; [discriminate E1|]. set (code := c0 :: code0) in *.
    injection E1 as E1. destruct raw as [|r0 raw0]; [discriminate E2|]. set (raw := r0 :: raw0) in *. injection E2 as E2.
    assert (L : lone raw) by (apply fixed_lone; [discriminate|exact E2]). split.
    + destruct (has_ink_dec code) as [I|B]; [exact I|]. exfalso. rewrite normalise_eq, strip_blank in E1 by exact B. discriminate E1.
    + intros B. destruct (bare_split code B) as (a & w & l & b & Ec & Ha & Hb & Hw & Hl & S).
      pose proof (sign_word_spoils a w l b Ha Hb Hw Hl S) as Z. cbv zeta in Z. rewrite <- Ec, E1 in Z.
      destruct Z as [Z|Z]; [discriminate Z|exact (Z L)].
  - intros [I N]. destruct (text_split code I) as (a & w & l & b & Ec & Ha & Hb & Hw & Hl).
    assert (Nw : ~ (signs w \/ Exists (fun x => signs (snd x)) l)).
    { intros S. apply N. rewrite Ec. apply sign_word_bare; assumption. }
    destruct (signs_dec w Hw) as [S|Ww]; [destruct Nw; left; exact S|].
    assert (T : tidy_tail (map unsigned l)) by (apply unsigned_tidy; [exact Hl|intros K; apply Nw; right; exact K]).
    exists (remove_char 61 w ++ tail_text (map unsigned l)). split.
    + unfold report_raw_code. destruct code as [|c code]; [destruct I as (c & [] & _)|]. rewrite Ec, raw_words by assumption. reflexivity.
    + assert (Er : normalise (remove_char 61 w ++ tail_text (map unsigned l)) = remove_char 61 w ++ tail_text (map unsigned l)).
      { rewrite normalise_eq, tidy_norm by assumption. rewrite <- unsigned_tail by exact Hl. rewrite <- remove_app. apply remove_none.
        intro K. apply filter_In in K. destruct K as [_ K]. discriminate K. }
      unfold report_raw_code. rewrite Er. destruct (remove_char 61 w ++ _) eqn:E; [|reflexivity].
      apply app_eq_nil in E. destruct E as [E _]. destruct Ww as [Hn _]. congruence.
Qed.
