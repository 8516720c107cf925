(** * PROB TEMPO pairs, windshear groups, mixed visibilities *)
From Coq Require Import String Ascii.
From Coq Require Import List NArith ZArith Bool Lia.
From Verif Require Import PyBase PyRegex AeroRegex Utils StrFacts SpecText ProofText TextFacts
  RegexPaths MergeFacts SymRegex ProofGroups SymFirst.
Import ListNotations.
Open Scope list_scope.

Lemma ends_with_app : forall p w, ends_with p (w ++ p) = true.
Proof. intros p w. unfold ends_with. rewrite rev_app_distr. apply starts_with_self. Qed.

(** ** PROB TEMPO *)

Definition lt_prob (w : str) : bool := ends_with (py "PROB30") w || ends_with (py "PROB40") w.
Definition rt_prob (v : str) : bool := starts_with (py "TEMPO") v.

Lemma prob_link : forall x, den r_SAN_PROB x -> exists l b m1 m2, x = l ++ b :: m1 ++ m2 /\ l <> [] /\ ink l
  /\ is_space b = true /\ ink m1 /\ (forall w, lt_prob (w ++ l) = true) /\ (forall v, rt_prob (m1 ++ v) = true).
Proof.
  intros x D. apply den_paths in D; [|reflexivity]. destruct D as (p & Hp & A).
  cbv in Hp. destruct Hp as [<-|[]]. read A.
  assert (E : c = 51%N \/ c = 52%N).
  { unfold in_cls in Hc. cbn [existsb in_citem] in Hc. rewrite orb_false_r in Hc. apply orb_true_iff in Hc.
    destruct Hc as [Hc|Hc]; apply andb_true_iff in Hc; destruct Hc as [H1 H2]; apply N.leb_le in H1, H2; lia. }
  rewrite in_space in Hc0.
  exists [80; 82; 79; 66; c; 48]%N, c0, (py "TEMPO"), [].
  split; [reflexivity|]. split; [discriminate|].
  split; [destruct E as [-> | ->]; repeat constructor|]. split; [exact Hc0|]. split; [repeat constructor|].
  split; [|intro v; apply starts_with_self].
  intro w. unfold lt_prob. destruct E as [-> | ->].
  - change [80; 82; 79; 66; 51; 48]%N with (py "PROB30"). rewrite ends_with_app. reflexivity.
  - change [80; 82; 79; 66; 52; 48]%N with (py "PROB40"). rewrite ends_with_app. apply orb_true_r.
Qed.

Lemma prob_match : forall n t, exists m,
  re_match r_SAN_PROB ((prob_code n ++ [32%N] ++ py "TEMPO") ++ t) = Some m
  /\ m_end m = length (prob_code n ++ [32%N] ++ py "TEMPO")
  /\ py "PROB" ++ fmt_opt (group m "percent") ++ py "_TEMPO" = prob_code n ++ py "_TEMPO".
Proof.
  intros n t.
  set (tx := [("", py "PROB"); ("percent", if n then py "40" else py "30"); ("", py " TEMPO")]%string).
  set (sp := [("", map (fun c => [c]) (py "PROB")); ("percent", map (fun c => [c]) (if n then py "40" else py "30"));
              ("", map (fun c => [c]) (py " TEMPO"))]%string).
  destruct (captures_more r_SAN_PROB ["percent"%string] 12 tx sp t) as (m & E1 & E2 & E3 & E4).
  - destruct n; repeat constructor.
  - destruct n; vm_compute; reflexivity.
  - exists m. split; [|split].
    + replace ((prob_code n ++ [32%N] ++ py "TEMPO") ++ t) with (tcode tx ++ t) by (destruct n; reflexivity). exact E1.
    + rewrite E3. destruct n; reflexivity.
    + rewrite E4 by (left; reflexivity). destruct n; reflexivity.
Qed.

Lemma prob_step : forall A n B, Forall ink A -> apart lt_prob rt_prob A (prob_code n) ->
  exists m, re_search r_SAN_PROB (sentence (A ++ prob_code n :: py "TEMPO" :: B)) = Some m
  /\ re_sub r_SAN_PROB (py "PROB" ++ fmt_opt (group m "percent") ++ py "_TEMPO")
       (sentence (A ++ prob_code n :: py "TEMPO" :: B)) (Some 1)
     = sentence (A ++ (prob_code n ++ py "_TEMPO") :: B).
Proof.
  intros A n B HA Ha. rewrite !sentence_pre.
  set (t := match B with [] => [] | _ => 32%N :: sentence B end).
  assert (E1 : sentence (prob_code n :: py "TEMPO" :: B) = (prob_code n ++ [32%N] ++ py "TEMPO") ++ t).
  { unfold t. destruct B; unfold sentence; cbn [join]; rewrite <- ?app_assoc; [rewrite app_nil_r|]; reflexivity. }
  assert (E2 : sentence ((prob_code n ++ py "_TEMPO") :: B) = (prob_code n ++ py "_TEMPO") ++ t).
  { unfold t. destruct B; unfold sentence; cbn [join]; [rewrite app_nil_r|]; reflexivity. }
  destruct (prob_match n t) as (m & Em & Ee & Eg).
  assert (Q : quiet r_SAN_PROB (pre A) ((prob_code n ++ [32%N] ++ py "TEMPO") ++ t)).
  { rewrite <- app_assoc. apply (quiet_pre _ lt_prob rt_prob prob_link); auto.
    - destruct n; repeat constructor.
    - right. eexists. reflexivity. }
  rewrite E1.
  destruct (step_at r_SAN_PROB (py "PROB" ++ fmt_opt (group m "percent") ++ py "_TEMPO") (pre A)
              (prob_code n ++ [32%N] ++ py "TEMPO") t m eq_refl eq_refl Q) as (S1 & m' & S2 & S3); auto.
  { destruct n; discriminate. }
  exists m'. split; [exact S2|]. rewrite (S3 "percent"%string), S1, Eg. f_equal. symmetry. exact E2.
Qed.

Definition pairs (l : list ctok) : nat := length (filter is_pair l).

Lemma first_pair : forall l, pairs l = 0 \/ exists A n B, l = map Plain A ++ ProbTempo n :: B /\ pairs l = S (pairs B).
Proof.
  induction l as [|[w|n] l IH].
  - left. reflexivity.
  - destruct IH as [E|(A & n & B & -> & E)]; [left; exact E|]. right. exists (w :: A), n, B. split; [reflexivity|exact E].
  - right. exists [], n, l. split; reflexivity.
Qed.

Lemma plain_words : forall A, flat_map ct_words (map Plain A) = A.
Proof. induction A as [|w A IH]; [reflexivity|]. cbn [map flat_map ct_words app]. rewrite IH. reflexivity. Qed.

Lemma plain_joined : forall A, map ct_joined (map Plain A) = A.
Proof. induction A as [|w A IH]; [reflexivity|]. cbn [map ct_joined]. rewrite IH. reflexivity. Qed.

Lemma all_plain : forall l, pairs l = 0 -> exists A, l = map Plain A.
Proof.
  induction l as [|[w|n] l IH]; intro E.
  - exists []. reflexivity.
  - destruct (IH E) as (A & ->). exists (w :: A). reflexivity.
  - discriminate.
Qed.

Lemma stray_tail : forall t l, no_stray_pair (t :: l) -> no_stray_pair l.
Proof.
  intros t l [H1 H2]. split; [inversion H1; assumption|]. intros A u v B E. apply (H2 (t :: A) u v B). rewrite E. reflexivity.
Qed.

Lemma stray_apart : forall A n B, no_stray_pair (map Plain A ++ ProbTempo n :: B) ->
  Forall ink A /\ apart lt_prob rt_prob A (prob_code n).
Proof.
  induction A as [|w A IH]; intros n B H; [split; constructor|].
  destruct (IH n B (stray_tail _ _ H)) as [I1 I2]. destruct H as [H1 H2]. split.
  - constructor; [|exact I1]. inversion H1; subst. apply word_ink. assumption.
  - split; [|exact I2]. destruct A as [|v A].
    + cbn [hd]. destruct n; apply andb_false_r.
    + cbn [hd]. apply (H2 [] w v (map Plain A ++ ProbTempo n :: B)). reflexivity.
Qed.

(** Turning the first pair into a plain word keeps the rest in order. *)
Lemma stray_merge : forall A n B, no_stray_pair (map Plain A ++ ProbTempo n :: B) ->
  no_stray_pair (map Plain A ++ Plain (prob_code n ++ py "_TEMPO") :: B).
Proof.
  intros A n B [H1 H2]. split.
  - apply Forall_app in H1. destruct H1 as [HA HB]. inversion HB; subst. apply Forall_app. split; [exact HA|].
    constructor; [|assumption]. split; [destruct n; discriminate|]. destruct n; repeat constructor; discriminate.
  - intros A0 u v B0 E. destruct (lt_prob u && rt_prob v) eqn:K; [|exact K]. exfalso.
    apply andb_true_iff in K. destruct K as [Ku Kv].
    assert (G : forall A A0, map Plain A ++ Plain (prob_code n ++ py "_TEMPO") :: B = A0 ++ Plain u :: Plain v :: B0 ->
       (exists A1, map Plain A ++ ProbTempo n :: B = A1 ++ Plain u :: Plain v :: B0)
       \/ (exists C, map Plain A ++ ProbTempo n :: B = A0 ++ Plain u :: Plain v :: C)
       \/ u = prob_code n ++ py "_TEMPO" \/ v = prob_code n ++ py "_TEMPO").
    { clear. induction A as [|a A IH]; intros A0 E.
      - destruct A0 as [|x A0].
        + injection E as E1 E2. right. right. left. auto.
        + injection E as E1 E2. left. exists (ProbTempo n :: A0). cbn. rewrite E2. reflexivity.
      - destruct A0 as [|x A0].
        + destruct A as [|a2 A].
          * injection E as E1 E2 E3. right. right. right. auto.
          * injection E as -> -> E2. right. left. exists (map Plain A ++ ProbTempo n :: B). reflexivity.
        + injection E as <- E. destruct (IH A0 E) as [(A1 & F)|[(C & F)|F]].
          * left. exists (Plain a :: A1). cbn [map app]. rewrite F. reflexivity.
          * right. left. exists C. cbn [map app]. rewrite F. reflexivity.
          * right. right. exact F. }
    destruct (G A A0 E) as [(A1 & F)|[(C & F)|[-> | ->]]].
    + assert (X := H2 _ _ _ _ F). unfold lt_prob, rt_prob in Ku, Kv. rewrite Ku, Kv in X. discriminate.
    + assert (X := H2 _ _ _ _ F). unfold lt_prob, rt_prob in Ku, Kv. rewrite Ku, Kv in X. discriminate.
    + destruct n; discriminate Ku.
    + destruct n; discriminate Kv.
Qed.

Lemma prob_quiet : forall A, no_stray_pair (map Plain A) -> re_search r_SAN_PROB (sentence A) = None.
Proof.
  intros A [H1 H2]. apply re_search_none; [reflexivity|reflexivity|].
  apply (sentence_quiet _ lt_prob rt_prob prob_link).
  - apply Forall_forall. intros w Hw. apply word_ink. rewrite Forall_forall in H1.
    apply (H1 (Plain w)). apply in_map. exact Hw.
  - intros A0 u v B E. apply (H2 (map Plain A0) u v (map Plain B)). rewrite E, map_app. reflexivity.
Qed.

Lemma sanitize_prob : forall k l, no_stray_pair l -> pairs l <= k ->
  sanitize_change_indicator_n k (sentence (flat_map ct_words l)) = sentence (map ct_joined l).
Proof.
  induction k as [|k IH]; intros l Hl Hp.
  - destruct (all_plain l) as (A & ->); [lia|]. rewrite plain_words, plain_joined. reflexivity.
  - destruct (first_pair l) as [E|(A & n & B & -> & E)].
    + destruct (all_plain l E) as (A & ->). rewrite plain_words, plain_joined.
      cbn [sanitize_change_indicator_n]. rewrite prob_quiet by exact Hl. reflexivity.
    + destruct (stray_apart A n B Hl) as [HA Ha].
      rewrite flat_map_app, map_app, plain_words, plain_joined.
      cbn [flat_map ct_words map ct_joined app]. cbn [sanitize_change_indicator_n].
      destruct (prob_step A n (flat_map ct_words B) HA Ha) as (m & -> & ->).
      assert (IH' := IH (map Plain A ++ Plain (prob_code n ++ py "_TEMPO") :: B) (stray_merge A n B Hl)).
      rewrite flat_map_app, map_app, plain_words, plain_joined in IH'.
      cbn [flat_map ct_words map ct_joined app] in IH'. apply IH'.
      unfold pairs in *. rewrite filter_app, app_length in *. cbn [filter is_pair length] in *.
      assert (Z : length (filter is_pair (map Plain A)) = 0).
      { clear. induction A as [|a A IH]; [reflexivity|]. exact IH. }
      lia.
Qed.

(** Checkable forms, for the examples. *)
Definition word_b (w : str) : bool := match w with [] => false | _ => forallb (fun c => negb (is_space c)) w end.

Lemma word_b_ok : forall w, word_b w = true -> word w.
Proof.
  intros w H. destruct w as [|c w]; [discriminate|]. split; [discriminate|]. unfold word_b in H.
  rewrite forallb_forall in H. apply Forall_forall. intros x Hx K. apply H in Hx. unfold blank in K. rewrite K in Hx. discriminate.
Qed.

Fixpoint stray_b (l : list ctok) : bool :=
  match l with
  | Plain u :: l' =>
      word_b u && negb (match l' with Plain v :: _ => lt_prob u && rt_prob v | _ => false end) && stray_b l'
  | _ :: l' => stray_b l'
  | [] => true
  end.

Lemma stray_b_ok : forall l, stray_b l = true -> no_stray_pair l.
Proof.
  induction l as [|t l IH]; intro H.
  - split; [constructor|]. intros [|? A] u v B E; discriminate.
  - assert (S : stray_b l = true /\ (match t with Plain w => word w | ProbTempo _ => True end)
       /\ forall u v B, t :: l = Plain u :: Plain v :: B -> lt_prob u && rt_prob v = false).
    { destruct t as [u|n].
      - cbn [stray_b] in H. rewrite !andb_true_iff in H. destruct H as [[H1 H2] H3]. split; [exact H3|].
        split; [apply word_b_ok; exact H1|]. intros u0 v0 B E. injection E as -> ->.
        destruct (lt_prob u0 && rt_prob v0); [discriminate|reflexivity].
      - split; [exact H|]. split; [exact I|]. intros; discriminate. }
    destruct S as (S1 & S2 & S3). destruct (IH S1) as [I1 I2]. split; [constructor; assumption|].
    intros A u v B E. destruct A as [|a A]; [apply (S3 u v B); exact E|].
    injection E as _ E. apply (I2 A u v B E).
Qed.
