(** * Reports that are read *)
From Coq Require Import String Ascii.
From Coq Require Import List NArith ZArith Bool Lia.
From Verif Require Import PyBase PyRegex PyTime Utils Base Taf SpecNum SpecTime SpecText SpecTaf SpecMetar SpecFailures SpecTafFailures
  OutTime OutReport OutTaf.
Import ListNotations.
Local Open Scope string_scope.
Local Open Scope nat_scope.
Local Open Scope list_scope.

Lemma taf_fine : forall e code year month tr, clock_wf e -> month_wf e year month ->
  (forall ex, ~ taf_fails (now_year e) (now_month e) (opt_default (now_year e) year) (opt_default (now_month e) month) tr code ex) ->
  exists x, taf_parse e code year month tr = Ok x.
Proof.
  intros e code year month tr C W H. destruct (taf_parse e code year month tr) as [x|ex] eqn:E; [exists x; reflexivity|].
  destruct (H ex (taf_outcome _ _ _ _ _ _ C W E)).
Qed.

Lemma few_changes : forall e code year month tr, clock_wf e -> month_wf e year month ->
  ~ In 124%N (unsigned code) -> change_count (unsigned code) <= 8 ->
  places [py "TX"] (unsigned code) <= 2 -> places [py "TN"] (unsigned code) <= 2 ->
  taf_parse e code year month tr <> Raise RangeError.
Proof.
  intros e code year month tr C W B H X T E. pose proof (taf_outcome _ _ _ _ _ _ C W E) as F. cbn [taf_fails] in F.
  destruct F as [F|[F|[F|F]]]; [contradiction|lia|lia|lia].
Qed.

(** A report none of the causes is in. *)
Definition calm_taf : str := py "TAF SEQM 9999 FM161200 8000 TEMPO 4000".

Lemma no_char : forall s x c, contains s x -> In c x -> In c s.
Proof. intros s x c (a & b & ->) I. apply in_or_app. right. apply in_or_app. left. exact I. Qed.

Lemma absent : forall c s, existsb (N.eqb c) s = false -> ~ In c s.
Proof.
  intros c s H I. assert (K : existsb (N.eqb c) s = true) by (apply existsb_exists; exists c; split; [exact I|apply N.eqb_refl]).
  congruence.
Qed.
Fixpoint found (x s : str) : bool := starts_with x s || match s with [] => false | _ :: s' => found x s' end.
Lemma contains_found : forall s x, contains s x -> found x s = true.
Proof.
  intros s x (a & b & ->). induction a as [|c a IH].
  - cbn [app]. assert (E : starts_with x (x ++ b) = true) by (apply starts_split; exists b; reflexivity).
    destruct (x ++ b); cbn [found]; rewrite E; reflexivity.
  - cbn [app found]. rewrite IH. apply orb_true_r.
Qed.
Lemma contains_end : forall s x y, contains s (x ++ y) -> contains s y.
Proof. intros s x y (a & b & ->). exists (a ++ x), b. rewrite <- !app_assoc. reflexivity. Qed.

Definition plain_blank (c : N) : bool := negb (is_space c) || N.eqb c 32.
Definition sure_word (w : str) : bool :=
  (negb (starts_with (py "FM") w) || str_eqb w (py "FM161200")) && negb (starts_with (py "PROB") w)
  && (negb (starts_with (py "TEMPO") w) || str_eqb w (py "TEMPO")).

Lemma calm_fine : forall ex, ~ taf_fails 2026 11 2026 2 false calm_taf ex.
Proof.
  assert (S : ~ In 47%N (unsigned calm_taf)) by (apply absent; vm_compute; reflexivity).
  assert (Z : ~ In 90%N (unsigned calm_taf)) by (apply absent; vm_compute; reflexivity).
  assert (B : ~ In 124%N (unsigned calm_taf)) by (apply absent; vm_compute; reflexivity).
  assert (D : forallb (fun d => negb (found d (unsigned calm_taf))) [py "EE"; py "EW"; py "WE"; py "WW"] = true) by (vm_compute; reflexivity).
  assert (O : forallb plain_blank (unsigned calm_taf) = true) by (vm_compute; reflexivity).
  assert (W : forallb sure_word (words_of (unsigned calm_taf)) = true) by (vm_compute; reflexivity).
  assert (N1 : change_count (unsigned calm_taf) = 2) by (vm_compute; reflexivity).
  assert (N2 : places [py "TX"] (unsigned calm_taf) = 0) by (vm_compute; reflexivity).
  assert (N3 : places [py "TN"] (unsigned calm_taf) = 0) by (vm_compute; reflexivity).
  assert (N4 : calm_taf <> []) by discriminate.
  generalize dependent calm_taf. intros code S Z B D O W N1 N2 N3 N4.
  rewrite forallb_forall in D, O, W.
  intros ex. destruct ex; cbn [taf_fails]; intro H; try discriminate H; try contradiction.
  - destruct H as [(x & C & v & d & -> & I & _)|(x & d & h & mi & C & (a & b & c & -> & _) & _)].
    + apply contains_end, contains_found in C. specialize (D d I). rewrite C in D. discriminate D.
    + apply Z, (no_char _ _ _ C). do 3 (apply in_or_app; right). left. reflexivity.
  - destruct H as (x & C & a & b & n & m & -> & _). apply S, (no_char _ _ _ C). apply in_or_app. right. left. reflexivity.
  - destruct H as [H|[H|H]]; [contradiction| |].
    + apply Exists_exists in H. destruct H as (c & I & K1 & K2 & _). specialize (O c I). unfold plain_blank in O.
      rewrite K1 in O. cbn [negb orb] in O. apply N.eqb_eq in O. contradiction.
    + apply Exists_exists in H. destruct H as (w & I & K). specialize (W w I). unfold sure_word in W.
      rewrite !andb_true_iff, !orb_true_iff in W. destruct W as [[W1 W2] W3].
      destruct K as [[K1 K2]|[[K1 K2]|[K1 K2]]].
      * rewrite K1 in W1. destruct W1 as [W1|W1]; [discriminate W1|]. apply str_eqb_eq in W1. apply K2. rewrite W1.
        exists 16%N, 12%N, 0%N, []. split; [reflexivity|lia].
      * rewrite K1 in W2. discriminate W2.
      * rewrite K1 in W3. destruct W3 as [W3|W3]; [discriminate W3|]. apply str_eqb_eq in W3. contradiction.
  - destruct H as (x & C & a & z & n & -> & _). apply S, (no_char _ _ _ C). apply in_or_app. right. left. reflexivity.
  - destruct H as [H|[H|[H|H]]]; [contradiction|lia|lia|lia].
  - destruct H as [[H _]|[H _]]; discriminate H.
Qed.
