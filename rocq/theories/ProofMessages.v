(** * What the text of a ParserError says (C68): proof *)
From Coq Require Import String Ascii.
From Coq Require Import List NArith ZArith Bool Lia.
From Verif Require Import PyBase PyRegex AeroRegex PyTime Base MetarGroups Trend Metar Taf Messages SpecMessages SpecKept StrFacts
  ProofFailures ProofKeptReport ProofKeptTaf ProofKeptMetar PropsFailures PropsKept.
Import ListNotations.
Local Open Scope string_scope.
Local Open Scope nat_scope.
Local Open Scope list_scope.

Lemma seen_word : forall v w s, ~ In 32%N v -> seen w (v ++ s) = seen (w ++ v) s.
Proof.
  intros v. induction v as [|c v IH]; intros w s H; cbn [app seen]; [rewrite app_nil_r; reflexivity|].
  assert (C : N.eqb c 32 = false) by (apply N.eqb_neq; intros ->; apply H; left; reflexivity). rewrite C, IH, <- app_assoc; [reflexivity|].
  intros I. apply H. right. exact I.
Qed.

Lemma enumerated_join : forall l, l <> [] -> Forall (fun w => ~ In 32%N w) l -> enumerated (join (py ", ") l) = Some l.
Proof.
  unfold enumerated. intros l N H. induction H as [|w l Hw H IH]; [contradiction N; reflexivity|]. destruct l as [|v l].
  - cbn [join]. rewrite <- (app_nil_r w) at 1. rewrite seen_word by exact Hw. reflexivity.
  - rewrite join_cons by discriminate. rewrite seen_word by exact Hw. cbn [app].
    change (py ", ") with [44%N; 32%N] at 1. cbn [app seen N.eqb Pos.eqb].
    specialize (IH ltac:(discriminate)). destruct (seen [] (join (py ", ") (v :: l))) as [|a r] eqn:S; [discriminate IH|].
    change (items ((w ++ [44%N]) :: a :: r)) with
      (match rev (w ++ [44%N]), items (a :: r) with
       | c :: q, Some k => if N.eqb c 44 then Some (rev q :: k) else None | _, _ => None end).
    rewrite IH, rev_app_distr. cbn [rev app N.eqb Pos.eqb]. rewrite rev_involutive. reflexivity.
Qed.

Lemma weave_left : forall A (l r w : list A) P, weave l r w -> Forall P w -> Forall P l.
Proof. intros A l r w P W. induction W as [|x l r w W IH|x l r w W IH]; intros F; [constructor| |]; inversion F; subst; auto. Qed.

Lemma accounted_left : forall t l c, accounted t l c -> Forall (fun w => ~ In 32%N w) l.
Proof. intros t l c (p & ws & tk & _ & _ & F & W & _). exact (weave_left _ _ _ _ _ W F). Qed.

Lemma flat_left : forall A (f : A -> list str) l, Forall (fun p => Forall (fun w => ~ In 32%N w) (f p)) l -> Forall (fun w => ~ In 32%N w) (flat_map f l).
Proof. intros A f l F. induction F as [|p l H F IH]; cbn [flat_map]; [constructor|]. apply Forall_app. auto. Qed.

Lemma metar_names : forall e code y mo, metar_parse e code y mo true = Raise ParserError ->
  exists x text, metar_parse e code y mo false = Ok x /\ metar_error e code y mo = Some text /\ names text (me_unparsed x) (me_raw x).
Proof.
  intros e code y mo E. apply C40_metar in E. destruct E as (x & E & N). exists x, (parser_error_text (me_unparsed x) (me_raw x)).
  split; [exact E|]. split.
  - unfold metar_error. rewrite E. destruct (me_unparsed x); [contradiction N; reflexivity|reflexivity].
  - exists (join (py ", ") (me_unparsed x)). split; [reflexivity|]. apply enumerated_join; [exact N|].
    destruct (C60_metar _ _ _ _ _ _ E) as (left & -> & (ty & fi & _ & _ & A) & _ & T). apply Forall_app. split; [exact (accounted_left _ _ _ A)|].
    apply flat_left. eapply Forall_impl; [|exact T]. intros p (tx & i & _ & _ & _ & P). exact (accounted_left _ _ _ P).
Qed.

Lemma taf_names : forall e code y mo, taf_parse e code y mo true = Raise ParserError ->
  exists x text, taf_parse e code y mo false = Ok x /\ taf_error e code y mo = Some text /\ names text (ta_unparsed x) (ta_raw x).
Proof.
  intros e code y mo E. apply C40_taf in E. destruct E as (x & E & N). exists x, (parser_error_text (ta_unparsed x) (ta_raw x)).
  split; [exact E|]. split.
  - unfold taf_error. rewrite E. destruct (ta_unparsed x); [contradiction N; reflexivity|reflexivity].
  - exists (join (py ", ") (ta_unparsed x)). split; [reflexivity|]. apply enumerated_join; [exact N|].
    destruct (C60_taf _ _ _ _ _ _ E) as (left & -> & (ty & fi & _ & _ & A) & _ & T). apply Forall_app. split; [exact (accounted_left _ _ _ A)|].
    apply flat_left. eapply Forall_impl; [|exact T]. intros p (tx & i & _ & _ & _ & P). exact (accounted_left _ _ _ P).
Qed.

Lemma metar_error_only : forall e code y mo, metar_parse e code y mo true <> Raise ParserError -> metar_error e code y mo = None.
Proof.
  intros e code y mo H. unfold metar_error. destruct (metar_parse e code y mo false) as [x|] eqn:E; [|reflexivity].
  destruct (me_unparsed x) as [|g l] eqn:U; [reflexivity|]. exfalso. apply H. apply C40_metar. exists x. split; [exact E|]. rewrite U. discriminate.
Qed.
Lemma taf_error_only : forall e code y mo, taf_parse e code y mo true <> Raise ParserError -> taf_error e code y mo = None.
Proof.
  intros e code y mo H. unfold taf_error. destruct (taf_parse e code y mo false) as [x|] eqn:E; [|reflexivity].
  destruct (ta_unparsed x) as [|g l] eqn:U; [reflexivity|]. exfalso. apply H. apply C40_taf. exists x. split; [exact E|]. rewrite U. discriminate.
Qed.
