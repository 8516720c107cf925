(** * Adding a change to a forecast: proofs for the exact form of C35 *)
From Coq Require Import String Ascii.
From Coq Require Import List NArith ZArith Bool Lia.
From Verif Require Import PyBase PyRegex AeroRegex PyTime Utils Base Taf SpecTime SpecTaf SpecChain TimeFacts ProofTaf.
Import ListNotations.
Local Open Scope list_scope.

Lemma passing_known : forall c, passing c -> ind_code c <> None.
Proof. intros c [(r & E)|(r & E)]; rewrite E; discriminate. Qed.

(** The walk back, from the end of the list. *)
Definition stuck (rl : list change_fc) : Prop := exists r1 c r2, rl = r1 ++ c :: r2 /\ Forall passing r1 /\ ind_code c = None.

Lemma stuck_rev : forall l, stuck (rev l) <-> unknown_before l.
Proof.
  intros l. split.
  - intros (r1 & c & r2 & E & P & N). exists (rev r2), c, (rev r1). split; [|split; [apply Forall_rev; exact P|exact N]].
    rewrite <- (rev_involutive l), E, rev_app_distr. cbn [rev]. rewrite <- app_assoc. reflexivity.
  - intros (l1 & c & l2 & -> & P & N). exists (rev l2), c, (rev l1). split; [|split; [apply Forall_rev; exact P|exact N]].
    rewrite rev_app_distr. cbn [rev]. rewrite <- app_assoc. reflexivity.
Qed.

Lemma stuck_pass : forall c rl, passing c -> stuck (c :: rl) <-> stuck rl.
Proof.
  intros c rl P. split.
  - intros (r1 & d & r2 & E & Q & N). destruct r1 as [|x r1]; cbn [app] in E; injection E as E1 E2.
    + exfalso. subst d. exact (passing_known c P N).
    + subst x. exists r1, d, r2. split; [exact E2|]. split; [exact (Forall_inv_tail Q)|exact N].
  - intros (r1 & d & r2 & -> & Q & N). exists (c :: r1), d, r2. split; [reflexivity|]. split; [constructor; assumption|exact N].
Qed.

Lemma stuck_stop : forall c rl, ind_code c <> None -> ~ passing c -> ~ stuck (c :: rl).
Proof.
  intros c rl K NP (r1 & d & r2 & E & Q & N). destruct r1 as [|x r1]; cbn [app] in E; injection E as E1 E2.
  - subst d. exact (K N).
  - subst x. exact (NP (Forall_inv Q)).
Qed.

Lemma pop_changes_exact : forall stop new rl temp u,
  stop = va_from (tc_valid (cf_ind new)) -> ends_others new -> Forall passing temp ->
  real_time u -> real_time (t_dt stop) -> minutes_later 60 u (t_dt stop) ->
  (stuck rl /\ pop_changes stop rl temp = Raise AttributeError)
  \/ (~ stuck rl /\ exists rl' temp', pop_changes stop rl temp = Ok (rl', temp')
      /\ (length (rev rl' ++ temp') = length (rev rl ++ temp))%nat
      /\ chained new (rev rl ++ temp) (rev rl' ++ temp')).
Proof.
  intros stop new rl. induction rl as [|c rl IH]; intros temp u Eu Hn Ht Ru Rs Hu.
  - right. split; [intros (r1 & c & r2 & E & _); destruct r1; discriminate E|].
    exists [], temp. split; [reflexivity|]. split; [reflexivity|]. apply AllPassing. exact Ht.
  - cbn [pop_changes]. fold (ind_code c). destruct (ind_code c) as [code|] eqn:Ec.
    2:{ left. split; [|reflexivity]. exists [], c, rl. split; [reflexivity|]. split; [constructor|exact Ec]. }
    destruct (starts_with (py "PROB") code || starts_with (py "TEMPO") code) eqn:Es.
    + assert (P : passing c).
      { unfold passing. rewrite Ec. apply orb_true_iff in Es. destruct Es as [Es|Es]; apply begins_iff in Es; auto. }
      rewrite (stuck_pass c rl P).
      destruct (IH (c :: temp) u Eu Hn) as [L|(NS & rl' & temp' & E & L & C)]; auto.
      right. split; [exact NS|]. exists rl', temp'. split; [exact E|]. cbn [rev]. rewrite <- app_assoc. cbn [app]. split; assumption.
    + assert (NP : ~ passing c).
      { unfold passing. rewrite Ec, <- !begins_iff. apply orb_false_iff in Es. destruct Es as [-> ->]. intros [H|H]; discriminate. }
      right. split; [apply stuck_stop; [rewrite Ec; discriminate|exact NP]|].
      destruct (pop_changes_ok stop new [c] temp u Eu Hn) as (rl' & temp' & E & L & C); auto.
      { constructor; [rewrite Ec; discriminate|constructor]. }
      cbn [pop_changes] in E. fold (ind_code c) in E. rewrite Ec, Es in E.
      cbn [rev app]. rewrite <- app_assoc. cbn [app].
      destruct (starts_with (py "FM") code) eqn:Ef.
      * destruct (reset_until_period stop (cf_ind c)) as [i|] eqn:R; cbn [bind] in E |- *; [|discriminate E].
        eexists _, _. split; [reflexivity|]. split; [rewrite !app_length; reflexivity|].
        unfold reset_until_period in R.
        assert (A : dt_add_hours (t_dt stop) (-1) = Ok u).
        { assert (Y : (dt_year (t_dt stop) <= 9999)%Z).
          { destruct Rs as [Rs _]. apply real_date_range in Rs. lia. }
          destruct (minutes_later_count _ _ _ Hu Ru Y) as [M _].
          unfold dt_add_hours. apply dt_add_minutes_ok; [exact Ru|]. rewrite M. lia. }
        rewrite A in R. cbn [bind] in R. fold (ind_code c) in R. rewrite Ec, Ef in R. injection R as <-.
        apply LastFrom; auto.
        -- unfold is_from. rewrite Ec. apply begins_iff. exact Ef.
        -- unfold ends_before, ind_code, cf_set_ind. cbn. unfold ind_code in Ec. rewrite Ec, <- Eu.
           repeat split; try reflexivity. exact Hu.
      * eexists _, _. split; [reflexivity|]. split; [reflexivity|].
        apply LastOther; auto. unfold is_from. rewrite Ec, <- begins_iff, Ef. discriminate.
Qed.

Lemma changes_add_exact : forall new g u, length (gl_list g) <= gl_max g ->
  real_time u -> real_time (t_dt (va_from (tc_valid (cf_ind new)))) ->
  minutes_later 60 u (t_dt (va_from (tc_valid (cf_ind new)))) ->
  added new g (changes_add new g).
Proof.
  intros new [n mx l] u Hl Ru Rs Hu. cbn [gl_list gl_max gl_n] in *. unfold changes_add. cbn [gl_list gl_max gl_n].
  set (st := fun p => match cf_code new with Some c => starts_with p c | None => false end).
  assert (ST : forall w, st (py w) = true <-> begins w (cf_code new)).
  { intro w. unfold st. destruct (cf_code new) as [c|]; [apply begins_iff|].
    split; [discriminate|]. intros [r H]. discriminate. }
  change (match cf_code new with Some c => starts_with (py "FM") c | None => false end) with (st (py "FM")).
  change (match cf_code new with Some c => starts_with (py "BECMG") c | None => false end) with (st (py "BECMG")).
  clearbody st.
  assert (End : forall l', length l' = length l -> ~ (ends_others new /\ unknown_before l) -> chained new l l' ->
    added new (mk_gl n mx l) (gl_add new (mk_gl n mx l'))).
  { intros l' L NB C. unfold gl_add. cbn [gl_list gl_max gl_n]. rewrite L. destruct (Nat.leb_spec mx (length l)) as [F|F].
    - apply AddFull; cbn [gl_list gl_max]; [exact NB|lia].
    - apply (AddDone new (mk_gl n mx l) l' NB F C). }
  destruct (st (py "FM") || st (py "BECMG")) eqn:E.
  - assert (B : ends_others new).
    { apply orb_true_iff in E. destruct E as [E|E]; apply ST in E; [left|right]; exact E. }
    destruct l as [|c l0].
    + cbn [length Nat.ltb Nat.leb andb]. apply (End []); [reflexivity| |apply AllPassing; constructor].
      intros [_ (l1 & c & l2 & K & _)]. destruct l1; discriminate K.
    + change (Nat.ltb 0 (length (c :: l0))) with true. cbn [andb]. generalize dependent (c :: l0). clear c l0. intros l Hl End.
      destruct (pop_changes_exact (va_from (tc_valid (cf_ind new))) new (rev l) [] u) as [(S & Ep)|(NS & rl & temp & Ep & L & C)]; auto.
      * rewrite Ep. cbn [bind]. apply AddStuck; [exact B|]. apply stuck_rev. exact S.
      * rewrite Ep. cbn [bind]. rewrite app_nil_r, rev_involutive in L, C. 
        rewrite gl_add_all_ok by (cbn [gl_list gl_max]; rewrite app_length in L; lia). cbn [bind gl_list gl_max gl_n].
        apply End; [exact L| |exact C]. intros [_ U]. apply NS, stuck_rev, U.
  - rewrite andb_false_r. apply orb_false_iff in E. destruct E as [E1 E2].
    assert (NE : ~ begins "FM" (cf_code new) /\ ~ begins "BECMG" (cf_code new)) by (rewrite <- !ST; split; congruence).
    apply End; [reflexivity| |apply NoChain; apply NE]. intros [[K|K] _]; [exact (proj1 NE K)|exact (proj2 NE K)].
Qed.
