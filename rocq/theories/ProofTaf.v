(** * Proofs: the changes of a forecast *)
From Coq Require Import String Ascii.
From Coq Require Import List NArith ZArith Bool Lia.
From Verif Require Import PyBase PyRegex AeroRegex PyTime Utils Base Taf SpecTime SpecTaf TimeFacts.
Import ListNotations.
Local Open Scope list_scope.

Lemma starts_with_iff : forall p s, starts_with p s = true <-> exists r, s = p ++ r.
Proof.
  induction p as [|x p IH]; intro s; cbn [starts_with].
  - split; [intros _; exists s; reflexivity|reflexivity].
  - destruct s as [|y s].
    + split; [discriminate|]. intros [r H]. discriminate.
    + rewrite andb_true_iff, N.eqb_eq, IH. split.
      * intros [-> [r ->]]. exists r. reflexivity.
      * intros [r H]. injection H as -> ->. split; [reflexivity|]. exists r. reflexivity.
Qed.

Lemma begins_iff : forall w c, starts_with (py w) c = true <-> begins w (Some c).
Proof.
  intros w c. rewrite starts_with_iff. unfold begins. split; intros [r H]; exists r; [rewrite H; reflexivity|injection H as H; exact H].
Qed.

Lemma pop_changes_ok : forall stop new rl temp u,
  stop = va_from (tc_valid (cf_ind new)) ->
  begins "FM" (cf_code new) \/ begins "BECMG" (cf_code new) ->
  Forall (fun c => ind_code c <> None) rl -> Forall passing temp ->
  real_time u -> real_time (t_dt stop) -> minutes_later 60 u (t_dt stop) ->
  exists rl' temp', pop_changes stop rl temp = Ok (rl', temp')
    /\ (length (rev rl' ++ temp') = length (rev rl ++ temp))%nat
    /\ chained new (rev rl ++ temp) (rev rl' ++ temp').
Proof.
  intros stop new rl. induction rl as [|c rl IH]; intros temp u Eu Hn Hc Ht Ru Rs Hu.
  - exists [], temp. split; [reflexivity|]. split; [reflexivity|]. apply AllPassing. exact Ht.
  - inversion Hc as [|c0 rl0 Hcc Hcr]; subst c0 rl0. cbn [pop_changes].
    fold (ind_code c). destruct (ind_code c) as [code|] eqn:Ec; [|congruence].
    destruct (starts_with (py "PROB") code || starts_with (py "TEMPO") code) eqn:Es.
    + assert (P : passing c).
      { unfold passing. rewrite Ec. apply orb_true_iff in Es. destruct Es as [Es|Es]; apply begins_iff in Es; auto. }
      destruct (IH (c :: temp) u Eu Hn Hcr) as (rl' & temp' & E & L & C); auto.
      exists rl', temp'. split; [exact E|]. cbn [rev]. rewrite <- app_assoc. cbn [app]. split; assumption.
    + assert (NP : ~ passing c).
      { unfold passing. rewrite Ec, <- !begins_iff. apply orb_false_iff in Es. destruct Es as [-> ->]. intros [H|H]; discriminate. }
      cbn [rev]. rewrite <- app_assoc. cbn [app].
      destruct (starts_with (py "FM") code) eqn:Ef.
      * unfold reset_until_period.
        assert (A : dt_add_hours (t_dt stop) (-1) = Ok u).
        { assert (Y : (dt_year (t_dt stop) <= 9999)%Z).
          { destruct Rs as [Rs _]. apply real_date_range in Rs. lia. }
          destruct (minutes_later_count _ _ _ Hu Ru Y) as [M _].
          unfold dt_add_hours. apply dt_add_minutes_ok; [exact Ru|]. rewrite M. lia. }
        rewrite A. cbn [bind]. fold (ind_code c). rewrite Ec, Ef. cbn [bind].
        eexists _, _. split; [reflexivity|]. split; [rewrite !app_length; reflexivity|].
        apply LastFrom; auto.
        -- unfold is_from. rewrite Ec. apply begins_iff. exact Ef.
        -- unfold ends_before, ind_code, cf_set_ind. cbn. unfold ind_code in Ec. rewrite Ec, <- Eu.
           repeat split; try reflexivity. exact Hu.
      * eexists _, _. split; [reflexivity|]. split; [reflexivity|].
        apply LastOther; auto. unfold is_from. rewrite Ec, <- begins_iff, Ef. discriminate.
Qed.

Lemma gl_add_all_ok : forall A (l : list A) g, (length (gl_list g) + length l <= gl_max g)%nat ->
  gl_add_all l g = Ok (mk_gl (gl_n g) (gl_max g) (gl_list g ++ l)).
Proof.
  intros A l. induction l as [|x l IH]; intros [n mx gl] H; cbn [gl_list gl_max gl_n length] in *.
  - rewrite app_nil_r. reflexivity.
  - cbn [gl_add_all]. unfold gl_add. cbn [gl_list gl_max gl_n].
    replace (Nat.leb mx (length gl)) with false by (symmetry; apply Nat.leb_gt; lia). cbn [bind].
    rewrite IH; cbn [gl_list gl_max gl_n]; [rewrite <- app_assoc; reflexivity|].
    rewrite app_length. cbn [length]. lia.
Qed.

Lemma changes_add_ok : forall new g u,
  (length (gl_list g) < gl_max g)%nat -> Forall (fun c => ind_code c <> None) (gl_list g) ->
  real_time u -> real_time (t_dt (va_from (tc_valid (cf_ind new)))) ->
  minutes_later 60 u (t_dt (va_from (tc_valid (cf_ind new)))) ->
  exists g' l', changes_add new g = Ok g' /\ gl_max g' = gl_max g /\ gl_n g' = gl_n g
    /\ chained new (gl_list g) l' /\ gl_list g' = l' ++ [new].
Proof.
  intros new [n mx l] u Hl Hc Ru Rs Hu. cbn [gl_list gl_max gl_n] in *. unfold changes_add. cbn [gl_list gl_max gl_n].
  set (st := fun p => match cf_code new with Some c => starts_with p c | None => false end).
  assert (ST : forall w, st (py w) = true <-> begins w (cf_code new)).
  { intro w. unfold st. destruct (cf_code new) as [c|]; [apply begins_iff|].
    split; [discriminate|]. intros [r H]. discriminate. }
  change (match cf_code new with Some c => starts_with (py "FM") c | None => false end) with (st (py "FM")).
  change (match cf_code new with Some c => starts_with (py "BECMG") c | None => false end) with (st (py "BECMG")).
  clearbody st. destruct (st (py "FM") || st (py "BECMG")) eqn:E.
  - assert (B : begins "FM" (cf_code new) \/ begins "BECMG" (cf_code new)).
    { apply orb_true_iff in E. destruct E as [E|E]; apply ST in E; auto. }
    destruct l as [|c l0].
    + cbn [length Nat.ltb Nat.leb andb]. unfold gl_add. cbn [gl_list gl_max gl_n].
      replace (Nat.leb mx (length (@nil change_fc))) with false by (symmetry; apply Nat.leb_gt; exact Hl).
      eexists _, []. split; [reflexivity|]. repeat split. apply AllPassing. constructor.
    + change (Nat.ltb 0 (length (c :: l0))) with true. cbn [andb].
      destruct (pop_changes_ok (va_from (tc_valid (cf_ind new))) new (rev (c :: l0)) [] u) as (rl & temp & Ep & L & C);
        auto; try (apply Forall_rev; exact Hc).
      rewrite Ep. cbn [bind]. rewrite app_nil_r, rev_involutive in L, C. rewrite app_length in L.
      rewrite gl_add_all_ok by (cbn [gl_list gl_max]; lia). cbn [bind gl_list gl_max gl_n].
      unfold gl_add. cbn [gl_list gl_max gl_n].
      replace (Nat.leb mx (length (rev rl ++ temp))) with false
        by (symmetry; apply Nat.leb_gt; rewrite app_length; lia).
      eexists _, (rev rl ++ temp). split; [reflexivity|]. repeat split. exact C.
  - rewrite andb_false_r. unfold gl_add. cbn [gl_list gl_max gl_n].
    replace (Nat.leb mx (length l)) with false by (symmetry; apply Nat.leb_gt; exact Hl).
    eexists _, l. split; [reflexivity|]. repeat split.
    apply orb_false_iff in E. destruct E as [E1 E2].
    apply NoChain; rewrite <- ST; congruence.
Qed.
