(** * Exact forms of C09 and C22: proof *)
From Coq Require Import String Ascii.
From Coq Require Import List NArith ZArith Bool Lia QArith Qabs Lqa.
From Verif Require Import PyBase PyRegex AeroRegex PyFloat Utils Base MetarGroups SpecNum SpecGroups SpecRules
  Rounding FloatFacts ProofGroups ProofValues ProofValues2 ProofValues3 ProofRange ProofRules.
Import ListNotations.
Local Open Scope string_scope.
Local Open Scope nat_scope.
Local Open Scope list_scope.

(** ** C22 *)

Lemma raw_value : forall n, (n < 10000)%N ->
  within (1 # 10 ^ 9) (pressure_new (Some (format_fixed 10 (raw_inches n)))) (ofN n / (2953 # 100000)).
Proof.
  intros n H. assert (M := raw_near n H).
  destruct (scaled_range n (100000 # 2953) (2 # 1000) (900000000 # 1)) as [A _];
    [reflexivity|vm_compute; discriminate|vm_compute; discriminate|lia|].
  assert (R : (ofN n * (100000 # 2953) <= ofN 9999 * (100000 # 2953))%Q)
    by (apply Qmult_le_compat_r; [apply ofN_le; lia|discriminate]).
  assert (B : (ofN n * (100000 # 2953) <= inject_Z 900000)%Q).
  { eapply Qle_trans; [exact R|]. vm_compute. discriminate. }
  destruct (near_format _ _ _ _ M) as (y & q & Ey & Ny & Dy); [lia|exact A|exact B|].
  assert (D : (Qabs (q - ofN n * (100000 # 2953)) <= 4 # 10 ^ 10)%Q).
  { eapply Qle_trans; [exact Dy|].
    apply Qle_trans with ((1 # 2) * (1 # 10 ^ 10) + inject_Z 7 * u * (ofN 9999 * (100000 # 2953)))%Q.
    - apply Qplus_le_r. apply Qmult_le_l; [reflexivity|exact R].
    - vm_compute. discriminate. }
  unfold pressure_new, float_or_none. rewrite Ey.
  apply (near_within_shift 300 1 y q _ _ (400000 # 1) (4 # 10 ^ 10)); auto; [lia| |].
  - apply Qabs_Qle_condition in D. destruct D as [_ D].
    change (4 # 10 ^ 10)%Q with (4 # 10000000000)%Q in D.
    change (ofN 9999) with (9999 # 1)%Q in R. lra.
  - vm_compute. discriminate.
Qed.

Lemma press_none_above : forall n, (2500 < n < 10000)%N ->
  exists p, metar_pressure_new (re_match r_PRESSURE (press_code (mk_press_g PfNone (Some n) false))) = Ok p
    /\ within (1 # 10 ^ 9) (pr_value p) (ofN n / (2953 # 100000)).
Proof.
  intros n H. rewrite press_decodes by (unfold press_wf; cbn; lia). eexists. split; [reflexivity|].
  cbn [pr_value pg_value pg_prefix pg_ins is_inches]. destruct (N.ltb_spec 2500 n) as [L|L]; [|lia].
  apply raw_value. lia.
Qed.

(** ** C09 *)

(** A broken or overcast layer at or below 1500 feet. *)
Definition low (g : cloud_g) : bool :=
  cover_in ["BKN"; "OVC"] g && match hundreds_of g with Some n => (n <=? 15)%N | None => false end.

Lemma ceiling_raises : forall gs l, shows_clouds gs l -> forall e,
  ceiling_of l = Raise e <->
  e = TypeError /\ exists l1 g l2, gs = l1 ++ g :: l2 /\ existsb low l1 = false
    /\ cover_in ["BKN"; "OVC"] g = true /\ hundreds_of g = None.
Proof.
  intros gs l H e. induction H as [|g c gs l [Hw E] H IH].
  - cbn [ceiling_of]. split; [discriminate|]. intros (_ & l1 & g & l2 & E & _). destruct l1; discriminate E.
  - cbn [ceiling_of]. assert (F := feet_facts g c Hw E).
    destruct (cloud_full g Hw) as (c' & E' & _ & _ & Ok_ & _). assert (c' = c) by congruence. subst c'.
    rewrite Ok_. destruct (cover_cases g (proj1 Hw)) as (_ & _ & ->).
    destruct (cover_in ["BKN"; "OVC"] g) eqn:Cv.
    + destruct (hundreds_of g) as [n|] eqn:Hn.
      * destruct F as (h & -> & -> & _). destruct (N.leb_spec n 15) as [L|L].
        -- split; [discriminate|]. intros (_ & l1 & g' & l2 & Eg & X & _ & X3). destruct l1 as [|g0 l1].
           ++ injection Eg as <- _. congruence.
           ++ injection Eg as <- _. cbn [existsb] in X. apply orb_false_iff in X. destruct X as [X _]. unfold low in X. rewrite Cv, Hn in X.
              apply N.leb_le in L. rewrite L in X. discriminate X.
        -- rewrite IH. split; intros (Ee & l1 & g' & l2 & Eg & X & X2 & X3); (split; [exact Ee|]).
           ++ exists (g :: l1), g', l2. subst gs. split; [reflexivity|]. split; [|auto]. cbn [existsb]. rewrite X, orb_false_r.
              unfold low. rewrite Cv, Hn. apply N.leb_gt in L. rewrite L. reflexivity.
           ++ destruct l1 as [|g0 l1]; [injection Eg as <- _; congruence|]. injection Eg as <- Eg. exists l1, g', l2. split; [exact Eg|].
              cbn [existsb] in X. apply orb_false_iff in X. destruct X as [_ X]. auto.
      * rewrite F. split.
        -- intros Ee. injection Ee as <-. split; [reflexivity|]. exists [], g, gs. auto.
        -- intros (-> & _). reflexivity.
    + rewrite IH. split; intros (Ee & l1 & g' & l2 & Eg & X & X2 & X3); (split; [exact Ee|]).
      * exists (g :: l1), g', l2. subst gs. split; [reflexivity|]. split; [|auto]. cbn [existsb]. rewrite X, orb_false_r.
        unfold low. rewrite Cv. reflexivity.
      * destruct l1 as [|g0 l1]; [injection Eg as <- _; congruence|]. injection Eg as <- Eg. exists l1, g', l2. split; [exact Eg|].
        cbn [existsb] in X. apply orb_false_iff in X. destruct X as [_ X]. auto.
Qed.

Lemma low_none : forall l, existsb low l = false <->
  Forall (fun g => cover_in ["BKN"; "OVC"] g = true -> forall n, hundreds_of g = Some n -> (15 < n)%N) l.
Proof.
  induction l as [|g l IH]; [split; [constructor|reflexivity]|]. cbn [existsb]. rewrite orb_false_iff, IH. unfold low. split.
  - intros [A B]. constructor; [|exact B]. intros C n Hn. rewrite C, Hn in A. apply N.leb_gt in A. exact A.
  - intros F. split; [|exact (Forall_inv_tail F)]. pose proof (Forall_inv F) as A. cbv beta in A.
    destruct (cover_in ["BKN"; "OVC"] g); [|reflexivity]. destruct (hundreds_of g) as [n|]; [|reflexivity].
    apply N.leb_gt. exact (A eq_refl n eq_refl).
Qed.

Lemma cavok_raises : forall same c gs e, shows_clouds gs (gl_list (c_clouds c)) ->
  (should_be_cavok same c = Raise e <->
   e = TypeError /\ gl_list (c_weathers c) = [] /\
   exists l1 g l2, gs = l1 ++ g :: l2 /\ ~ ceiling_has_height g
     /\ Forall (fun g => cover_in ["BKN"; "OVC"] g = true -> forall n, hundreds_of g = Some n -> (15 < n)%N) l1).
Proof.
  intros same c gs e Hg. pose proof (ceiling_raises gs _ Hg e) as C.
  assert (Z : (exists l1 g l2, gs = l1 ++ g :: l2 /\ existsb low l1 = false /\ cover_in ["BKN"; "OVC"] g = true /\ hundreds_of g = None)
    <-> exists l1 g l2, gs = l1 ++ g :: l2 /\ ~ ceiling_has_height g
     /\ Forall (fun g => cover_in ["BKN"; "OVC"] g = true -> forall n, hundreds_of g = Some n -> (15 < n)%N) l1).
  { split; intros (l1 & g & l2 & X1 & X2 & X3); exists l1, g, l2; (split; [exact X1|]).
    - split; [|apply low_none; exact X2]. intros K. destruct X3 as [X3 X4]. exact (K X3 X4).
    - split; [apply low_none; exact X3|]. unfold ceiling_has_height in X2.
      destruct (cover_in ["BKN"; "OVC"] g); [|destruct X2; discriminate]. split; [reflexivity|].
      destruct (hundreds_of g); [destruct X2; discriminate|reflexivity]. }
  rewrite Z in C. clear Z. unfold should_be_cavok, gl_len. destruct (gl_list (c_weathers c)) as [|w ws].
  - cbn [length Nat.ltb Nat.leb]. destruct (ceiling_of (gl_list (c_clouds c))) as [b|e'] eqn:E; cbn [bind].
    + assert (N : ~ (e = TypeError /\ exists l1 g l2, gs = l1 ++ g :: l2 /\ ~ ceiling_has_height g
        /\ Forall (fun g => cover_in ["BKN"; "OVC"] g = true -> forall n, hundreds_of g = Some n -> (15 < n)%N) l1))
        by (intros K; apply C in K; discriminate K).
      split; [|intros (K1 & _ & K2); destruct N; split; assumption]. intros K. exfalso. revert K.
      destruct b; [discriminate|]. destruct (v_vis (c_vis c)) as [v|]; [|discriminate]. destruct (Nat.eqb _ 0); [discriminate|].
      destruct (fltb v f10000); [discriminate|]. destruct (gl_for _ _) as [[u|] cs]; discriminate.
    + transitivity (Raise (A:=bool) e' = Raise e); [split; congruence|]. rewrite C. split; [intros [K1 K2]; auto|intros (K1 & _ & K2); auto].
  - cbn [length Nat.ltb Nat.leb]. split; [discriminate|]. intros (_ & K & _). discriminate K.
Qed.
