(** * Proofs: flight rules, CAVOK conditions, compass points *)
From Coq Require Import String Ascii.
From Coq Require Import List NArith ZArith Bool Lia QArith Qabs Lqa.
From Coq Require Import Floats.SpecFloat.
From Verif Require Import PyBase PyRegex AeroRegex PyFloat Base MetarGroups SpecNum SpecGroups
  FloatFacts ProofLists ProofValues ProofValues2 ProofValues3 SpecRules.
Import ListNotations.
Local Open Scope string_scope.
Local Open Scope nat_scope.
Local Open Scope list_scope.

(** ** Comparisons of finite numbers *)

Lemma sound_val : forall x, sound x -> fvalid x /\ finite x = true /\ fvalue x = Some (val x).
Proof.
  intros x [V [q E]]. split; [exact V|]. split.
  - destruct x; try discriminate; reflexivity.
  - unfold val. rewrite E. reflexivity.
Qed.

Lemma fltb_exact : forall x y q l, sound x -> sound y -> (val x == q)%Q -> (val y == l)%Q ->
  fltb x y = negb (Qle_bool l q).
Proof.
  intros x y q l Sx Sy Ex Ey. destruct (sound_val x Sx) as (Vx & Fx & _).
  destruct (sound_val y Sy) as (Vy & Fy & _).
  assert (C := fltb_val x y Vx Vy Fx Fy). rewrite Ex, Ey in C.
  destruct (Qle_bool l q) eqn:E; cbn [negb].
  - apply Qle_bool_iff in E. apply not_true_is_false. intro T. apply C in T. lra.
  - apply C. apply Qnot_le_lt. intro T. apply Qle_bool_iff in T. congruence.
Qed.

Lemma fleb_exact : forall x y q l, sound x -> sound y -> (val x == q)%Q -> (val y == l)%Q ->
  fleb x y = Qle_bool q l.
Proof.
  intros x y q l Sx Sy Ex Ey. destruct (sound_val x Sx) as (Vx & Fx & _).
  destruct (sound_val y Sy) as (Vy & Fy & _).
  assert (C := fleb_val x y Vx Vy Fx Fy). rewrite Ex, Ey in C.
  destruct (Qle_bool q l) eqn:E.
  - apply C. apply Qle_bool_iff. exact E.
  - apply not_true_is_false. intro T. apply C in T. apply Qle_bool_iff in T. congruence.
Qed.

Lemma sound_exact : forall x q, sound x -> fvalue x = Some q -> (val x == q)%Q.
Proof. intros x q S E. unfold val. rewrite E. reflexivity. Qed.

Lemma below_lim : forall x lim l q, sound x -> fvalue x = Some q -> sound lim -> (val lim == l)%Q ->
  fltb x lim = below (Some q) l.
Proof. intros x lim l q S E L V. apply fltb_exact; auto. apply sound_exact; auto. Qed.

(** ** Flight rules *)

Lemma rules_ceiling_eq : forall l, rules_ceiling l = ceiling_height l.
Proof.
  induction l as [|c l IH]; [reflexivity|].
  unfold ceiling_height, ceiling_layer in *. cbn [rules_ceiling find].
  assert (E : match cl_cover c with
              | Some cv => mem cv [py "broken"; py "overcast"; py "indefinite ceiling"]
              | None => false end = is_ceiling (cl_cover c)).
  { destruct (cl_cover c) as [cv|]; reflexivity. }
  rewrite E. destruct (is_ceiling (cl_cover c)); [reflexivity|exact IH].
Qed.

Lemma lims_match : Forall2 (fun '(n, (c, v)) '(n', c', v') =>
    n = py n' /\ sound c /\ (val c == c')%Q /\ sound v /\ (val v == v')%Q) FLIGHT_RULES rule_limits.
Proof.
  repeat constructor; try (vm_compute; reflexivity);
    eexists; vm_compute; reflexivity.
Qed.

Lemma flight_rules_exact : forall vis clouds, opt_all sound vis ->
  opt_all sound (ceiling_height clouds) ->
  flight_rules_of vis clouds = option_map py (category (exact (ceiling_height clouds)) (exact vis)).
Proof.
  intros vis clouds Hv Hc. unfold flight_rules_of. rewrite rules_ceiling_eq.
  generalize dependent (ceiling_height clouds). clear clouds. intros h Hh.
  assert (F : (vis <> None \/ h <> None) ->
    match find (fun '(_, (c_lim, v_lim)) =>
                    match vis, h with
                    | Some p, Some c => fltb c c_lim || fltb p v_lim
                    | Some p, None => fltb p v_lim
                    | None, Some c => fltb c c_lim
                    | None, None => true
                    end) FLIGHT_RULES with
      | Some (name, _) => Some name
      | None => None
      end = option_map py (category (exact h) (exact vis))).
  { intro D. unfold category.
    assert (M := lims_match). revert M. generalize FLIGHT_RULES rule_limits.
    intros a b M. induction M as [|[n [c v]] [[n' c'] v'] a b (E1 & E2 & E3 & E4 & E5) M IH]; [reflexivity|].
    cbn [find option_map].
    assert (E : match vis, h with
                | Some p, Some x => fltb x c || fltb p v
                | Some p, None => fltb p v
                | None, Some x => fltb x c
                | None, None => true
                end = below (exact h) c' || below (exact vis) v').
    { destruct vis as [p|], h as [x|]; cbn [opt_all exact] in *.
      - destruct (sound_val p Hv) as (_ & _ & Ep). destruct (sound_val x Hh) as (_ & _ & Ex).
        rewrite Ep, Ex, (below_lim x c c' (val x)), (below_lim p v v' (val p)) by assumption. reflexivity.
      - destruct (sound_val p Hv) as (_ & _ & Ep).
        rewrite Ep, (below_lim p v v' (val p)) by assumption. reflexivity.
      - destruct (sound_val x Hh) as (_ & _ & Ex).
        rewrite Ex, (below_lim x c c' (val x)), orb_false_r by assumption. reflexivity.
      - destruct D as [D|D]; congruence. }
    rewrite E. destruct (below (exact h) c' || below (exact vis) v'); [subst n; reflexivity|exact IH]. }
  destruct vis as [p|], h as [x|]; try (apply F; left; discriminate); try (apply F; right; discriminate).
  reflexivity.
Qed.

(** *** Coded groups *)

(** Far enough from every limit for the tolerance. *)
Lemma below_within : forall eps x q lim, (0 <= eps)%Q -> (Qabs (x - q) <= eps)%Q ->
  (eps < Qabs (q - lim))%Q -> below (Some x) lim = below (Some q) lim.
Proof.
  intros eps x q lim He Hx Hq. cbn [below]. f_equal.
  apply Qabs_Qle_condition in Hx.
  assert (Hq' : (q + eps < lim \/ lim + eps < q)%Q).
  { destruct (Qlt_le_dec (q - lim) 0) as [L|L].
    - rewrite Qabs_neg in Hq by lra. left. lra.
    - rewrite Qabs_pos in Hq by lra. right. lra. }
  destruct (Qle_bool lim x) eqn:A, (Qle_bool lim q) eqn:B; try reflexivity.
  - apply Qle_bool_iff in A. assert (~ (lim <= q)%Q) by (rewrite <- Qle_bool_iff; congruence). lra.
  - apply Qle_bool_iff in B. assert (~ (lim <= x)%Q) by (rewrite <- Qle_bool_iff; congruence). lra.
Qed.

Lemma below_eq : forall x q lim, (x == q)%Q -> below (Some x) lim = below (Some q) lim.
Proof. intros x q lim E. cbn [below]. rewrite E. reflexivity. Qed.

Lemma gap : forall q a d l, (q == a # d)%Q -> (a <> l * Zpos d)%Z ->
  ((1 # d) <= Qabs (q - (l # 1)))%Q.
Proof.
  intros q a d l E H. rewrite E. unfold Qminus, Qplus, Qopp, Qabs, Qle, Qnum, Qden. rewrite Pos.mul_1_r. nia.
Qed.

Definition vis_limits : list Z := [800; 1600; 5000; 8000; 20000; 10000]%Z.

Lemma miles_frac : forall i f, sm_wf i f -> exists p b, (1 <= b <= 9)%positive
  /\ (miles i f * (1852 # 1) == (1852 * p) # b)%Q.
Proof.
  intros i f [Hi Hf]. destruct f as [[a b]|].
  - cbn [opt_all] in Hf. destruct b as [|b]; [lia|].
    exists (match i with Some (_, n) => Z.of_N n * Zpos b | None => 0 end + Z.of_N a)%Z, b.
    split; [lia|]. unfold miles, ofN. destruct i as [[two n]|].
    + unfold Qdiv, Qinv, Qeq, Qmult, Qplus, inject_Z, Qnum, Qden, Z.of_N at 2.
      change (Z.of_N (N.pos b)) with (Zpos b). rewrite !Pos.mul_1_l, !Pos.mul_1_r. lia.
    + unfold Qdiv, Qinv, Qeq, Qmult, Qplus, inject_Z, Qnum, Qden.
      change (Z.of_N (N.pos b)) with (Zpos b). rewrite !Pos.mul_1_l, !Pos.mul_1_r. lia.
  - exists (match i with Some (_, n) => Z.of_N n | None => 0 end)%Z, 1%positive. split; [lia|].
    unfold miles, ofN. destruct i as [[two n]|]; unfold Qeq, Qmult, Qplus, inject_Z, Qnum, Qden; lia.
Qed.

Lemma miles_gap : forall i f l, sm_wf i f -> In l vis_limits ->
  ((1 # 10 ^ 6) < Qabs (miles i f * (1852 # 1) - (l # 1)))%Q.
Proof.
  intros i f l H Hl. destruct (miles_frac i f H) as (p & b & B & E).
  apply Qlt_le_trans with (1 # b)%Q.
  - unfold Qlt, Qnum, Qden. change (10 ^ 6)%positive with 1000000%positive. lia.
  - apply (gap _ _ _ _ E).
    assert (Hb : In b [1; 2; 3; 4; 5; 6; 7; 8; 9]%positive).
    { cbn. lia. }
    clear E H B. cbn [In vis_limits] in Hl, Hb.
    repeat (destruct Hl as [<-|Hl]; [repeat (destruct Hb as [<-|Hb]; [lia|]); destruct Hb|]). destruct Hl.
Qed.

Lemma coded_vis_below : forall g v l, shows_vis g v -> In l vis_limits ->
  opt_all sound (v_vis v) /\ below (exact (v_vis v)) (l # 1) = below (coded_vis g) (l # 1).
Proof.
  intros [g|] v l H Hl; cbn [shows_vis coded_vis] in *.
  - destruct H as [Hw E]. destruct (prevailing_full g Hw) as (v' & E' & _ & C & _ & _ & _ & S).
    assert (v' = v) by congruence. subst v'. split; [exact S|].
    assert (N : opt_num (v_vis v) (vis_meters g) -> below (exact (v_vis v)) (l # 1) = below (vis_meters g) (l # 1)).
    { clear C. intro C. destruct (vis_meters g) as [q|]; cbn [opt_num] in C.
      - destruct C as (x & y & Ex & Ey & Q). rewrite Ex. cbn [exact]. rewrite Ey. apply below_eq. exact Q.
      - rewrite C. reflexivity. }
    destruct g as [n d|d| |lss i f|lss two n]; cbn [vis_close] in C; try (exact (N C)).
    cbn [vis_meters opt_within] in *. destruct C as (x & y & Ex & Ey & Q). rewrite Ex. cbn [exact]. rewrite Ey.
    apply (below_within (1 # 10 ^ 6)); [discriminate|exact Q|].
    apply miles_gap; [|exact Hl]. destruct Hw as (A & B & _). split; assumption.
  - rewrite H. split; [exact I|reflexivity].
Qed.

Lemma cover_cases : forall g, In (cg_cover g) covers ->
  is_ceiling (Some (py (snd (fst (cg_cover g))))) = cover_in ["BKN"; "OVC"; "VV"] g
  /\ opt_str_eqb (Some (py (snd (fst (cg_cover g))))) (py "indefinite ceiling") = cover_in ["VV"] g
  /\ mem (py (snd (cg_cover g))) [py "5-7"; py "8"] = cover_in ["BKN"; "OVC"] g.
Proof.
  intros [c h t] H. unfold cover_in. cbn [cg_cover] in *. clear h t.
  repeat (destruct H as [<-|H]; [repeat split; reflexivity|]). destruct H.
Qed.

Definition height_limits : list Z := [60; 150; 300; 900; 40000]%Z.

Lemma height_below : forall g c l, cloud_wf g -> cloud_from_metar (re_match r_CLOUD (cloud_code g)) = Ok c ->
  In l height_limits ->
  opt_all sound (cl_height c) /\ below (exact (cl_height c)) (l # 1) = below (height_meters (cg_height g)) (l # 1).
Proof.
  intros g c l Hw E Hl. destruct (cloud_full g Hw) as (c' & E' & _ & _ & _ & _ & C & _ & S & _).
  assert (c' = c) by congruence. subst c'. split; [exact S|].
  destruct (cg_height g) as [n| |] eqn:G; cbn [height_meters opt_within] in *; try (rewrite C; reflexivity).
  destruct C as (x & y & Ex & Ey & Q). rewrite Ex. cbn [exact]. rewrite Ey.
  apply (below_within (1 # 10 ^ 9)); [discriminate|exact Q|].
  apply Qlt_le_trans with (1 # 100)%Q; [reflexivity|].
  apply (gap _ (Z.of_N n * 3048)).
  - unfold ofN, Qeq, Qmult, inject_Z, Qnum, Qden. lia.
  - cbn [In height_limits] in Hl. repeat (destruct Hl as [<-|Hl]; [lia|]). destruct Hl.
Qed.

Lemma ceiling_below : forall gs l lim, shows_clouds gs l -> In lim height_limits ->
  opt_all sound (ceiling_height l) /\ below (exact (ceiling_height l)) (lim # 1) = below (coded_ceiling gs) (lim # 1).
Proof.
  intros gs l lim H Hl. induction H as [|g c gs l [Hw E] H IH]; [split; [exact I|reflexivity]|].
  unfold ceiling_height, ceiling_layer, coded_ceiling in *. cbn [find].
  destruct (cloud_full g Hw) as (c' & E' & _ & Cv & _). assert (c' = c) by congruence. subst c'.
  rewrite Cv. destruct (cover_cases g (proj1 Hw)) as [-> _].
  destruct (cover_in ["BKN"; "OVC"; "VV"] g); [|exact IH].
  apply height_below; assumption.
Qed.

Lemma flight_rules_coded : forall g gs v l, shows_vis g v -> shows_clouds gs l ->
  flight_rules_of (v_vis v) l = option_map py (category (coded_ceiling gs) (coded_vis g)).
Proof.
  intros g gs v l Hv Hl.
  assert (V := fun lim => coded_vis_below g v lim Hv). assert (C := fun lim => ceiling_below gs l lim Hl).
  rewrite flight_rules_exact; [|apply (V 800%Z); cbn; tauto|apply (C 60%Z); cbn; tauto].
  f_equal. unfold category, rule_limits. cbn [find].
  assert (V1 := proj2 (V 800%Z ltac:(cbn; tauto))). assert (V2 := proj2 (V 1600%Z ltac:(cbn; tauto))).
  assert (V3 := proj2 (V 5000%Z ltac:(cbn; tauto))). assert (V4 := proj2 (V 8000%Z ltac:(cbn; tauto))).
  assert (V5 := proj2 (V 20000%Z ltac:(cbn; tauto))).
  assert (C1 := proj2 (C 60%Z ltac:(cbn; tauto))). assert (C2 := proj2 (C 150%Z ltac:(cbn; tauto))).
  assert (C3 := proj2 (C 300%Z ltac:(cbn; tauto))). assert (C4 := proj2 (C 900%Z ltac:(cbn; tauto))).
  assert (C5 := proj2 (C 40000%Z ltac:(cbn; tauto))).
  rewrite V1, V2, V3, V4, V5, C1, C2, C3, C4, C5. reflexivity.
Qed.

(** *** Monotonicity *)

Lemma below_mono : forall a b l, lower_or_equal a b -> below b l = true -> below a l = true.
Proof.
  intros [a|] [b|] l H; cbn [below lower_or_equal] in *; try discriminate; try tauto.
  intro B. apply negb_true_iff. apply negb_true_iff in B.
  destruct (Qle_bool l a) eqn:E; [|reflexivity]. apply Qle_bool_iff in E.
  assert (T : (l <= b)%Q) by lra. apply Qle_bool_iff in T. congruence.
Qed.

Lemma category_mono : forall c v c' v', lower_or_equal c' c -> lower_or_equal v' v ->
  rank (option_map py (category c' v')) <= rank (option_map py (category c v)).
Proof.
  intros c v c' v' Hc Hv.
  assert (M : forall lc lv, below c lc || below v lv = true -> below c' lc || below v' lv = true).
  { intros lc lv H. apply orb_true_iff in H. apply orb_true_iff. destruct H as [H|H].
    - left. apply (below_mono _ _ _ Hc H).
    - right. apply (below_mono _ _ _ Hv H). }
  unfold category, rule_limits. cbn [find].
  destruct (below c' (60 # 1) || below v' (800 # 1)) eqn:A1; [cbn; lia|].
  destruct (below c (60 # 1) || below v (800 # 1)) eqn:B1; [apply M in B1; congruence|].
  destruct (below c' (150 # 1) || below v' (1600 # 1)) eqn:A2;
    [repeat (match goal with |- context [if ?b then _ else _] => destruct b end); cbn; lia|].
  destruct (below c (150 # 1) || below v (1600 # 1)) eqn:B2; [apply M in B2; congruence|].
  destruct (below c' (300 # 1) || below v' (5000 # 1)) eqn:A3;
    [repeat (match goal with |- context [if ?b then _ else _] => destruct b end); cbn; lia|].
  destruct (below c (300 # 1) || below v (5000 # 1)) eqn:B3; [apply M in B3; congruence|].
  destruct (below c' (900 # 1) || below v' (8000 # 1)) eqn:A4;
    [repeat (match goal with |- context [if ?b then _ else _] => destruct b end); cbn; lia|].
  destruct (below c (900 # 1) || below v (8000 # 1)) eqn:B4; [apply M in B4; congruence|].
  destruct (below c' (40000 # 1) || below v' (20000 # 1)) eqn:A5;
    [repeat (match goal with |- context [if ?b then _ else _] => destruct b end); cbn; lia|].
  destruct (below c (40000 # 1) || below v (20000 # 1)) eqn:B5; [apply M in B5; congruence|].
  lia.
Qed.

Lemma flight_rules_mono : forall v l v' l',
  opt_all sound v -> opt_all sound (ceiling_height l) ->
  opt_all sound v' -> opt_all sound (ceiling_height l') ->
  lower_or_equal (exact v') (exact v) ->
  lower_or_equal (exact (ceiling_height l')) (exact (ceiling_height l)) ->
  rank (flight_rules_of v' l') <= rank (flight_rules_of v l).
Proof.
  intros v l v' l' A B C D E F. rewrite !flight_rules_exact by assumption. apply category_mono; assumption.
Qed.

(** *** No category *)

Lemma category_none : forall c v, category c v = None <->
  ((forall q, c = Some q -> (40000 # 1 <= q)%Q) /\ (forall q, v = Some q -> (20000 # 1 <= q)%Q)).
Proof.
  intros c v.
  assert (Z : forall o l, below o l = false <-> (forall q, o = Some q -> (l <= q)%Q)).
  { intros [q|] l; cbn [below]; split; intros H.
    - intros q' E. injection E as <-. apply Qle_bool_iff. apply negb_false_iff in H. exact H.
    - apply negb_false_iff. apply Qle_bool_iff. apply H. reflexivity.
    - discriminate.
    - reflexivity. }
  rewrite <- !Z. split.
  - unfold category, rule_limits. cbn [find]. intro H.
    repeat (match type of H with context [if ?b then _ else _] => let E := fresh "B" in destruct b eqn:E; [discriminate|] end).
    match goal with K : below c (40000 # 1) || below v (20000 # 1) = false |- _ => apply orb_false_iff in K; exact K end.
  - intros [Hc Hv].
    assert (W : forall o l l', (l' <= l)%Q -> below o l = false -> below o l' = false).
    { intros o l l' Hl. rewrite !Z. intros H q E. apply Qle_trans with l; [exact Hl|exact (H q E)]. }
    unfold category, rule_limits. cbn [find].
    rewrite (W c (40000 # 1)%Q (60 # 1)%Q ltac:(discriminate) Hc), (W c (40000 # 1)%Q (150 # 1)%Q ltac:(discriminate) Hc),
      (W c (40000 # 1)%Q (300 # 1)%Q ltac:(discriminate) Hc), (W c (40000 # 1)%Q (900 # 1)%Q ltac:(discriminate) Hc), Hc,
      (W v (20000 # 1)%Q (800 # 1)%Q ltac:(discriminate) Hv), (W v (20000 # 1)%Q (1600 # 1)%Q ltac:(discriminate) Hv),
      (W v (20000 # 1)%Q (5000 # 1)%Q ltac:(discriminate) Hv), (W v (20000 # 1)%Q (8000 # 1)%Q ltac:(discriminate) Hv), Hv.
    reflexivity.
Qed.

Lemma coded_none : forall g gs v l, shows_vis g v -> shows_clouds gs l ->
  (flight_rules_of (v_vis v) l = None <->
   coded_ceiling gs = None /\ (forall q, coded_vis g = Some q -> (20000 # 1 <= q)%Q)).
Proof.
  intros g gs v l Hv Hl. rewrite (flight_rules_coded g gs v l Hv Hl).
  assert (E : option_map py (category (coded_ceiling gs) (coded_vis g)) = None
              <-> category (coded_ceiling gs) (coded_vis g) = None).
  { destruct (category (coded_ceiling gs) (coded_vis g)); split; cbn; congruence. }
  rewrite E, category_none.
  assert (H : (forall q, coded_ceiling gs = Some q -> (40000 # 1 <= q)%Q) <-> coded_ceiling gs = None).
  { split; [|intros ->; discriminate]. intro H. unfold coded_ceiling in *.
    destruct (find (cover_in ["BKN"; "OVC"; "VV"]) gs) as [x|] eqn:F; [|reflexivity].
    apply find_some in F. destruct F as [F _].
    assert (W : cloud_wf x).
    { clear -Hl F. induction Hl as [|g c gs l [W _] Hl IH]; [destruct F|]. destruct F as [<-|F]; auto. }
    destruct W as (_ & W & _). destruct (cg_height x) as [n| |]; cbn [height_meters] in *; auto.
    exfalso. specialize (H _ eq_refl). unfold ofN, Qle, Qmult, inject_Z, Qnum, Qden in H. lia. }
  rewrite H. tauto.
Qed.

(** ** CAVOK conditions *)

Definition loop {A} (p : A -> bool) (x : A) : option unit := if p x then Some tt else None.

Lemma gl_for_none : forall A (p : A -> bool) f (g : grouplist A),
  S (length (gl_list g)) <= f + gl_n g -> 1 <= f ->
  existsb p (skipn (gl_n g) (gl_list g)) = false ->
  gl_for_fuel f (loop p) g = (None, mk_gl 0 (gl_max g) (gl_list g)).
Proof.
  induction f as [|f IH]; intros g Hf H1 Hp; [lia|]. cbn [gl_for_fuel]. unfold gl_next.
  destruct (Nat.leb_spec (length (gl_list g)) (gl_n g)) as [L|L]; [reflexivity|].
  destruct (nth_error (gl_list g) (gl_n g)) as [x|] eqn:E; [|apply nth_error_None in E; lia].
  assert (K : skipn (gl_n g) (gl_list g) = x :: skipn (S (gl_n g)) (gl_list g)).
  { clear -E. revert E. generalize (gl_list g) (gl_n g). induction l as [|y l IH]; intros [|n] E; try discriminate.
    - injection E as ->. reflexivity.
    - cbn [skipn]. apply IH. exact E. }
  rewrite K in Hp. cbn [existsb] in Hp. apply orb_false_iff in Hp. destruct Hp as [P1 P2].
  unfold loop at 1. rewrite P1. rewrite IH; cbn [gl_n gl_list gl_max]; [reflexivity|lia|lia|exact P2].
Qed.

Lemma gl_for_some : forall A (p : A -> bool) l1 x l2 f (g : grouplist A),
  S (length (gl_list g)) <= f + gl_n g ->
  skipn (gl_n g) (gl_list g) = l1 ++ x :: l2 -> existsb p l1 = false -> p x = true ->
  gl_for_fuel f (loop p) g = (Some tt, mk_gl (gl_n g + length l1 + 1) (gl_max g) (gl_list g)).
Proof.
  induction l1 as [|y l1 IH]; intros x l2 f g Hf Hs Hp Hx.
  - assert (L : gl_n g < length (gl_list g)).
    { destruct (Nat.lt_ge_cases (gl_n g) (length (gl_list g))) as [L|L]; [exact L|].
      rewrite skipn_all2 in Hs by exact L. discriminate. }
    destruct f as [|f]; [lia|]. cbn [gl_for_fuel]. unfold gl_next.
    destruct (Nat.leb_spec (length (gl_list g)) (gl_n g)) as [L'|_]; [lia|].
    assert (E : nth_error (gl_list g) (gl_n g) = Some x).
    { rewrite <- (Nat.add_0_r (gl_n g)), <- nth_error_skipn, Hs. reflexivity. }
    rewrite E. unfold loop. rewrite Hx. cbn [length]. rewrite Nat.add_0_r, Nat.add_1_r. reflexivity.
  - assert (L : gl_n g < length (gl_list g)).
    { destruct (Nat.lt_ge_cases (gl_n g) (length (gl_list g))) as [L|L]; [exact L|].
      rewrite skipn_all2 in Hs by exact L. discriminate. }
    destruct f as [|f]; [lia|]. cbn [gl_for_fuel]. unfold gl_next.
    destruct (Nat.leb_spec (length (gl_list g)) (gl_n g)) as [L'|_]; [lia|].
    assert (E : nth_error (gl_list g) (gl_n g) = Some y).
    { rewrite <- (Nat.add_0_r (gl_n g)), <- nth_error_skipn, Hs. reflexivity. }
    cbn [existsb] in Hp. apply orb_false_iff in Hp. destruct Hp as [P1 P2].
    rewrite E. unfold loop at 1. rewrite P1.
    rewrite (IH x l2); cbn [gl_n gl_list gl_max length]; [f_equal; f_equal; lia|lia| |exact P2|exact Hx].
    clear -Hs. revert Hs. generalize (gl_list g) (gl_n g). induction l as [|z l IH]; intros [|n] Hs; try discriminate.
    + cbn [skipn] in *. injection Hs as _ ->. reflexivity.
    + cbn [skipn] in *. apply IH. exact Hs.
Qed.

Lemma existsb_split : forall A (p : A -> bool) l, existsb p l = true ->
  exists l1 x l2, l = l1 ++ x :: l2 /\ existsb p l1 = false /\ p x = true.
Proof.
  induction l as [|x l IH]; intro H; [discriminate|]. cbn [existsb] in H.
  destruct (p x) eqn:E.
  - exists [], x, l. repeat split. exact E.
  - destruct (IH H) as (l1 & y & l2 & -> & A1 & A2). exists (x :: l1), y, l2.
    repeat split; [|exact A2]. cbn [existsb]. rewrite E. exact A1.
Qed.

(** *** One layer *)

Definition high (g : cloud_g) (n : N) : bool :=
  match hundreds_of g with Some m => (m <=? n)%N | None => false end.

Lemma feet_facts : forall g c, cloud_wf g -> cloud_from_metar (re_match r_CLOUD (cloud_code g)) = Ok c ->
  match hundreds_of g with
  | Some n => exists h, cl_feet c = Some h /\ fleb h f1500 = (n <=? 15)%N /\ fltb h f4999 = (n <? 50)%N
  | None => cl_feet c = None
  end.
Proof.
  intros g c Hw E. destruct (cloud_full g Hw) as (c' & E' & _ & _ & _ & _ & _ & C & _ & S & K).
  assert (c' = c) by congruence. subst c'. unfold hundreds_of.
  destruct (cg_height g) as [n| |] eqn:G; cbn [height_feet opt_within] in *; try exact C.
  destruct C as (x & y & Ex & Ey & Q). rewrite Ex in *. cbn [opt_all] in *. exists x. split; [reflexivity|].
  assert (X := sound_exact x y S Ey).
  apply Qabs_Qle_condition in Q. change (1 # 10 ^ 9)%Q with (1 # 1000000000)%Q in Q.
  assert (M : forall k, (n <= k)%N -> (ofN n <= inject_Z (Z.of_N k))%Q).
  { intros k Hk. unfold ofN. rewrite <- Zle_Qle. lia. }
  assert (M' : forall k, (k <= n)%N -> (inject_Z (Z.of_N k) <= ofN n)%Q).
  { intros k Hk. unfold ofN. rewrite <- Zle_Qle. lia. }
  split.
  - assert (F := fleb_exact x f1500 y (1500 # 1) S (sound_b_sound f1500 eq_refl) X ltac:(vm_compute; reflexivity)).
    destruct (N.leb_spec n 15) as [L|L].
    + destruct (N.eq_dec n 15) as [->|Hn]; [exact (K eq_refl)|].
      rewrite F. apply Qle_bool_iff. assert (T := M 14%N ltac:(lia)). change (inject_Z (Z.of_N 14)) with (14 # 1)%Q in T. lra.
    + apply not_true_is_false. rewrite F. intro T. apply Qle_bool_iff in T.
      assert (T' := M' 16%N ltac:(lia)). change (inject_Z (Z.of_N 16)) with (16 # 1)%Q in T'. lra.
  - assert (F := fltb_exact x f4999 y (val f4999) S (sound_b_sound f4999 eq_refl) X ltac:(reflexivity)).
    assert (V1 : (val f4999 <= 5000 - (1 # 200000000))%Q) by (vm_compute; discriminate).
    assert (V2 : (4950 <= val f4999)%Q) by (vm_compute; discriminate).
    rewrite F. destruct (N.ltb_spec n 50) as [L|L].
    + apply negb_true_iff. apply not_true_is_false. intro T. apply Qle_bool_iff in T.
      assert (T' := M 49%N ltac:(lia)). change (inject_Z (Z.of_N 49)) with (49 # 1)%Q in T'. lra.
    + apply negb_false_iff. apply Qle_bool_iff.
      assert (T' := M' 50%N ltac:(lia)). change (inject_Z (Z.of_N 50)) with (50 # 1)%Q in T'. lra.
Qed.

Definition typed (g : cloud_g) : bool := match cg_type g with TyCB | TyTCU => true | _ => false end.

Lemma rejects_coded : forall same g c, cloud_wf g -> cloud_from_metar (re_match r_CLOUD (cloud_code g)) = Ok c ->
  cavok_rejects same c = (same && cover_in ["VV"] g) || typed g
                         || match hundreds_of g with Some n => (n <? 50)%N | None => false end.
Proof.
  intros same g c Hw E. assert (F := feet_facts g c Hw E).
  destruct (cloud_full g Hw) as (c' & E' & _ & Cv & _ & Ty & _).
  assert (c' = c) by congruence. subst c'. unfold cavok_rejects. rewrite Cv, Ty.
  destruct (cover_cases g (proj1 Hw)) as (_ & -> & _).
  assert (T : opt_str_eqb (type_text (cg_type g)) (py "cumulonimbus")
              || opt_str_eqb (type_text (cg_type g)) (py "towering cumulus") = typed g)
    by (unfold typed; destruct (cg_type g); reflexivity).
  rewrite <- T, !orb_assoc. f_equal.
  destruct (hundreds_of g) as [n|]; [destruct F as (h & -> & _ & ->)|rewrite F]; reflexivity.
Qed.

Lemma ceiling_coded : forall gs l, shows_clouds gs l -> Forall ceiling_has_height gs ->
  ceiling_of l = Ok (existsb (fun g => cover_in ["BKN"; "OVC"] g
                                       && match hundreds_of g with Some n => (n <=? 15)%N | None => false end) gs).
Proof.
  intros gs l H. induction H as [|g c gs l [Hw E] H IH]; intro Hc; [reflexivity|].
  inversion Hc as [|g' gs' Hg Hgs]; subst. cbn [ceiling_of existsb].
  assert (F := feet_facts g c Hw E).
  destruct (cloud_full g Hw) as (c' & E' & _ & _ & Ok_ & _). assert (c' = c) by congruence. subst c'.
  rewrite Ok_. destruct (cover_cases g (proj1 Hw)) as (_ & _ & ->).
  unfold ceiling_has_height in Hg. destruct (cover_in ["BKN"; "OVC"] g); cbn [andb orb]; [|exact (IH Hgs)].
  destruct (hundreds_of g) as [n|]; [|destruct (Hg eq_refl eq_refl)].
  destruct F as (h & -> & -> & _). destruct (n <=? 15)%N; [reflexivity|exact (IH Hgs)].
Qed.

Lemma layer_ok_dec : forall same g, ceiling_has_height g -> vv_decided same g -> cloud_wf g ->
  (layer_ok g <->
   (cover_in ["BKN"; "OVC"] g && match hundreds_of g with Some n => (n <=? 15)%N | None => false end) = false
   /\ (same && cover_in ["VV"] g) || typed g
      || match hundreds_of g with Some n => (n <? 50)%N | None => false end = false).
Proof.
  intros same g Hc Hv Hw. unfold layer_ok, ceiling_has_height, vv_decided, typed in *.
  destruct (hundreds_of g) as [n|] eqn:Hn.
  - split.
    + intros (A1 & A2 & A3 & A4 & A5). specialize (A4 n eq_refl).
      assert (B1 : (n <? 50)%N = false) by (apply N.ltb_ge; exact A4).
      assert (B2 : (n <=? 15)%N = false) by (apply N.leb_gt; lia).
      rewrite B1, B2, andb_false_r, orb_false_r. split; [reflexivity|].
      assert (B3 : same && cover_in ["VV"] g = false).
      { destruct (cover_in ["VV"] g); [|apply andb_false_r]. destruct same; [|reflexivity].
        specialize (Hv eq_refl eq_refl). lia. }
      rewrite B3. destruct (cg_type g); first [reflexivity|congruence].
    + intros [A1 A2]. apply orb_false_iff in A2. destruct A2 as [A2 A3]. apply orb_false_iff in A2.
      destruct A2 as [_ A2]. apply N.ltb_ge in A3. repeat split.
      * intros Hb m Hm. injection Hm as <-. lia.
      * intro T. rewrite T in A2. discriminate.
      * intro T. rewrite T in A2. discriminate.
      * intros m Hm. injection Hm as <-. exact A3.
      * intros [_ T]. discriminate.
  - rewrite andb_false_r, orb_false_r. split.
    + intros (A1 & A2 & A3 & A4 & A5). split; [reflexivity|].
      destruct (cover_in ["VV"] g); [destruct (A5 (conj eq_refl eq_refl))|]. rewrite andb_false_r.
      destruct (cg_type g); first [reflexivity|congruence].
    + intros [_ A2]. apply orb_false_iff in A2. destruct A2 as [A1 A2]. repeat split.
      * intros _ m Hm. discriminate.
      * intro T. rewrite T in A2. discriminate.
      * intro T. rewrite T in A2. discriminate.
      * intros m Hm. discriminate.
      * intros [T _]. specialize (Hv T). rewrite Hv, T in A1. discriminate.
Qed.

Lemma visible_enough : forall vis v, shows_vis vis v ->
  (match v_vis v with None => true | Some x => fltb x f10000 end = false
   <-> exists q, coded_vis vis = Some q /\ (10000 # 1 <= q)%Q).
Proof.
  intros vis v H. destruct (coded_vis_below vis v 10000%Z H) as [S B]; [cbn; tauto|].
  assert (N : v_vis v = None <-> coded_vis vis = None).
  { destruct vis as [g|]; cbn [shows_vis coded_vis] in *; [|tauto].
    destruct H as [Hw E]. destruct (prevailing_full g Hw) as (v' & E' & _ & C & _).
    assert (v' = v) by congruence. subst v'.
    destruct g as [n d|d| |lss i f|lss two n]; cbn [vis_close vis_meters opt_num opt_within] in *;
      try (destruct C as (x & y & -> & _); split; discriminate). tauto. }
  destruct (v_vis v) as [x|].
  - destruct (sound_val x S) as (_ & _ & Ex).
    rewrite (below_lim x f10000 (10000 # 1) (val x) S Ex (sound_b_sound f10000 eq_refl) ltac:(vm_compute; reflexivity)).
    cbn [exact] in B. rewrite Ex in B. rewrite B. destruct (coded_vis vis) as [q|].
    + cbn [below]. rewrite negb_false_iff, Qle_bool_iff. split; [intro L; exists q; auto|].
      intros (q' & E & L). injection E as <-. exact L.
    + destruct N as [_ N]. discriminate (N eq_refl).
  - destruct N as [N _]. rewrite (N eq_refl). split; [discriminate|]. intros (q & E & _). discriminate.
Qed.

(** *** The whole test *)

Lemma Forall2_length : forall A B (R : A -> B -> Prop) l l', Forall2 R l l' -> length l = length l'.
Proof. intros A B R l l' H. induction H; cbn [length]; congruence. Qed.

Definition rejected (same : bool) (g : cloud_g) : bool :=
  (same && cover_in ["VV"] g) || typed g
  || match hundreds_of g with Some n => (n <? 50)%N | None => false end.

Lemma cavok_steps : forall same c vis gs, shows_vis vis (c_vis c) -> shows_clouds gs (gl_list (c_clouds c)) ->
  Forall ceiling_has_height gs ->
  (~ cavok_but_layers (gl_list (c_weathers c)) vis gs /\ should_be_cavok same c = Ok (false, c))
  \/ (cavok_but_layers (gl_list (c_weathers c)) vis gs
      /\ should_be_cavok same c =
         match gl_for (loop (cavok_rejects same)) (c_clouds c) with
         | (Some _, cs) => Ok (false, set_clouds cs c)
         | (None, cs) => Ok (true, set_clouds cs c)
         end).
Proof.
  intros same c vis gs Hv Hg Hc. unfold should_be_cavok, gl_len, cavok_but_layers.
  destruct (gl_list (c_weathers c)) as [|w ws]; [|left; split; [intros [H _]; discriminate|reflexivity]].
  cbn [length Nat.ltb Nat.leb]. rewrite (ceiling_coded gs _ Hg Hc). cbn [bind].
  assert (V := visible_enough vis (c_vis c) Hv).
  destruct (existsb _ gs) eqn:X.
  { left. split; [|reflexivity]. intros (_ & _ & _ & H). apply existsb_exists in X. destruct X as (g & G1 & G2).
    rewrite Forall_forall in H. specialize (H g G1). apply andb_true_iff in G2. destruct G2 as [G2 G3].
    destruct (hundreds_of g) as [n|]; [|discriminate]. specialize (H G2 n eq_refl). apply N.leb_le in G3. lia. }
  destruct (v_vis (c_vis c)) as [x|].
  2:{ left. split; [|reflexivity]. intros (_ & H & _). apply V in H. discriminate. }
  assert (L : length gs = length (gl_list (c_clouds c))) by (apply (Forall2_length _ _ _ _ _ Hg)).
  destruct gs as [|g0 gs].
  { left. rewrite <- L. cbn. split; [tauto|reflexivity]. }
  rewrite <- L. cbn [length Nat.eqb].
  destruct (fltb x f10000) eqn:F.
  { left. split; [|reflexivity]. intros (_ & H & _). apply V in H. congruence. }
  right. split; [|reflexivity]. split; [reflexivity|]. split; [apply V; reflexivity|]. split; [discriminate|].
  apply Forall_forall. intros g G1 G2 n Hn.
  assert (E : existsb (fun g => cover_in ["BKN"; "OVC"] g && match hundreds_of g with Some n => (n <=? 15)%N | None => false end) (g0 :: gs) = true
              \/ (15 < n)%N).
  { destruct (N.leb_spec n 15) as [K|K]; [left|right; exact K].
    apply existsb_exists. exists g. split; [exact G1|]. rewrite G2, Hn. apply N.leb_le in K. exact K. }
  destruct E as [E|E]; [congruence|exact E].
Qed.

Lemma rejected_coded : forall same gs l, shows_clouds gs l ->
  Forall2 (fun g c => cavok_rejects same c = rejected same g) gs l.
Proof.
  intros same gs l H. induction H as [|g c gs l [Hw E] H IH]; constructor; [|exact IH].
  apply rejects_coded; assumption.
Qed.

Lemma Forall2_skipn : forall A B (R : A -> B -> Prop) n l l', Forall2 R l l' -> Forall2 R (skipn n l) (skipn n l').
Proof.
  induction n as [|n IH]; intros l l' H; [exact H|]. destruct H; [constructor|]. cbn [skipn]. apply IH. assumption.
Qed.

Lemma Forall2_existsb : forall A B (p : A -> bool) (q : B -> bool) l l',
  Forall2 (fun a b => q b = p a) l l' -> existsb q l' = existsb p l.
Proof. intros A B p q l l' H. induction H as [|a b l l' E H IH]; [reflexivity|]. cbn [existsb]. rewrite E, IH. reflexivity. Qed.

(** What a call does on a report for which only the layers matter. *)
Lemma cavok_layers : forall same c vis gs, shows_vis vis (c_vis c) -> shows_clouds gs (gl_list (c_clouds c)) ->
  Forall ceiling_has_height gs -> cavok_but_layers (gl_list (c_weathers c)) vis gs ->
  (existsb (rejected same) (skipn (gl_n (c_clouds c)) gs) = false ->
   should_be_cavok same c
   = Ok (true, set_clouds (mk_gl 0 (gl_max (c_clouds c)) (gl_list (c_clouds c))) c))
  /\ (forall l1 g l2, skipn (gl_n (c_clouds c)) gs = l1 ++ g :: l2 ->
      existsb (rejected same) l1 = false -> rejected same g = true ->
      should_be_cavok same c
      = Ok (false, set_clouds (mk_gl (gl_n (c_clouds c) + length l1 + 1) (gl_max (c_clouds c))
                                     (gl_list (c_clouds c))) c)).
Proof.
  intros same c vis gs Hv Hg Hc Hb.
  destruct (cavok_steps same c vis gs Hv Hg Hc) as [[H _]|[_ ->]]; [contradiction|].
  assert (R := Forall2_skipn _ _ _ (gl_n (c_clouds c)) _ _ (rejected_coded same gs _ Hg)).
  unfold gl_for. split.
  - intro X. rewrite gl_for_none; [reflexivity|lia|lia|]. rewrite (Forall2_existsb _ _ _ _ _ _ R). exact X.
  - intros l1 g l2 E X1 X2. rewrite E in R. apply Forall2_app_inv_l in R.
    destruct R as (m1 & m2 & R1 & R2 & Em). inversion R2 as [|g' x l2' m2' Rx R3]; subst.
    rewrite (gl_for_some _ _ m1 x m2'); [|lia|exact Em| |congruence].
    + rewrite (Forall2_length _ _ _ _ _ R1). reflexivity.
    + rewrite (Forall2_existsb _ _ _ _ _ _ R1). exact X1.
Qed.

Lemma shows_wf : forall gs l, shows_clouds gs l -> Forall cloud_wf gs.
Proof. intros gs l H. induction H as [|g c gs l [Hw _] H IH]; constructor; assumption. Qed.

(** On such a report a layer is rejected exactly when it is not acceptable. *)
Lemma layers_ok : forall same gs l, shows_clouds gs l -> Forall ceiling_has_height gs -> Forall (vv_decided same) gs ->
  Forall (fun g => cover_in ["BKN"; "OVC"] g = true -> forall n, hundreds_of g = Some n -> (15 < n)%N) gs ->
  Forall (fun g => layer_ok g <-> rejected same g = false) gs.
Proof.
  intros same gs l H Hc Hv Hb. apply shows_wf in H. rewrite Forall_forall in *. intros g G.
  rewrite (layer_ok_dec same g (Hc g G) (Hv g G) (H g G)). unfold rejected. split; [tauto|]. intro T. split; [|exact T].
  destruct (cover_in ["BKN"; "OVC"] g) eqn:B; [|reflexivity]. cbn [andb].
  destruct (hundreds_of g) as [n|] eqn:N; [|reflexivity]. apply N.leb_gt. apply (Hb g G B n N).
Qed.

Lemma none_rejected : forall same gs, Forall (fun g => layer_ok g <-> rejected same g = false) gs ->
  (existsb (rejected same) gs = false <-> Forall layer_ok gs).
Proof.
  intros same gs H. induction H as [|g gs Hg H IH]; [split; [constructor|reflexivity]|].
  cbn [existsb]. rewrite orb_false_iff, IH, <- Hg. split.
  - intros [A B]. constructor; assumption.
  - intro F. inversion F; subst. split; assumption.
Qed.

Lemma cavok_rule : forall same c vis gs, gl_n (c_clouds c) = 0 ->
  shows_vis vis (c_vis c) -> shows_clouds gs (gl_list (c_clouds c)) ->
  Forall ceiling_has_height gs -> Forall (vv_decided same) gs ->
  exists b c', should_be_cavok same c = Ok (b, c')
    /\ (b = true <-> cavok_conditions (gl_list (c_weathers c)) vis gs).
Proof.
  intros same c vis gs H0 Hv Hg Hc Hd.
  assert (I : cavok_conditions (gl_list (c_weathers c)) vis gs ->
              cavok_but_layers (gl_list (c_weathers c)) vis gs).
  { intros (A & B & C & D). repeat split; try assumption.
    apply Forall_forall. rewrite Forall_forall in D. intros g G. apply (D g G). }
  destruct (cavok_steps same c vis gs Hv Hg Hc) as [[N E]|[B _]].
  { exists false, c. split; [exact E|]. split; [discriminate|]. intro K. destruct (N (I K)). }
  assert (L := layers_ok same gs _ Hg Hc Hd (proj2 (proj2 (proj2 B)))).
  assert (R := none_rejected same gs L).
  destruct (cavok_layers same c vis gs Hv Hg Hc B) as [Y N]. rewrite H0 in Y, N. cbn [skipn] in Y, N.
  destruct (existsb (rejected same) gs) eqn:X.
  - destruct (existsb_split _ _ _ X) as (l1 & g & l2 & E & X1 & X2).
    eexists. eexists. split; [apply (N l1 g l2 E X1 X2)|]. split; [discriminate|].
    intros (_ & _ & _ & F). apply R in F. discriminate.
  - eexists. eexists. split; [apply Y; reflexivity|]. split; [|reflexivity]. intros _.
    destruct B as (B1 & B2 & B3 & _). repeat split; try assumption. apply R. reflexivity.
Qed.

Lemma set_clouds_same : forall c, gl_n (c_clouds c) = 0 ->
  set_clouds (mk_gl 0 (gl_max (c_clouds c)) (gl_list (c_clouds c))) c = c.
Proof. intros [s w v ws [n m l]] H. cbn in *. subst n. reflexivity. Qed.

Lemma skipn_mid : forall A (l1 : list A) x l2, skipn (length l1 + 1) (l1 ++ x :: l2) = l2.
Proof. intros A l1 x l2. induction l1 as [|y l1 IH]; [reflexivity|exact IH]. Qed.

Lemma cavok_twice : forall same c vis gs, gl_n (c_clouds c) = 0 ->
  shows_vis vis (c_vis c) -> shows_clouds gs (gl_list (c_clouds c)) ->
  Forall ceiling_has_height gs -> Forall (vv_decided same) gs ->
  (~ (cavok_but_layers (gl_list (c_weathers c)) vis gs /\ one_bad_layer gs) ->
   exists b c1 c2, should_be_cavok same c = Ok (b, c1) /\ should_be_cavok same c1 = Ok (b, c2))
  /\ ((cavok_but_layers (gl_list (c_weathers c)) vis gs /\ one_bad_layer gs) ->
   exists c1 c2, should_be_cavok same c = Ok (false, c1) /\ should_be_cavok same c1 = Ok (true, c2)).
Proof.
  intros same c vis gs H0 Hv Hg Hc Hd.
  destruct (cavok_steps same c vis gs Hv Hg Hc) as [[N E]|[B _]].
  { split; [|tauto]. intros _. exists false, c, c. split; exact E. }
  assert (L := layers_ok same gs _ Hg Hc Hd (proj2 (proj2 (proj2 B)))).
  destruct (cavok_layers same c vis gs Hv Hg Hc B) as [Y N]. rewrite H0 in Y, N. cbn [skipn] in Y, N.
  assert (Two : forall l1 g l2, gs = l1 ++ g :: l2 -> existsb (rejected same) l1 = false ->
    rejected same g = true -> exists c1, should_be_cavok same c = Ok (false, c1)
      /\ (existsb (rejected same) l2 = true -> exists c2, should_be_cavok same c1 = Ok (false, c2))
      /\ (existsb (rejected same) l2 = false -> exists c2, should_be_cavok same c1 = Ok (true, c2))).
  { intros l1 g l2 E X1 X2. eexists. split; [apply (N l1 g l2 E X1 X2)|].
    match goal with |- context [should_be_cavok same ?x] =>
      destruct (cavok_layers same x vis gs Hv Hg Hc B) as [Y' N'] end.
    cbn [set_clouds c_clouds gl_n Nat.add] in Y', N'.
    rewrite E, skipn_mid in Y', N'. split; intro X.
    - destruct (existsb_split _ _ _ X) as (k1 & k & k2 & K & K1 & K2). eexists. apply (N' k1 k k2 K K1 K2).
    - eexists. apply Y'. exact X. }
  destruct (existsb (rejected same) gs) eqn:X.
  - destruct (existsb_split _ _ _ X) as (l1 & g & l2 & E & X1 & X2).
    destruct (Two l1 g l2 E X1 X2) as (c1 & T1 & T2 & T3).
    assert (L' := L). rewrite E in L'. apply Forall_app in L'. destruct L' as [L1 L2].
    inversion L2 as [|g' l2' Lg L3]; subst g' l2'.
    destruct (existsb (rejected same) l2) eqn:X3.
    + destruct (T2 eq_refl) as (c2 & T4). split; [intros _; exists false, c1, c2; auto|].
      intros [_ (m1 & h & m2 & F & M1 & Mh & M2)]. exfalso.
      (* two rejected layers *)
      assert (Hgl : In g gs) by (rewrite E; apply in_elt).
      assert (C : length (filter (rejected same) gs) = 1).
      { rewrite F, filter_app. cbn [filter].
        assert (L'' := L). rewrite F in L''. apply Forall_app in L''. destruct L'' as [P1 P2].
        inversion P2 as [|h' m2' Ph P3]; subst h' m2'.
        assert (Z : forall m, Forall (fun g => layer_ok g <-> rejected same g = false) m -> Forall layer_ok m ->
                    filter (rejected same) m = []).
        { clear. intros m A B. induction A as [|x m Ax A IH]; [reflexivity|]. inversion B; subst.
          cbn [filter]. replace (rejected same x) with false by (symmetry; apply Ax; assumption). apply IH. assumption. }
        rewrite (Z m1 P1 M1), (Z m2 P3 M2).
        destruct (rejected same h) eqn:Rh; [reflexivity|]. destruct Mh. apply Ph. reflexivity. }
      rewrite E, filter_app in C. cbn [filter] in C. rewrite X2 in C.
      apply existsb_exists in X3. destruct X3 as (k & K1 & K2).
      assert (K3 : In k (filter (rejected same) l2)) by (apply filter_In; auto).
      rewrite app_length in C. cbn [length] in C. destruct (filter (rejected same) l2); [destruct K3|cbn in C; lia].
    + destruct (T3 eq_refl) as (c2 & T4). split; [|intros _; exists c1, c2; auto].
      intro K. destruct K. split; [exact B|]. exists l1, g, l2. split; [exact E|].
      split; [apply (none_rejected same); assumption|]. split; [rewrite Lg; congruence|].
      apply (none_rejected same); assumption.
  - split.
    + intros _. specialize (Y eq_refl). rewrite set_clouds_same in Y by exact H0. exists true, c, c. split; exact Y.
    + intros [_ (m1 & h & m2 & F & _ & Mh & _)]. exfalso. apply (none_rejected same) in X; [|exact L].
      apply Mh. rewrite Forall_forall in X. apply X. rewrite F. apply in_elt.
Qed.

Lemma cavok_total : forall same c vis gs, shows_vis vis (c_vis c) -> shows_clouds gs (gl_list (c_clouds c)) ->
  Forall ceiling_has_height gs -> exists b c', should_be_cavok same c = Ok (b, c').
Proof.
  intros same c vis gs Hv Hg Hc. destruct (cavok_steps same c vis gs Hv Hg Hc) as [[_ E]|[_ E]].
  - eauto.
  - rewrite E. destruct (gl_for _ _) as [[u|] cs]; eauto.
Qed.

(** ** Compass points *)

Lemma find_edges : forall (x : float) q (l : list (str * (float * float))) (pts : list string) i,
  sound x -> (val x == q)%Q ->
  Forall2 (fun '(n, (a, b)) '(p, j) => n = py p /\ sound a /\ sound b
      /\ (val a == (45 # 2) * inject_Z (Z.of_nat j) - (45 # 4))%Q
      /\ (val b == (45 # 2) * inject_Z (Z.of_nat j) + (45 # 4))%Q) l (combine pts (seq i (length pts))) ->
  ((45 # 2) * inject_Z (Z.of_nat i) - (45 # 4) <= q)%Q ->
  (q < (45 # 2) * inject_Z (Z.of_nat (i + length pts)) - (45 # 4))%Q ->
  exists j p e, find (fun '(_, (a, b)) => fleb a x && fltb x b) l = Some (py p, e)
    /\ nth_error pts j = Some p
    /\ ((45 # 2) * inject_Z (Z.of_nat (i + j)) - (45 # 4) <= q)%Q
    /\ (q < (45 # 2) * inject_Z (Z.of_nat (i + j)) + (45 # 4))%Q.
Proof.
  intros x q l pts. revert l. induction pts as [|p pts IH]; intros l i Sx Ex H Lo Hi.
  - cbn [length] in Hi. rewrite Nat.add_0_r in Hi. lra.
  - cbn [length seq combine] in H. inversion H as [|nab pj l' l2 Hh H']; subst. destruct nab as [n [a b]]. destruct Hh as (E1 & Sa & Sb & Va & Vb). subst n.
    cbn [find]. rewrite (fleb_exact a x _ q Sa Sx Va Ex), (fltb_exact x b q _ Sx Sb Ex Vb).
    destruct (Qle_bool _ q) eqn:A; cbn [andb].
    2:{ assert (~ ((45 # 2) * inject_Z (Z.of_nat i) - (45 # 4) <= q)%Q) by (rewrite <- Qle_bool_iff; congruence).
        contradiction. }
    destruct (Qle_bool ((45 # 2) * inject_Z (Z.of_nat i) + (45 # 4)) q) eqn:B; cbn [negb].
    + apply Qle_bool_iff in B.
      assert (S1 : (inject_Z (Z.of_nat (S i)) == inject_Z (Z.of_nat i) + 1)%Q).
      { rewrite Nat2Z.inj_succ, <- Z.add_1_r, inject_Z_plus. reflexivity. }
      destruct (IH l' (S i) Sx Ex H') as (j & p' & e & F & G & K1 & K2).
      * rewrite S1. lra.
      * replace (S i + length pts) with (i + length (p :: pts)) by (cbn; lia). exact Hi.
      * exists (S j), p', e. split; [exact F|]. split; [exact G|].
        replace (i + S j) with (S i + j) by lia. split; assumption.
    + exists 0, p, (a, b). rewrite Nat.add_0_r. split; [reflexivity|]. split; [reflexivity|].
      apply Qle_bool_iff in A. split; [exact A|].
      apply Qnot_le_lt. rewrite <- Qle_bool_iff. congruence.
Qed.

Lemma compass_edges :
  Forall2 (fun '(n, (a, b)) '(p, j) => n = py p /\ sound a /\ sound b
      /\ (val a == (45 # 2) * inject_Z (Z.of_nat j) - (45 # 4))%Q
      /\ (val b == (45 # 2) * inject_Z (Z.of_nat j) + (45 # 4))%Q)
    (removelast COMPASS_DIRS) (combine (tl points16) (seq 1 (length (tl points16)))).
Proof.
  cbn [removelast COMPASS_DIRS combine tl points16 seq length].
  repeat (apply Forall2_cons; [split; [reflexivity|];
    split; [apply sound_b_sound; vm_compute; reflexivity|];
    split; [apply sound_b_sound; vm_compute; reflexivity|]; split; vm_compute; reflexivity|]).
  apply Forall2_nil.
Qed.

Lemma normal_nrm : forall x, normal x -> (0 <= val x)%Q ->
  sound x /\ fmul x (float_of_Z 1) = x.
Proof.
  intros x H P. change (float_of_Z 1) with one. destruct x as [s|s| |s m e]; try destruct H.
  - split; [split; [reflexivity|eexists; reflexivity]|]. destruct s; reflexivity.
  - destruct s.
    + exfalso. rewrite val_neg in P. assert (M := mag_pos m e). lra.
    + assert (N : nrm 900 (S754_finite false m e)).
      { exists m, e. split; [reflexivity|]. split; [assumption|]. lia. }
      split; [split; [apply (nrm_fvalid 900); [exact N|lia]|eexists; reflexivity]|].
      apply (fmul_one 900); [exact N|lia].
Qed.

Lemma find_prefix : forall A (p : A -> bool) l x, find p (removelast l) = Some x -> find p l = Some x.
Proof.
  induction l as [|y l IH]; intros x H; [discriminate|]. cbn [removelast] in H.
  destruct l as [|z l]; [discriminate|]. cbn [find] in *. destruct (p y); [exact H|]. apply IH. exact H.
Qed.

Lemma cardinal_sector : forall x q var, normal x -> fvalue x = Some q -> (0 <= q <= 360 # 1)%Q ->
  exists i p, nth_error points16 i = Some p /\ in_sector i q /\ cardinal (mk_dir (Some x) var) = Some (py p).
Proof.
  intros x q var H E [Lo Hi].
  assert (Ex : (val x == q)%Q) by (unfold val; rewrite E; reflexivity).
  destruct (normal_nrm x H) as [Sx Mx]; [rewrite Ex; exact Lo|].
  unfold cardinal, converted, option_map. cbn [dir_value]. rewrite Mx.
  rewrite (fleb_exact f348_75 x (1395 # 4) q (sound_b_sound f348_75 ltac:(vm_compute; reflexivity)) Sx ltac:(vm_compute; reflexivity) Ex).
  rewrite (fltb_exact x f11_25 q (45 # 4) Sx (sound_b_sound f11_25 ltac:(vm_compute; reflexivity)) Ex ltac:(vm_compute; reflexivity)).
  destruct (Qle_bool (1395 # 4) q) eqn:A; cbn [orb].
  { exists 0, "N". split; [reflexivity|]. split; [|reflexivity]. exists (-1)%Z. apply Qle_bool_iff in A.
    change (inject_Z (Z.of_nat 0)) with 0%Q. change (inject_Z (-1)) with (-1 # 1)%Q. lra. }
  destruct (Qle_bool (45 # 4) q) eqn:B; cbn [negb].
  2:{ exists 0, "N". split; [reflexivity|]. split; [|reflexivity]. exists 0%Z.
      assert (~ ((45 # 4) <= q)%Q) by (rewrite <- Qle_bool_iff; congruence).
      change (inject_Z (Z.of_nat 0)) with 0%Q. change (inject_Z 0) with 0%Q. lra. }
  apply Qle_bool_iff in B. assert (A' : (~ (1395 # 4) <= q)%Q) by (rewrite <- Qle_bool_iff; congruence).
  destruct (find_edges x q (removelast COMPASS_DIRS) (tl points16) 1 Sx Ex compass_edges) as (j & p & e & F & G & K1 & K2).
  - change (inject_Z (Z.of_nat 1)) with 1%Q. lra.
  - change (inject_Z (Z.of_nat (1 + length (tl points16)))) with (16 # 1)%Q. lra.
  - exists (S j), p. split; [exact G|]. split.
    + exists 0%Z. change (inject_Z 0) with 0%Q. change (1 + j) with (S j) in K1, K2. lra.
    + apply find_prefix in F. rewrite F. reflexivity.
Qed.

Lemma sector_unique : forall i j q, i < 16 -> j < 16 -> in_sector i q -> in_sector j q -> i = j.
Proof.
  intros i j q Hi Hj [k [K1 K2]] [k' [K3 K4]].
  assert (A : ((45 # 2) * inject_Z (Z.of_nat i) - (360 # 1) * inject_Z k
              < (45 # 2) * inject_Z (Z.of_nat j) - (360 # 1) * inject_Z k' + (45 # 2))%Q) by lra.
  assert (B : ((45 # 2) * inject_Z (Z.of_nat j) - (360 # 1) * inject_Z k'
              < (45 # 2) * inject_Z (Z.of_nat i) - (360 # 1) * inject_Z k + (45 # 2))%Q) by lra.
  assert (A' : (inject_Z (Z.of_nat i - 16 * k) < inject_Z (Z.of_nat j - 16 * k' + 1))%Q).
  { unfold Z.sub. rewrite !inject_Z_plus, !inject_Z_opp, !inject_Z_mult.
    change (inject_Z 16) with (16 # 1)%Q. change (inject_Z 1) with 1%Q. lra. }
  assert (B' : (inject_Z (Z.of_nat j - 16 * k') < inject_Z (Z.of_nat i - 16 * k + 1))%Q).
  { unfold Z.sub. rewrite !inject_Z_plus, !inject_Z_opp, !inject_Z_mult.
    change (inject_Z 16) with (16 # 1)%Q. change (inject_Z 1) with 1%Q. lra. }
  rewrite <- Zlt_Qlt in A', B'. lia.
Qed.

Definition point_b (p : string) : bool :=
  match from_cardinal (py p) with
  | Ok d => opt_str_b (cardinal d) (Some (py p)) && negb (dir_variable d)
  | Raise _ => false
  end.

Lemma from_cardinal_points : forall p, In p points16 ->
  exists d, from_cardinal (py p) = Ok d /\ cardinal d = Some (py p) /\ dir_variable d = false.
Proof.
  intros p H. assert (F : forallb point_b points16 = true) by (vm_compute; reflexivity).
  rewrite forallb_forall in F. specialize (F p H). unfold point_b in F.
  destruct (from_cardinal (py p)) as [d|e]; [|discriminate]. apply andb_true_iff in F. destruct F as [F1 F2].
  exists d. split; [reflexivity|]. split; [apply opt_str_b_sound; exact F1|apply negb_true_iff; exact F2].
Qed.

(** Degrees: the whole number nearest to the middle of the sector. *)
Definition degrees_b (i : nat) (p : string) : bool :=
  match from_cardinal (py p) with
  | Ok d => match exact (dir_value d) with
            | Some q => Qle_bool (Qabs (q - (45 # 2) * inject_Z (Z.of_nat (if Nat.eqb i 0 then 16 else i)))) (1 # 2)
                        && Z.eqb (Qnum q mod Zpos (Qden q)) 0
            | None => false
            end
  | Raise _ => false
  end.

Lemma from_cardinal_degrees : forall i p, nth_error points16 i = Some p ->
  exists d x z, from_cardinal (py p) = Ok d /\ dir_value d = Some x /\ (val x == inject_Z z)%Q
    /\ (Qabs (inject_Z z - (45 # 2) * inject_Z (Z.of_nat (if Nat.eqb i 0 then 16 else i))) <= 1 # 2)%Q.
Proof.
  intros i p H. assert (L : i < length points16) by (apply nth_error_Some; congruence). change (length points16) with 16 in L.
  assert (F : forallb (fun i => match nth_error points16 i with Some p => degrees_b i p | None => true end) (seq 0 16) = true)
    by (vm_compute; reflexivity).
  rewrite forallb_forall in F. specialize (F i). rewrite H in F.
  assert (I : In i (seq 0 16)) by (apply in_seq; lia). specialize (F I). unfold degrees_b in F.
  destruct (from_cardinal (py p)) as [d|e]; [|discriminate].
  destruct (dir_value d) as [x|] eqn:X; [|discriminate]. cbn [exact] in F.
  destruct (fvalue x) as [q|] eqn:V; [|discriminate].
  apply andb_true_iff in F. destruct F as [F1 F2]. apply Z.eqb_eq in F2. apply Qle_bool_iff in F1.
  assert (Eq : (q == inject_Z (Qnum q / Zpos (Qden q)))%Q).
  { destruct q as [n d']. unfold Qeq, inject_Z, Qnum, Qden in *.
    rewrite (Z_div_mod_eq_full n (Zpos d')) at 1. rewrite F2. lia. }
  exists d, x, (Qnum q / Zpos (Qden q))%Z. split; [reflexivity|]. split; [exact X|]. split.
  - unfold val. rewrite V. exact Eq.
  - rewrite <- Eq. exact F1.
Qed.

Lemma from_cardinal_others : forall s, ~ In s (map py points16) -> from_cardinal s = Raise ValueError.
Proof.
  intros s H. unfold from_cardinal.
  destruct (str_eqb s (py "N")) eqn:N.
  { apply str_eqb_eq in N. destruct H. subst s. left. reflexivity. }
  assert (A : forall l, (forall k, In k (map fst l) -> In k (map py points16)) -> assoc s l = @None (float * float)).
  { induction l as [|[k v] l IH]; intro K; [reflexivity|]. cbn [assoc].
    destruct (str_eqb s k) eqn:E.
    - apply str_eqb_eq in E. destruct H. apply K. left. symmetry. exact E.
    - apply IH. intros k' Hk. apply K. right. exact Hk. }
  rewrite A; [reflexivity|]. intros k Hk. cbn in Hk.
  repeat (destruct Hk as [<-|Hk]; [cbn; tauto|]). destruct Hk.
Qed.
