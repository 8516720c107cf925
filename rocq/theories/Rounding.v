(** * Correct rounding of the binary64 specification

    [SpecFloat] is executable but comes without a statement of what it
    computes.  Here: rounding a rational number (in the normal range) gives
    its nearest 53 bit neighbour, ties to even; so it depends on the rational
    only, not on how it is written.  This is what reading a decimal back
    relies on. *)
From Coq Require Import ZArith Bool Lia.
From Coq Require Import Floats.SpecFloat.
Local Open Scope Z_scope.

(** ** Locating a fraction among the integers *)

(** [a / b] has integer part [m]; [r]: its fractional part is at least one
    half; [s]: it is neither zero nor one half. *)
Definition located (a b : Z) (x : shr_record) : Prop :=
  0 < b /\ 0 <= shr_m x /\ 0 <= a - shr_m x * b < b
  /\ shr_r x = (b <=? 2 * (a - shr_m x * b))
  /\ shr_s x = negb ((a - shr_m x * b =? 0) || (2 * (a - shr_m x * b) =? b)).

Lemma located_eq : forall a b a' b' x, a = a' -> b = b' -> located a b x -> located a' b' x.
Proof. intros; subst; assumption. Qed.

Lemma located_scale : forall c a b x, 0 < c -> located a b x <-> located (c * a) (c * b) x.
Proof.
  intros c a b [m r s] Hc. unfold located. cbn [shr_m shr_r shr_s].
  replace (c * a - m * (c * b)) with (c * (a - m * b)) by ring.
  set (k := a - m * b).
  replace (2 * (c * k)) with (c * (2 * k)) by ring.
  assert (E1 : (c * b <=? c * (2 * k)) = (b <=? 2 * k)).
  { destruct (b <=? 2 * k) eqn:E.
    - apply Z.leb_le in E. apply Z.leb_le. nia.
    - apply Z.leb_gt in E. apply Z.leb_gt. nia. }
  assert (E2 : (c * k =? 0) = (k =? 0)).
  { destruct (k =? 0) eqn:E.
    - apply Z.eqb_eq in E. apply Z.eqb_eq. nia.
    - apply Z.eqb_neq in E. apply Z.eqb_neq. nia. }
  assert (E3 : (c * (2 * k) =? c * b) = (2 * k =? b)).
  { destruct (2 * k =? b) eqn:E.
    - apply Z.eqb_eq in E. apply Z.eqb_eq. nia.
    - apply Z.eqb_neq in E. apply Z.eqb_neq. nia. }
  rewrite E1, E2, E3.
  split; intros (H1 & H2 & H3 & H4 & H5); repeat split; auto; nia.
Qed.

Lemma located_half : forall a b x, located a b x -> located a (2 * b) (shr_1 x).
Proof.
  intros a b [m r s] (Hb & Hm & Hk & Hr & Hs). cbn [shr_m shr_r shr_s] in *.
  assert (E : exists h (o : bool), shr_1 (Build_shr_record m r s) = Build_shr_record h o (r || s)
              /\ m = 2 * h + (if o then 1 else 0) /\ 0 <= h).
  { destruct m as [|[p|p|]|p]; cbn [shr_1].
    - exists 0, false. repeat split; lia.
    - exists (Zpos p), true. repeat split; lia.
    - exists (Zpos p), false. repeat split; lia.
    - exists 0, true. repeat split; lia.
    - lia. }
  destruct E as (h & o & -> & Em & Hh). unfold located. cbn [shr_m shr_r shr_s].
  set (k := a - m * b) in *.
  replace (a - h * (2 * b)) with (k + (if o then b else 0)).
  2:{ unfold k. rewrite Em. destruct o; ring. }
  repeat split; auto; try lia.
  - destruct o; lia.
  - destruct o; lia.
  - destruct o; symmetry; [apply Z.leb_le|apply Z.leb_gt]; lia.
  - rewrite Hr, Hs.
    destruct (k =? 0) eqn:E1; [apply Z.eqb_eq in E1|apply Z.eqb_neq in E1].
    + rewrite E1. replace (b <=? 2 * 0) with false by (symmetry; apply Z.leb_gt; lia).
      cbn [orb negb]. destruct o.
      * replace (0 + b =? 0) with false by (symmetry; apply Z.eqb_neq; lia).
        replace (2 * (0 + b) =? 2 * b) with true by (symmetry; apply Z.eqb_eq; lia). reflexivity.
      * reflexivity.
    + cbn [orb]. replace ((b <=? 2 * k) || negb (2 * k =? b)) with true.
      2:{ destruct (b <=? 2 * k) eqn:E2; auto. apply Z.leb_gt in E2.
          replace (2 * k =? b) with false by (symmetry; apply Z.eqb_neq; lia). reflexivity. }
      destruct o.
      * replace (k + b =? 0) with false by (symmetry; apply Z.eqb_neq; lia).
        replace (2 * (k + b) =? 2 * b) with false by (symmetry; apply Z.eqb_neq; lia). reflexivity.
      * replace (k + 0 =? 0) with false by (symmetry; apply Z.eqb_neq; lia).
        replace (2 * (k + 0) =? 2 * b) with false by (symmetry; apply Z.eqb_neq; lia). reflexivity.
Qed.

Lemma located_unique : forall a b x y, located a b x -> located a b y -> x = y.
Proof.
  intros a b [m r s] [m' r' s'] (Hb & Hm & Hk & Hr & Hs) (_ & Hm' & Hk' & Hr' & Hs').
  cbn [shr_m shr_r shr_s] in *. assert (m = m') by nia. subst m'. congruence.
Qed.

Lemma located_new : forall a b, 0 <= a -> 0 < b ->
  located a b (shr_record_of_loc (a / b) (new_location b (a mod b))).
Proof.
  intros a b Ha Hb. assert (Hd := Z.div_mod a b ltac:(lia)).
  assert (Hr := Z.mod_pos_bound a b Hb). assert (Hq := Z.div_pos a b Ha Hb).
  set (q := a / b) in *. set (k := a mod b) in *.
  assert (Ek : a - q * b = k) by lia.
  unfold new_location, new_location_even, new_location_odd.
  destruct (Z.even b) eqn:Eb.
  - destruct (Zeq_bool k 0) eqn:E0.
    + apply Zeq_bool_eq in E0. unfold located. cbn [shr_record_of_loc shr_m shr_r shr_s].
      rewrite Ek, E0. repeat split; auto; lia.
    + apply Zeq_bool_neq in E0.
      destruct (Z.compare_spec (2 * k) b) as [H|H|H]; unfold located;
        cbn [shr_record_of_loc shr_m shr_r shr_s]; rewrite Ek; repeat split; auto; lia.
  - assert (Hodd : exists z, b = 2 * z + 1).
    { rewrite <- Z.negb_odd in Eb. apply negb_false_iff in Eb. apply Z.odd_spec in Eb. exact Eb. }
    destruct Hodd as [z Hz].
    destruct (Zeq_bool k 0) eqn:E0.
    + apply Zeq_bool_eq in E0. unfold located. cbn [shr_record_of_loc shr_m shr_r shr_s].
      rewrite Ek, E0. repeat split; auto; lia.
    + apply Zeq_bool_neq in E0.
      destruct (Z.compare_spec (2 * k + 1) b) as [H|H|H]; unfold located;
        cbn [shr_record_of_loc shr_m shr_r shr_s]; rewrite Ek; repeat split; auto; lia.
Qed.

Lemma located_exact : forall m, 0 <= m -> located m 1 (shr_record_of_loc m loc_Exact).
Proof.
  intros m Hm. unfold located. cbn [shr_record_of_loc shr_m shr_r shr_s].
  replace (m - m * 1) with 0 by ring. repeat split; auto; lia.
Qed.

(** ** The fraction [n/d] seen at exponent [e], i.e. [n/d / 2^e] *)

Definition numer (n e : Z) : Z := n * 2 ^ Z.max 0 (- e).
Definition denom (d e : Z) : Z := d * 2 ^ Z.max 0 e.
Definition seen (n d e : Z) (x : shr_record) : Prop := located (numer n e) (denom d e) x.

Lemma seen_step : forall n d e x, seen n d e x -> seen n d (e + 1) (shr_1 x).
Proof.
  intros n d e x H. unfold seen in *. apply located_half in H.
  unfold numer, denom in *. destruct (Z_lt_le_dec e 0) as [He|He].
  - replace (Z.max 0 (- e)) with (1 + Z.max 0 (- (e + 1))) in H by lia.
    rewrite Z.pow_add_r in H by lia. apply (located_scale 2); [lia|].
    replace (Z.max 0 e) with 0 in H by lia. replace (Z.max 0 (e + 1)) with 0 by lia.
    refine (located_eq _ _ _ _ _ _ _ H); rewrite ?Z.pow_1_r; ring.
  - replace (Z.max 0 (e + 1)) with (1 + Z.max 0 e) by lia.
    rewrite Z.pow_add_r by lia.
    replace (Z.max 0 (- (e + 1))) with (Z.max 0 (- e)) by lia.
    refine (located_eq _ _ _ _ _ _ _ H); rewrite ?Z.pow_1_r; ring.
Qed.

Lemma seen_iter : forall p n d e x, seen n d e x -> seen n d (e + Zpos p) (iter_pos shr_1 p x).
Proof.
  induction p as [p IH|p IH|]; intros n d e x H; cbn [iter_pos].
  - replace (e + Zpos (xI p)) with (e + 1 + Zpos p + Zpos p) by lia.
    apply IH, IH, seen_step, H.
  - replace (e + Zpos (xO p)) with (e + Zpos p + Zpos p) by lia. apply IH, IH, H.
  - apply seen_step, H.
Qed.

Lemma seen_shr : forall n d e x k, 0 <= k -> seen n d e x ->
  exists y, shr x e k = (y, e + k) /\ seen n d (e + k) y.
Proof.
  intros n d e x [|p|p] Hk H; try lia.
  - exists x. rewrite Z.add_0_r. auto.
  - exists (iter_pos shr_1 p x). split; [reflexivity|]. apply seen_iter. exact H.
Qed.

(** The view depends on the rational only. *)
Lemma seen_rational : forall n d n' d' e x, 0 < d -> 0 < d' -> 0 <= n -> n * d' = n' * d ->
  seen n d e x -> seen n' d' e x.
Proof.
  intros n d n' d' e x Hd Hd' Hn E H. unfold seen in *.
  apply (located_scale d' _ _ _ Hd') in H. apply (located_scale d); [exact Hd|].
  unfold numer, denom in *. refine (located_eq _ _ _ _ _ _ _ H); nia.
Qed.

(** ** Digits *)

Lemma digits2_bound : forall p, 2 ^ (Zpos (digits2_pos p) - 1) <= Zpos p < 2 ^ Zpos (digits2_pos p).
Proof.
  induction p as [p IH|p IH|]; cbn [digits2_pos].
  - rewrite Pos2Z.inj_succ. replace (Z.succ (Zpos (digits2_pos p)) - 1) with (Zpos (digits2_pos p)) by lia.
    rewrite Z.pow_succ_r by lia.
    replace (2 ^ Zpos (digits2_pos p)) with (2 * 2 ^ (Zpos (digits2_pos p) - 1)) in *.
    2:{ rewrite <- Z.pow_succ_r by lia. f_equal. lia. }
    lia.
  - rewrite Pos2Z.inj_succ. replace (Z.succ (Zpos (digits2_pos p)) - 1) with (Zpos (digits2_pos p)) by lia.
    rewrite Z.pow_succ_r by lia.
    replace (2 ^ Zpos (digits2_pos p)) with (2 * 2 ^ (Zpos (digits2_pos p) - 1)) in *.
    2:{ rewrite <- Z.pow_succ_r by lia. f_equal. lia. }
    lia.
  - cbn. lia.
Qed.

Lemma zdigits_bound : forall m, 0 < m -> 0 < Zdigits2 m /\ 2 ^ (Zdigits2 m - 1) <= m < 2 ^ Zdigits2 m.
Proof. intros [|p|p] H; try lia. cbn [Zdigits2]. split; [lia|apply digits2_bound]. Qed.

Lemma pow2_unique : forall a b m, 0 < a -> 0 < b ->
  2 ^ (a - 1) <= m < 2 ^ a -> 2 ^ (b - 1) <= m < 2 ^ b -> a = b.
Proof.
  intros a b m Ha Hb [H1 H2] [H3 H4].
  assert (H5 : 2 ^ (a - 1) < 2 ^ b) by lia. assert (H6 : 2 ^ (b - 1) < 2 ^ a) by lia.
  apply Z.pow_lt_mono_r_iff in H5; try lia. apply Z.pow_lt_mono_r_iff in H6; lia.
Qed.

Lemma zdigits_eq : forall m k, 0 < k -> 2 ^ (k - 1) <= m < 2 ^ k -> Zdigits2 m = k.
Proof.
  intros m k Hk H. assert (Hm : 0 < m).
  { assert (0 < 2 ^ (k - 1)) by (apply Z.pow_pos_nonneg; lia). lia. }
  destruct (zdigits_bound m Hm) as [H1 H2]. exact (pow2_unique _ _ m H1 Hk H2 H).
Qed.

(** ** Rounding *)

Definition nearest (x : shr_record) : Z := round_nearest_even (shr_m x) (loc_of_shr_record x).

(** [M * 2^E] is the 53 bit number nearest to [n/d], ties to even. *)
Definition rounds (n d M E : Z) : Prop :=
  exists x e, seen n d e x /\ 2 ^ 52 <= shr_m x < 2 ^ 53
    /\ ((nearest x < 2 ^ 53 /\ M = nearest x /\ E = e)
        \/ (nearest x = 2 ^ 53 /\ M = 2 ^ 52 /\ E = e + 1)).

Lemma nearest_bound : forall x, shr_m x <= nearest x <= shr_m x + 1.
Proof.
  intros [m r s]. unfold nearest. cbn [shr_m]. destruct r, s; cbn; try lia.
  destruct (Z.even m); lia.
Qed.

Lemma rounds_rational : forall n d n' d' M E, 0 < d -> 0 < d' -> 0 <= n -> n * d' = n' * d ->
  rounds n d M E -> rounds n' d' M E.
Proof.
  intros n d n' d' M E Hd Hd' Hn He (x & e & H1 & H2 & H3).
  exists x, e. split; [|auto]. exact (seen_rational n d n' d' e x Hd Hd' Hn He H1).
Qed.

Lemma seen_pow : forall n d e x k y, 0 <= k -> seen n d e x -> seen n d (e + k) y ->
  shr_m x >= shr_m y * 2 ^ k.
Proof.
  intros n d e x k y Hk Hx. revert y. pattern k. apply natlike_ind; [| |exact Hk].
  - intros y Hy. rewrite Z.add_0_r in Hy. rewrite (located_unique _ _ _ _ Hx Hy). lia.
  - intros j Hj IH y Hy. unfold Z.succ in Hy.
    destruct (seen_shr n d e x j Hj Hx) as (z & _ & Hz).
    specialize (IH z Hz). assert (Hz0 : 0 <= shr_m z) by (destruct Hz as (_ & Hm & _); exact Hm).
    apply seen_step in Hz.
    replace (e + j + 1) with (e + (j + 1)) in Hz by lia.
    rewrite (located_unique _ _ _ _ Hy Hz). rewrite Z.pow_succ_r by lia.
    assert (Hp : 0 < 2 ^ j) by (apply Z.pow_pos_nonneg; lia).
    assert (Hh : 2 * shr_m (shr_1 z) <= shr_m z).
    { clear - Hz0. destruct z as [[|[p|p|]|[p|p|]] r s]; cbn in *; lia. }
    nia.
Qed.

Lemma rounds_unique : forall n d M E M' E', rounds n d M E -> rounds n d M' E' -> M = M' /\ E = E'.
Proof.
  intros n d M E M' E' (x & e & H1 & H2 & H3) (x' & e' & H1' & H2' & H3').
  assert (He : e = e').
  { destruct (Z.lt_trichotomy e e') as [H|[H|H]]; auto; exfalso.
    - replace e' with (e + (e' - e)) in H1' by lia.
      assert (Hp := seen_pow n d e x (e' - e) x' ltac:(lia) H1 H1').
      assert (Hq : 2 ^ 1 <= 2 ^ (e' - e)) by (apply Z.pow_le_mono_r; lia). nia.
    - replace e with (e' + (e - e')) in H1 by lia.
      assert (Hp := seen_pow n d e' x' (e - e') x ltac:(lia) H1' H1).
      assert (Hq : 2 ^ 1 <= 2 ^ (e - e')) by (apply Z.pow_le_mono_r; lia). nia. }
  subst e'. rewrite (located_unique _ _ _ _ H1 H1') in *.
  destruct H3 as [(A & B & C)|(A & B & C)], H3' as [(A' & B' & C')|(A' & B' & C')]; subst;
    try (rewrite A' in A); try (rewrite A in A'); split; lia.
Qed.

Definition finish (s : bool) (M E : Z) : spec_float :=
  if E <=? 971 then S754_finite s (Z.to_pos M) E else S754_infinity s.

Lemma fexp_normal : forall k, -1021 <= k -> fexp 53 1024 k = k - 53.
Proof. intros k H. unfold fexp, emin. lia. Qed.

Lemma shift_bound : forall a b a' b' m x P K, 0 < b -> 0 < b' -> 0 < K -> 0 < P ->
  a' * (b * K) = a * b' -> 0 <= a - m * b < b -> 0 <= a' - x * b' < b' ->
  P * K <= m < 2 * P * K -> P <= x < 2 * P.
Proof.
  intros a b a' b' m x P K Hb Hb' HK HP Hrel Hk Hk' Hm.
  assert (B1 : a < 2 * P * K * b).
  { assert ((m + 1) * b <= 2 * P * K * b) by (apply Z.mul_le_mono_nonneg_r; lia). lia. }
  assert (B2 : P * K * b <= a).
  { assert (P * K * b <= m * b) by (apply Z.mul_le_mono_nonneg_r; lia). lia. }
  assert (BK : 0 < b * K) by (apply Z.mul_pos_pos; lia).
  assert (A3 : a' < 2 * P * b').
  { apply (Z.mul_lt_mono_pos_r (b * K)); [exact BK|]. rewrite Hrel.
    replace (2 * P * b' * (b * K)) with (2 * P * K * b * b') by ring.
    apply Z.mul_lt_mono_pos_r; lia. }
  assert (A4 : P * b' <= a').
  { apply (Z.mul_le_mono_pos_r _ _ (b * K)); [exact BK|]. rewrite Hrel.
    replace (P * b' * (b * K)) with (P * K * b * b') by ring.
    apply Z.mul_le_mono_nonneg_r; lia. }
  split.
  - destruct (Z_lt_le_dec x P) as [H|H]; auto. exfalso.
    assert ((x + 1) * b' <= P * b') by (apply Z.mul_le_mono_nonneg_r; lia). lia.
  - destruct (Z_lt_le_dec x (2 * P)) as [H|H]; auto. exfalso.
    assert (2 * P * b' <= x * b') by (apply Z.mul_le_mono_nonneg_r; lia). lia.
Qed.

(** Rounding a located mantissa of at least 53 bits, in the normal range. *)
Lemma round_aux : forall s n d m e l,
  seen n d e (shr_record_of_loc m l) -> 2 ^ 52 <= m -> -1021 <= Zdigits2 m + e ->
  exists M E, rounds n d M E /\ binary_round_aux 53 1024 s m e l = finish s M E.
Proof.
  intros s n d m e l Hs Hm He.
  assert (Hm0 : 0 < m) by (assert (0 < 2 ^ 52) by reflexivity; lia).
  destruct (zdigits_bound m Hm0) as [Hd1 Hd2].
  assert (H53 : 53 <= Zdigits2 m).
  { destruct (Z_lt_le_dec (Zdigits2 m) 53) as [H|H]; auto. exfalso.
    assert (2 ^ Zdigits2 m <= 2 ^ 52) by (apply Z.pow_le_mono_r; lia). lia. }
  unfold binary_round_aux, shr_fexp at 1. rewrite fexp_normal by lia.
  destruct (seen_shr n d e _ (Zdigits2 m + e - 53 - e) ltac:(lia) Hs) as (x & Ex & Hx).
  rewrite Ex. set (e1 := e + (Zdigits2 m + e - 53 - e)) in *.
  assert (Hx53 : 2 ^ 52 <= shr_m x < 2 ^ 53).
  { unfold seen, located in Hs, Hx.
    (* floor of the shifted value *)
    set (k := Zdigits2 m - 53) in *. assert (Ee1 : e1 = e + k) by (unfold e1, k; lia).
    assert (Hpow : 2 ^ Zdigits2 m = 2 ^ 53 * 2 ^ k) by (rewrite <- Z.pow_add_r by (unfold k; lia); f_equal; unfold k; lia).
    assert (Hpow' : 2 ^ (Zdigits2 m - 1) = 2 ^ 52 * 2 ^ k) by (rewrite <- Z.pow_add_r by (unfold k; lia); f_equal; unfold k; lia).
    assert (Hmm : shr_m (shr_record_of_loc m l) = m) by (destruct l as [|[| |]]; reflexivity).
    rewrite Hmm in Hs. destruct Hs as (Hb & _ & Hk & _), Hx as (Hb' & Hxm & Hk' & _).
    assert (Hrel : numer n e1 * (denom d e * 2 ^ k) = numer n e * denom d e1).
    { unfold numer, denom. rewrite Ee1.
      assert (Hx1 : 2 ^ Z.max 0 (- (e + k)) * 2 ^ Z.max 0 e * 2 ^ k
                    = 2 ^ Z.max 0 (- e) * 2 ^ Z.max 0 (e + k)).
      { rewrite <- !Z.pow_add_r by lia. f_equal. lia. }
      transitivity (n * d * (2 ^ Z.max 0 (- (e + k)) * 2 ^ Z.max 0 e * 2 ^ k)); [ring|].
      rewrite Hx1. ring. }
    assert (Hk0 : 0 < 2 ^ k) by (apply Z.pow_pos_nonneg; unfold k; lia).
    set (a := numer n e) in *. set (b := denom d e) in *.
    set (a' := numer n e1) in *. set (b' := denom d e1) in *.
    rewrite Hpow in Hd2. rewrite Hpow' in Hd2.
    exact (shift_bound _ _ _ _ m (shr_m x) (2 ^ 52) (2 ^ k) Hb Hb' Hk0 eq_refl Hrel Hk Hk' Hd2). }
  assert (Hnb := nearest_bound x). fold (nearest x).
  destruct (Z_lt_le_dec (nearest x) (2 ^ 53)) as [Hn|Hn].
  - exists (nearest x), e1. split.
    + exists x, e1. split; [exact Hx|]. split; [exact Hx53|]. left. auto.
    + unfold shr_fexp. rewrite (zdigits_eq (nearest x) 53) by (cbn; lia).
      rewrite fexp_normal by (unfold e1; lia).
      replace (53 + e1 - 53 - e1) with 0 by lia. cbn [shr shr_record_of_loc shr_m].
      unfold finish. replace (1024 - 53) with 971 by reflexivity.
      destruct (nearest x) as [|p|p] eqn:En; try (exfalso; cbn in Hx53; lia).
      reflexivity.
  - assert (En : nearest x = 2 ^ 53) by lia.
    exists (2 ^ 52), (e1 + 1). split.
    + exists x, e1. split; [exact Hx|]. split; [exact Hx53|]. right. auto.
    + rewrite En. unfold shr_fexp. rewrite (zdigits_eq (2 ^ 53) 54) by (cbn; lia).
      rewrite fexp_normal by (unfold e1; lia).
      replace (54 + e1 - 53 - e1) with 1 by lia. reflexivity.
Qed.

(** ** Rounding a number close to a 53 bit number *)

Lemma seen_new : forall n d e, 0 <= n -> 0 < d ->
  exists x, seen n d e x /\ shr_m x = numer n e / denom d e.
Proof.
  intros n d e Hn Hd.
  assert (Hp : 0 < 2 ^ Z.max 0 (- e)) by (apply Z.pow_pos_nonneg; lia).
  assert (Hq : 0 < 2 ^ Z.max 0 e) by (apply Z.pow_pos_nonneg; lia).
  exists (shr_record_of_loc (numer n e / denom d e)
            (new_location (denom d e) (numer n e mod denom d e))). split.
  - apply located_new; unfold numer, denom.
    + apply Z.mul_nonneg_nonneg; lia.
    + apply Z.mul_pos_pos; lia.
  - destruct (new_location _ _) as [|[| |]]; reflexivity.
Qed.

Lemma nearest_down : forall a b x, located a b x -> 2 * (a - shr_m x * b) < b -> nearest x = shr_m x.
Proof.
  intros a b [m r s] (_ & _ & _ & Hr & _) H. cbn [shr_m shr_r] in *.
  assert (E : r = false) by (rewrite Hr; apply Z.leb_gt; exact H).
  rewrite E. destruct s; reflexivity.
Qed.
Lemma nearest_up : forall a b x, located a b x -> b < 2 * (a - shr_m x * b) ->
  nearest x = shr_m x + 1.
Proof.
  intros a b [m r s] (_ & _ & Hk & Hr & Hs) H. cbn [shr_m shr_r shr_s] in *.
  assert (E : r = true) by (rewrite Hr; apply Z.leb_le; lia).
  assert (E' : s = true).
  { rewrite Hs. apply negb_true_iff, orb_false_iff. split; apply Z.eqb_neq; lia. }
  rewrite E, E'. reflexivity.
Qed.

Lemma div_is : forall a b q, 0 < b -> q * b <= a < (q + 1) * b -> a / b = q.
Proof.
  intros a b q Hb H. symmetry. apply (Z.div_unique_pos a b q (a - b * q)); lia.
Qed.

(** Less than half a unit in the last place away; a quarter below a power
    of two. *)
Lemma rounds_close : forall n d M E, 0 <= n -> 0 < d -> 2 ^ 52 <= M < 2 ^ 53 ->
  (2 * M - 1) * denom d E < 2 * numer n E < (2 * M + 1) * denom d E ->
  (M = 2 ^ 52 -> (4 * M - 1) * denom d E < 4 * numer n E) ->
  rounds n d M E.
Proof.
  intros n d M E Hn Hd HM Hc Hq.
  destruct (seen_new n d E Hn Hd) as (x & Hx & Em).
  assert (Hb : 0 < denom d E) by (destruct Hx as (Hb & _); exact Hb).
  destruct (Z_le_gt_dec (M * denom d E) (numer n E)) as [Hle|Hgt].
  - assert (EM : shr_m x = M) by (rewrite Em; apply div_is; lia).
    assert (En : nearest x = M) by (rewrite <- EM; apply (nearest_down _ _ _ Hx); rewrite EM; lia).
    exists x, E. split; [exact Hx|]. split; [lia|]. left. lia.
  - destruct (Z.eq_dec M (2 ^ 52)) as [EM|NM].
    + specialize (Hq EM).
      destruct (seen_new n d (E - 1) Hn Hd) as (y & Hy & Ey).
      assert (Hb' : 0 < denom d (E - 1)) by (destruct Hy as (Hb' & _); exact Hb').
      assert (Hrel : numer n (E - 1) * denom d E = 2 * numer n E * denom d (E - 1)).
      { unfold numer, denom.
        assert (Hp : 2 ^ Z.max 0 (- (E - 1)) * 2 ^ Z.max 0 E
                     = 2 * (2 ^ Z.max 0 (- E) * 2 ^ Z.max 0 (E - 1))).
        { rewrite <- !Z.pow_add_r by lia. rewrite <- Z.pow_succ_r by lia. f_equal. lia. }
        transitivity (n * d * (2 ^ Z.max 0 (- (E - 1)) * 2 ^ Z.max 0 E)); [ring|].
        rewrite Hp. ring. }
      set (a := numer n E) in *. set (b := denom d E) in *.
      set (a' := numer n (E - 1)) in *. set (b' := denom d (E - 1)) in *.
      assert (E53 : 2 ^ 53 = 2 * 2 ^ 52) by reflexivity.
      assert (C1 : a' < 2 * M * b').
      { apply (Z.mul_lt_mono_pos_r b); [exact Hb|]. rewrite Hrel.
        replace (2 * M * b' * b) with (2 * (M * b) * b') by ring.
        apply Z.mul_lt_mono_pos_r; lia. }
      assert (C2 : (4 * M - 1) * b' < 2 * a').
      { apply (Z.mul_lt_mono_pos_r b); [exact Hb|].
        replace (2 * a' * b) with (4 * a * b') by lia.
        replace ((4 * M - 1) * b' * b) with ((4 * M - 1) * b * b') by ring.
        apply Z.mul_lt_mono_pos_r; lia. }
      assert (EM' : shr_m y = 2 * M - 1) by (rewrite Ey; apply div_is; lia).
      assert (En : nearest y = 2 * M).
      { replace (2 * M) with (shr_m y + 1) by lia. apply (nearest_up _ _ _ Hy).
        rewrite EM'. fold a' b'. lia. }
      exists y, (E - 1). split; [exact Hy|]. split; [lia|]. right. lia.
    + assert (EM : shr_m x = M - 1) by (rewrite Em; apply div_is; lia).
      assert (En : nearest x = M).
      { replace M with (shr_m x + 1) by lia. apply (nearest_up _ _ _ Hx). rewrite EM. lia. }
      exists x, E. split; [exact Hx|]. split; [lia|]. left. lia.
Qed.
