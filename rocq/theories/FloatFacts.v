(** * Accuracy and order of binary64 operations

    Each operation returns its exact result with a relative error of at most
    2^-53 (in the normal range), and comparisons are those of the rational
    values. *)
From Coq Require Import String Ascii.
From Coq Require Import List NArith ZArith Bool Lia QArith Qabs Qpower Lqa.
From Coq Require Import Floats.SpecFloat.
From Verif Require Import PyBase PyFloat SpecNum Rounding ReprFacts.
Import ListNotations.
Local Open Scope string_scope.
Local Open Scope list_scope.
Local Open Scope Z_scope.

(** ** Powers of two *)

Definition p2 (e : Z) : Q := ((2 # 1) ^ e)%Q.

Lemma p2_pos : forall e, (0 < p2 e)%Q.
Proof. intro e. apply Qpower_0_lt. reflexivity. Qed.
Lemma p2_add : forall a b, (p2 (a + b) == p2 a * p2 b)%Q.
Proof. intros a b. unfold p2. apply Qpower_plus. discriminate. Qed.
Lemma p2_Z : forall k, 0 <= k -> (p2 k == inject_Z (2 ^ k))%Q.
Proof. intros k H. unfold p2. symmetry. apply (Zpower_Qpower 2 k H). Qed.
Lemma p2_opp : forall k, (p2 (- k) == / p2 k)%Q.
Proof. intro k. unfold p2. apply Qpower_opp. Qed.
Lemma p2_le : forall a b, a <= b -> (p2 a <= p2 b)%Q.
Proof.
  intros a b H. replace b with (a + (b - a)) by lia. rewrite p2_add.
  rewrite <- (Qmult_1_r (p2 a)) at 1. apply Qmult_le_l; [apply p2_pos|].
  rewrite p2_Z by lia. change 1%Q with (inject_Z 1). rewrite <- Zle_Qle.
  assert (0 < 2 ^ (b - a)) by (apply Z.pow_pos_nonneg; lia). lia.
Qed.
Lemma p2_lt_inv : forall a b, (p2 a < p2 b)%Q -> a < b.
Proof.
  intros a b H. destruct (Z_lt_le_dec a b) as [L|L]; auto. apply p2_le in L. exfalso.
  apply (Qlt_irrefl (p2 b)). eapply Qle_lt_trans; eauto.
Qed.
Lemma p2_max : forall e, (p2 e == inject_Z (2 ^ Z.max 0 e) / inject_Z (2 ^ Z.max 0 (- e)))%Q.
Proof.
  intro e. rewrite <- !p2_Z by lia. unfold Qdiv. rewrite <- p2_opp, <- p2_add.
  replace (Z.max 0 e + - Z.max 0 (- e)) with e by lia. reflexivity.
Qed.

(** ** Values *)

Definition signed (s : bool) (m : positive) : Z := if s then Zneg m else Zpos m.

Lemma fvalue_fin : forall s m e, exists v,
  fvalue (S754_finite s m e) = Some v /\ (v == inject_Z (signed s m) * p2 e)%Q.
Proof.
  intros s m e. eexists. split; [reflexivity|]. fold (signed s m).
  destruct e as [|k|k].
  - change (p2 0) with 1%Q. rewrite Qmult_1_r. reflexivity.
  - rewrite p2_Z by lia. rewrite <- inject_Z_mult. rewrite Pos2Z.inj_pow. reflexivity.
  - change (Zneg k) with (- Zpos k). rewrite p2_opp, p2_Z by lia.
    rewrite <- Pos2Z.inj_pow. rewrite Qmake_Qdiv. reflexivity.
Qed.

(** The value of a finite float, zero otherwise. *)
Definition val (x : float) : Q := match fvalue x with Some v => v | None => 0 end.

Lemma val_fin : forall s m e, (val (S754_finite s m e) == inject_Z (signed s m) * p2 e)%Q.
Proof.
  intros s m e. destruct (fvalue_fin s m e) as (v & E & Hv). unfold val. rewrite E. exact Hv.
Qed.

(** ** What rounding does to the value *)

Definition u : Q := 1 # (2 ^ 53).

Lemma seen_Q : forall n d e x, 0 < d -> seen n d e x ->
  (Qabs (inject_Z (nearest x) * p2 e - inject_Z n / inject_Z d) <= (1 # 2) * p2 e)%Q
  /\ (inject_Z (shr_m x) * p2 e <= inject_Z n / inject_Z d)%Q
  /\ (inject_Z n / inject_Z d < (inject_Z (shr_m x) + 1) * p2 e)%Q.
Proof.
  intros n d e x Hd H. unfold seen in H.
  assert (Hz : (inject_Z n / inject_Z d == inject_Z (numer n e) / inject_Z (denom d e) * p2 e)%Q).
  { unfold numer, denom. rewrite (p2_max e). rewrite !inject_Z_mult.
    assert (A : ~ (inject_Z (2 ^ Z.max 0 (- e)) == 0)%Q).
    { change 0%Q with (inject_Z 0). rewrite inject_Z_injective. apply Z.pow_nonzero; lia. }
    assert (B : ~ (inject_Z (2 ^ Z.max 0 e) == 0)%Q).
    { change 0%Q with (inject_Z 0). rewrite inject_Z_injective. apply Z.pow_nonzero; lia. }
    assert (C : ~ (inject_Z d == 0)%Q).
    { change 0%Q with (inject_Z 0). rewrite inject_Z_injective. lia. }
    field. auto. }
  set (z := numer n e) in *. set (w := denom d e) in *.
  assert (Hn : 2 * Z.abs (nearest x * w - z) <= w).
  { destruct H as (Hw & Hm & Hr & Er & Es). destruct x as [m r s]. cbn [shr_m shr_r shr_s] in *.
    unfold nearest. cbn [shr_m loc_of_shr_record].
    destruct r.
    - symmetry in Er. apply Z.leb_le in Er.
      destruct s; cbn [round_nearest_even].
      + lia.
      + symmetry in Es. apply negb_false_iff, orb_true_iff in Es.
        destruct Es as [Es|Es]; apply Z.eqb_eq in Es; destruct (Z.even m); lia.
    - symmetry in Er. apply Z.leb_gt in Er. destruct s; cbn [round_nearest_even]; lia. }
  destruct H as (Hw & Hm & Hr & _ & _).
  assert (Hw' : (0 < inject_Z w)%Q) by (change 0%Q with (inject_Z 0); rewrite <- Zlt_Qlt; exact Hw).
  assert (Hwn : ~ (inject_Z w == 0)%Q) by (intro E; rewrite E in Hw'; discriminate).
  assert (Hp := p2_pos e).
  rewrite Hz. split; [|split].
  - setoid_replace (inject_Z (nearest x) * p2 e - inject_Z z / inject_Z w * p2 e)%Q
      with ((inject_Z (nearest x * w - z) / inject_Z w) * p2 e)%Q.
    2:{ unfold Z.sub. rewrite inject_Z_plus, inject_Z_opp, inject_Z_mult. field. exact Hwn. }
    rewrite Qabs_Qmult. rewrite (Qabs_pos (p2 e)) by (apply Qlt_le_weak; exact Hp).
    apply Qmult_le_compat_r; [|apply Qlt_le_weak; exact Hp].
    unfold Qdiv. rewrite Qabs_Qmult. rewrite (Qabs_pos (/ inject_Z w))
      by (apply Qlt_le_weak, Qinv_lt_0_compat; exact Hw').
    apply Qle_shift_div_r; [exact Hw'|].
    change (Qabs (inject_Z (nearest x * w - z))) with (inject_Z (Z.abs (nearest x * w - z))).
    apply (Qmult_le_l _ _ (inject_Z 2)); [reflexivity|].
    rewrite <- inject_Z_mult.
    setoid_replace (inject_Z 2 * ((1 # 2) * inject_Z w))%Q with (inject_Z w) by ring.
    rewrite <- Zle_Qle. exact Hn.
  - apply Qmult_le_compat_r; [|apply Qlt_le_weak; exact Hp].
    apply Qle_shift_div_l; [exact Hw'|]. rewrite <- inject_Z_mult, <- Zle_Qle. lia.
  - apply Qmult_lt_r; [exact Hp|]. apply Qlt_shift_div_r; [exact Hw'|].
    change 1%Q with (inject_Z 1). rewrite <- inject_Z_plus, <- inject_Z_mult, <- Zlt_Qlt. lia.
Qed.

Lemma rounds_error : forall n d M E, 0 < d -> rounds n d M E ->
  2 ^ 52 <= M < 2 ^ 53
  /\ (Qabs (inject_Z M * p2 E - inject_Z n / inject_Z d) <= u * (inject_Z n / inject_Z d))%Q.
Proof.
  intros n d M E Hd (x & e & Hs & Hm & Hc).
  assert (Hb := nearest_bound x).
  destruct (seen_Q n d e x Hd Hs) as (H1 & H2 & H3).
  assert (HM : (inject_Z M * p2 E == inject_Z (nearest x) * p2 e)%Q).
  { destruct Hc as [(C1 & -> & ->)|(C1 & -> & ->)]; [reflexivity|].
    rewrite C1, p2_add. change (p2 1) with (2 # 1)%Q. change (2 ^ 53) with (2 ^ 52 * 2).
    rewrite inject_Z_mult. change (inject_Z 2) with (2 # 1)%Q. ring. }
  split.
  - destruct Hc as [(C1 & -> & ->)|(C1 & -> & ->)]; [lia|]. split; [lia|reflexivity].
  - rewrite HM. eapply Qle_trans; [exact H1|].
    assert (H4 : (inject_Z (2 ^ 52) * p2 e <= inject_Z n / inject_Z d)%Q).
    { eapply Qle_trans; [|exact H2]. apply Qmult_le_compat_r; [|apply Qlt_le_weak, p2_pos].
      rewrite <- Zle_Qle. lia. }
    eapply Qle_trans; [|apply Qmult_le_l; [|exact H4]; reflexivity].
    rewrite Qmult_assoc. apply Qmult_le_compat_r; [|apply Qlt_le_weak, p2_pos].
    unfold u. change (inject_Z (2 ^ 52)) with (Zpos (2 ^ 52) # 1)%Q. unfold Qle. vm_compute. discriminate.
Qed.

(** ** Normal positive floats and approximation *)

(** [x] is between 2^-k and 2^(k+1). *)
Definition nrm (k : Z) (x : float) : Prop :=
  exists m e, x = S754_finite false m e /\ 2 ^ 52 <= Zpos m < 2 ^ 53 /\ - k <= e + 52 <= k.

Lemma nrm_weak : forall k k' x, k <= k' -> nrm k x -> nrm k' x.
Proof. intros k k' x H (m & e & E & Hm & He). exists m, e. repeat split; auto; lia. Qed.

Lemma nrm_val : forall k x, nrm k x -> (p2 (- k) <= val x)%Q /\ (val x < p2 (k + 1))%Q.
Proof.
  intros k x (m & e & -> & Hm & He). rewrite val_fin. cbn [signed].
  replace e with ((e + 52) + (-52)) by lia. rewrite p2_add.
  set (f := e + 52) in *.
  assert (A : (1 <= inject_Z (Zpos m) * p2 (-52))%Q).
  { change (p2 (-52)) with (/ inject_Z (2 ^ 52))%Q. apply Qle_shift_div_l; [reflexivity|].
    rewrite Qmult_1_l, <- Zle_Qle. exact (proj1 Hm). }
  assert (B : (inject_Z (Zpos m) * p2 (-52) < (2 # 1))%Q).
  { change (p2 (-52)) with (/ inject_Z (2 ^ 52))%Q. apply Qlt_shift_div_r; [reflexivity|].
    change (2 # 1)%Q with (inject_Z 2). rewrite <- inject_Z_mult, <- Zlt_Qlt. exact (proj2 Hm). }
  setoid_replace (inject_Z (Zpos m) * (p2 f * p2 (-52)))%Q
    with (p2 f * (inject_Z (Zpos m) * p2 (-52)))%Q by ring.
  split.
  - apply Qle_trans with (p2 f); [apply p2_le; lia|].
    rewrite <- (Qmult_1_r (p2 f)) at 1. apply Qmult_le_l; [apply p2_pos|exact A].
  - apply Qlt_le_trans with (p2 f * (2 # 1))%Q; [apply Qmult_lt_l; [apply p2_pos|exact B]|].
    change (2 # 1)%Q with (p2 1). rewrite <- p2_add. apply p2_le. lia.
Qed.

Lemma nrm_pos : forall k x, nrm k x -> (0 < val x)%Q.
Proof. intros k x H. apply nrm_val in H. eapply Qlt_le_trans; [apply p2_pos|apply H]. Qed.

(** Relative error at most [a]. *)
Definition rel (a r q : Q) : Prop := ((1 - a) * q <= r <= (1 + a) * q)%Q.

Lemma rel_abs : forall a r q, rel a r q <-> (Qabs (r - q) <= a * q)%Q.
Proof.
  intros a r q. unfold rel. rewrite Qabs_Qle_condition. split; intros [H1 H2]; split; lra.
Qed.

Lemma finish_near : forall n d M E K, 0 < d -> rounds n d M E -> 0 <= K <= 900 ->
  (p2 (- K) <= inject_Z n / inject_Z d)%Q -> (inject_Z n / inject_Z d < p2 (K + 1))%Q ->
  nrm (K + 1) (finish false M E) /\ rel u (val (finish false M E)) (inject_Z n / inject_Z d).
Proof.
  intros n d M E K Hd Hr HK Hlo Hhi. destruct (rounds_error n d M E Hd Hr) as [HM He].
  apply rel_abs in He. set (q := (inject_Z n / inject_Z d)%Q) in *.
  destruct He as [He1 He2].
  assert (Hq : (0 < q)%Q) by (eapply Qlt_le_trans; [apply p2_pos|exact Hlo]).
  assert (A : (p2 (- K - 1) < p2 (E + 53))%Q).
  { apply Qlt_le_trans with (inject_Z M * p2 E)%Q.
    - eapply Qlt_le_trans; [|exact He1]. apply Qle_lt_trans with ((1 # 2) * q)%Q.
      + replace (- K - 1) with (-1 + - K) by lia. rewrite p2_add. change (p2 (-1)) with (1 # 2)%Q.
        apply Qmult_le_l; [reflexivity|exact Hlo].
      + apply Qmult_lt_r; [exact Hq|reflexivity].
    - rewrite p2_add, Qmult_comm. apply Qmult_le_l; [apply p2_pos|]. rewrite p2_Z by lia.
      rewrite <- Zle_Qle. lia. }
  assert (B : (p2 (E + 52) < p2 (K + 2))%Q).
  { apply Qle_lt_trans with (inject_Z M * p2 E)%Q.
    - rewrite p2_add, Qmult_comm. apply Qmult_le_compat_r; [|apply Qlt_le_weak, p2_pos].
      rewrite p2_Z by lia. rewrite <- Zle_Qle. lia.
    - eapply Qle_lt_trans; [exact He2|]. apply Qlt_le_trans with ((1 + u) * p2 (K + 1))%Q.
      + apply Qmult_lt_l; [reflexivity|exact Hhi].
      + replace (K + 2) with (1 + (K + 1)) by lia. rewrite (p2_add 1).
        apply Qmult_le_compat_r; [|apply Qlt_le_weak, p2_pos]. vm_compute. discriminate. }
  apply p2_lt_inv in A, B.
  assert (Ef : finish false M E = S754_finite false (Z.to_pos M) E).
  { unfold finish. replace (E <=? 971) with true by (symmetry; apply Z.leb_le; lia). reflexivity. }
  assert (HM0 : 0 < M) by (assert (0 < 2 ^ 52) by reflexivity; lia).
  rewrite Ef. split.
  - exists (Z.to_pos M), E. rewrite Z2Pos.id by exact HM0. repeat split; try lia; apply HM.
  - unfold rel. rewrite val_fin. cbn [signed]. rewrite Z2Pos.id by exact HM0. split; assumption.
Qed.

(** ** Products *)

Lemma seen_exact : forall m e, 0 <= m ->
  seen (m * 2 ^ Z.max 0 e) (2 ^ Z.max 0 (- e)) e (shr_record_of_loc m loc_Exact).
Proof.
  intros m e Hm. unfold seen.
  assert (Hc : 0 < 2 ^ Z.max 0 e * 2 ^ Z.max 0 (- e))
    by (apply Z.mul_pos_pos; apply Z.pow_pos_nonneg; lia).
  apply (located_eq ((2 ^ Z.max 0 e * 2 ^ Z.max 0 (- e)) * m) ((2 ^ Z.max 0 e * 2 ^ Z.max 0 (- e)) * 1)).
  - unfold numer. ring.
  - unfold denom. ring.
  - apply located_scale; [exact Hc|]. apply located_exact. exact Hm.
Qed.

Lemma exact_Q : forall m e,
  (inject_Z (m * 2 ^ Z.max 0 e) / inject_Z (2 ^ Z.max 0 (- e)) == inject_Z m * p2 e)%Q.
Proof.
  intros m e. rewrite (p2_max e), inject_Z_mult. unfold Qdiv. ring.
Qed.

Lemma fmul_nrm : forall k1 k2 x y, nrm k1 x -> nrm k2 y -> 0 <= k1 -> 0 <= k2 -> k1 + k2 <= 800 ->
  nrm (k1 + k2 + 2) (fmul x y) /\ rel u (val (fmul x y)) (val x * val y).
Proof.
  intros k1 k2 x y Hx Hy K1 K2 HK.
  destruct (nrm_val _ _ Hx) as [X1 X2]. destruct (nrm_val _ _ Hy) as [Y1 Y2].
  assert (Px := nrm_pos _ _ Hx). assert (Py := nrm_pos _ _ Hy).
  destruct Hx as (mx & ex & -> & Mx & Ex). destruct Hy as (my & ey & -> & My & Ey).
  unfold fmul. cbn [SFmul xorb]. set (m := Zpos (mx * my)). set (e := ex + ey).
  assert (Hm : 2 ^ 104 <= m).
  { unfold m. rewrite Pos2Z.inj_mul. change (2 ^ 104) with (2 ^ 52 * 2 ^ 52).
    apply Z.mul_le_mono_nonneg; lia. }
  assert (Hm0 : 0 < m) by (unfold m; lia).
  destruct (zdigits_bound m Hm0) as [D1 D2].
  assert (HD : 104 < Zdigits2 m).
  { apply (Z.pow_lt_mono_r_iff 2); lia. }
  destruct (round_aux false _ _ m e loc_Exact (seen_exact m e (Z.lt_le_incl _ _ Hm0))) as (M & E & Hr & ->).
  - assert (2 ^ 52 <= 2 ^ 104) by (apply Z.pow_le_mono_r; lia). lia.
  - unfold e. lia.
  - assert (Hq : (inject_Z (m * 2 ^ Z.max 0 e) / inject_Z (2 ^ Z.max 0 (- e))
                  == val (S754_finite false mx ex) * val (S754_finite false my ey))%Q).
    { rewrite exact_Q, !val_fin. unfold e, m. cbn [signed]. rewrite p2_add, Pos2Z.inj_mul, inject_Z_mult. ring. }
    assert (Hd : 0 < 2 ^ Z.max 0 (- e)) by (apply Z.pow_pos_nonneg; lia).
    destruct (finish_near _ _ M E (k1 + k2 + 1) Hd Hr) as [F1 F2].
    + lia.
    + rewrite Hq. eapply Qle_trans; [apply (p2_le _ (- k1 + - k2)); lia|]. rewrite p2_add.
      apply Qmult_le_compat_nonneg; split; auto; apply Qlt_le_weak, p2_pos.
    + rewrite Hq. replace (k1 + k2 + 1 + 1) with ((k1 + 1) + (k2 + 1)) by lia. rewrite p2_add.
      eapply Qlt_le_trans; [apply Qmult_lt_l; [exact Px|exact Y2]|].
      apply Qmult_le_compat_r; [apply Qlt_le_weak; exact X2|apply Qlt_le_weak, p2_pos].
    + split.
      * refine (nrm_weak _ _ _ _ F1). lia.
      * unfold rel in *. rewrite Hq in F2. exact F2.
Qed.

Definition one : float := S754_finite false (2 ^ 52) (-52).

Lemma fmul_one : forall k x, nrm k x -> k <= 900 -> fmul x one = x.
Proof.
  intros k x (mx & ex & -> & Mx & Ex) Hk.
  unfold fmul, one. cbn [SFmul xorb]. set (m := Zpos (mx * 2 ^ 52)). set (e := ex + -52).
  assert (Em : m = Zpos mx * 2 ^ 52) by (unfold m; rewrite Pos2Z.inj_mul; reflexivity).
  assert (Hm : 2 ^ 104 <= m).
  { rewrite Em. change (2 ^ 104) with (2 ^ 52 * 2 ^ 52). apply Z.mul_le_mono_nonneg; lia. }
  assert (Hm0 : 0 < m) by (unfold m; lia).
  destruct (zdigits_bound m Hm0) as [D1 D2].
  assert (HD : 104 < Zdigits2 m).
  { apply (Z.pow_lt_mono_r_iff 2); lia. }
  destruct (round_aux false _ _ m e loc_Exact (seen_exact m e (Z.lt_le_incl _ _ Hm0))) as (M & E & Hr & ->).
  - assert (2 ^ 52 <= 2 ^ 104) by (apply Z.pow_le_mono_r; lia). lia.
  - unfold e. lia.
  - assert (Hr' : rounds (m * 2 ^ Z.max 0 e) (2 ^ Z.max 0 (- e)) (Zpos mx) ex).
    { assert (Eq : numer (m * 2 ^ Z.max 0 e) ex = Zpos mx * denom (2 ^ Z.max 0 (- e)) ex).
      { unfold numer, denom. rewrite Em, <- !Z.mul_assoc, <- !Z.pow_add_r by lia. f_equal. f_equal.
        unfold e. lia. }
      assert (0 < denom (2 ^ Z.max 0 (- e)) ex).
      { unfold denom. apply Z.mul_pos_pos; apply Z.pow_pos_nonneg; lia. }
      assert (0 <= m * 2 ^ Z.max 0 e) by (apply Z.mul_nonneg_nonneg; [lia|apply Z.pow_nonneg; lia]).
      assert (0 < 2 ^ Z.max 0 (- e)) by (apply Z.pow_pos_nonneg; lia).
      apply rounds_close; lia. }
    destruct (rounds_unique _ _ _ _ _ _ Hr Hr') as [-> ->]. unfold finish.
    replace (ex <=? 971) with true by (symmetry; apply Z.leb_le; lia). reflexivity.
Qed.

(** ** Quotients *)

Lemma seen_frac : forall a b e x, located a b x ->
  seen (a * 2 ^ Z.max 0 e) (b * 2 ^ Z.max 0 (- e)) e x.
Proof.
  intros a b e x H. unfold seen.
  assert (Hc : 0 < 2 ^ Z.max 0 e * 2 ^ Z.max 0 (- e))
    by (apply Z.mul_pos_pos; apply Z.pow_pos_nonneg; lia).
  apply (located_scale _ _ _ _ Hc) in H. refine (located_eq _ _ _ _ _ _ _ H); unfold numer, denom; ring.
Qed.

Lemma frac_Q : forall a b e, 0 < b ->
  (inject_Z (a * 2 ^ Z.max 0 e) / inject_Z (b * 2 ^ Z.max 0 (- e))
   == inject_Z a / inject_Z b * p2 e)%Q.
Proof.
  intros a b e Hb. rewrite (p2_max e), !inject_Z_mult.
  assert (A : ~ (inject_Z (2 ^ Z.max 0 (- e)) == 0)%Q).
  { change 0%Q with (inject_Z 0). rewrite inject_Z_injective. apply Z.pow_nonzero; lia. }
  assert (C : ~ (inject_Z b == 0)%Q).
  { change 0%Q with (inject_Z 0). rewrite inject_Z_injective. lia. }
  field. auto.
Qed.

Lemma Qdiv_le : forall a b c d, (0 < d)%Q -> (0 <= a)%Q -> (a <= b)%Q -> (d <= c)%Q ->
  (a / c <= b / d)%Q.
Proof.
  intros a b c d Hd Ha H1 H2.
  assert (Hc : (0 < c)%Q) by (eapply Qlt_le_trans; eauto).
  apply Qle_shift_div_l; [exact Hd|]. unfold Qdiv.
  setoid_replace (a * / c * d)%Q with (a * d / c)%Q by (unfold Qdiv; ring).
  apply Qle_shift_div_r; [exact Hc|].
  apply Qmult_le_compat_nonneg; split; auto. apply Qlt_le_weak; exact Hd.
Qed.

Lemma fdiv_nrm : forall k1 k2 x y, nrm k1 x -> nrm k2 y -> 0 <= k1 -> 0 <= k2 -> k1 + k2 <= 800 ->
  nrm (k1 + k2 + 2) (fdiv x y) /\ rel u (val (fdiv x y)) (val x / val y).
Proof.
  intros k1 k2 x y Hx Hy K1 K2 HK.
  destruct (nrm_val _ _ Hx) as [X1 X2]. destruct (nrm_val _ _ Hy) as [Y1 Y2].
  assert (Px := nrm_pos _ _ Hx). assert (Py := nrm_pos _ _ Hy).
  destruct Hx as (mx & ex & -> & Mx & Ex). destruct Hy as (my & ey & -> & My & Ey).
  unfold fdiv. cbn [SFdiv xorb]. unfold SFdiv_core_binary.
  rewrite (zdigits_eq (Zpos mx) 53), (zdigits_eq (Zpos my) 53) by (cbn; lia).
  replace (53 + ex - (53 + ey)) with (ex - ey) by lia.
  rewrite fexp_normal by lia. replace (Z.min (ex - ey - 53) (ex - ey)) with (ex - ey - 53) by lia.
  replace (ex - ey - (ex - ey - 53)) with 53 by lia.
  set (e := ex - ey - 53). rewrite Z.shiftl_mul_pow2 by lia.
  set (a := Zpos mx * 2 ^ 53).
  assert (Ha : 0 <= a) by (unfold a; apply Z.mul_nonneg_nonneg; [lia|apply Z.pow_nonneg; lia]).
  assert (Hdm := Z_div_mod a (Zpos my) ltac:(lia)).
  destruct (Z.div_eucl a (Zpos my)) as [q r] eqn:Eqr. destruct Hdm as [Hq Hr].
  assert (Eq : a / Zpos my = q) by (symmetry; apply (Z.div_unique_pos a (Zpos my) q r); lia).
  assert (Er : a mod Zpos my = r) by (symmetry; apply (Z.mod_unique_pos a (Zpos my) q r); lia).
  rewrite <- Er, <- Eq.
  assert (Hq52 : 2 ^ 52 <= a / Zpos my).
  { apply Z.div_le_lower_bound; [lia|]. unfold a.
    apply Z.le_trans with (2 ^ 53 * 2 ^ 52).
    - apply Z.mul_le_mono_nonneg_r; [apply Z.pow_nonneg|]; lia.
    - rewrite Z.mul_comm. apply Z.mul_le_mono_nonneg_r; [apply Z.pow_nonneg|]; lia. }
  assert (Hloc := located_new a (Zpos my) Ha ltac:(lia)).
  apply (seen_frac _ _ e) in Hloc.
  assert (Hq0 : 0 < a / Zpos my) by (assert (0 < 2 ^ 52) by reflexivity; lia).
  destruct (zdigits_bound _ Hq0) as [D1 D2].
  assert (HD : 52 < Zdigits2 (a / Zpos my)) by (apply (Z.pow_lt_mono_r_iff 2); lia).
  destruct (round_aux false _ _ _ e _ Hloc Hq52) as (M & E & Hro & ->).
  - unfold e. lia.
  - assert (Hv : (inject_Z (a * 2 ^ Z.max 0 e) / inject_Z (Zpos my * 2 ^ Z.max 0 (- e))
                  == val (S754_finite false mx ex) / val (S754_finite false my ey))%Q).
    { rewrite frac_Q by lia. rewrite !val_fin. cbn [signed]. unfold e, a.
      replace (ex - ey - 53) with (ex + (- ey + - (53))) by lia.
      rewrite !p2_add, inject_Z_mult, !p2_opp. rewrite <- (p2_Z 53) by lia.
      assert (N1 : ~ (p2 ey == 0)%Q) by (intro Z0; assert (Hp := p2_pos ey); rewrite Z0 in Hp; discriminate).
      assert (N2 : ~ (p2 53 == 0)%Q) by discriminate.
      assert (N3 : ~ (inject_Z (Zpos my) == 0)%Q) by discriminate.
      field. auto. }
    assert (Hd : 0 < Zpos my * 2 ^ Z.max 0 (- e))
      by (apply Z.mul_pos_pos; [lia|apply Z.pow_pos_nonneg; lia]).
    destruct (finish_near _ _ M E (k1 + k2 + 1) Hd Hro) as [F1 F2].
    + lia.
    + rewrite Hv. replace (- (k1 + k2 + 1)) with (- k1 + - (k2 + 1)) by lia.
      rewrite p2_add, (p2_opp (k2 + 1)). fold (p2 (- k1) / p2 (k2 + 1))%Q.
      apply Qdiv_le; auto; apply Qlt_le_weak; auto using p2_pos.
    + rewrite Hv. replace (k1 + k2 + 1 + 1) with ((k1 + 1) + k2 + 1) by lia.
      apply Qlt_le_trans with (p2 (k1 + 1) / p2 (- k2))%Q.
      * apply Qlt_le_trans with (p2 (k1 + 1) / val (S754_finite false my ey))%Q.
        -- unfold Qdiv. apply Qmult_lt_r; [apply Qinv_lt_0_compat; exact Py|exact X2].
        -- apply Qdiv_le; auto using p2_pos, Qle_refl. apply Qlt_le_weak, p2_pos.
      * unfold Qdiv. rewrite <- p2_opp, <- p2_add. apply p2_le. lia.
    + split.
      * refine (nrm_weak _ _ _ _ F1). lia.
      * unfold rel in *. rewrite Hv in F2. exact F2.
Qed.

(** ** Integers times powers of two, sums *)

Lemma binary_round_gen : forall p e, -900 <= Zpos (digits2_pos p) + e ->
  exists M E, rounds (Zpos p * 2 ^ Z.max 0 e) (2 ^ Z.max 0 (- e)) M E
    /\ binary_round 53 1024 false p e = finish false M E.
Proof.
  intros p e He. unfold binary_round, shl_align. rewrite fexp_normal by lia.
  assert (Hb := digits2_bound p).
  destruct (Zpos (digits2_pos p) + e - 53 - e) as [|k|k] eqn:Ek.
  - apply round_aux; [apply seen_exact; lia| |].
    + replace 52 with (Zpos (digits2_pos p) - 1) by lia. lia.
    + cbn [Zdigits2]. lia.
  - apply round_aux; [apply seen_exact; lia| |].
    + apply Z.le_trans with (2 ^ (Zpos (digits2_pos p) - 1)); [|lia]. apply Z.pow_le_mono_r; lia.
    + cbn [Zdigits2]. lia.
  - assert (Em : 2 ^ 52 <= Zpos (shift_pos k p) < 2 ^ 53).
    { rewrite shift_pos_mul.
      replace (2 ^ 52) with (2 ^ (Zpos (digits2_pos p) - 1) * 2 ^ Zpos k)
        by (rewrite <- Z.pow_add_r by lia; f_equal; lia).
      replace (2 ^ 53) with (2 ^ Zpos (digits2_pos p) * 2 ^ Zpos k)
        by (rewrite <- Z.pow_add_r by lia; f_equal; lia).
      assert (0 < 2 ^ Zpos k) by (apply Z.pow_pos_nonneg; lia). nia. }
    replace (Zpos (digits2_pos p) + e - 53) with (e - Zpos k) by lia.
    apply round_aux.
    + apply (seen_rational (Zpos (shift_pos k p) * 2 ^ Z.max 0 (e - Zpos k))
               (2 ^ Z.max 0 (- (e - Zpos k)))); try (apply Z.pow_pos_nonneg; lia).
      * apply Z.mul_nonneg_nonneg; [lia|apply Z.pow_nonneg; lia].
      * rewrite shift_pos_mul. rewrite <- !Z.mul_assoc. f_equal.
        rewrite <- !Z.pow_add_r by lia. f_equal. lia.
      * apply seen_exact. lia.
    + lia.
    + rewrite (zdigits_eq _ 53) by (cbn; lia). lia.
Qed.

Lemma round_near : forall p e K, 0 <= K <= 850 ->
  (p2 (- K) <= inject_Z (Zpos p) * p2 e)%Q -> (inject_Z (Zpos p) * p2 e < p2 (K + 1))%Q ->
  nrm (K + 1) (binary_round 53 1024 false p e)
  /\ rel u (val (binary_round 53 1024 false p e)) (inject_Z (Zpos p) * p2 e).
Proof.
  intros p e K HK Hlo Hhi.
  assert (Hd : -900 <= Zpos (digits2_pos p) + e).
  { destruct (Z_lt_le_dec (Zpos (digits2_pos p) + e) (-900)) as [H|H]; auto. exfalso.
    assert (Hb := digits2_bound p).
    assert (B : (inject_Z (Zpos p) * p2 e < p2 (Zpos (digits2_pos p) + e))%Q).
    { rewrite p2_add, (p2_Z (Zpos (digits2_pos p))) by lia. apply Qmult_lt_r; [apply p2_pos|].
      rewrite <- Zlt_Qlt. lia. }
    assert (C : (p2 (- K) < p2 (Zpos (digits2_pos p) + e))%Q) by (eapply Qle_lt_trans; eauto).
    apply p2_lt_inv in C. lia. }
  destruct (binary_round_gen p e Hd) as (M & E & Hr & ->).
  assert (Hpos : 0 < 2 ^ Z.max 0 (- e)) by (apply Z.pow_pos_nonneg; lia).
  assert (Hq := exact_Q (Zpos p) e).
  destruct (finish_near _ _ M E K Hpos Hr) as [F1 F2]; try rewrite Hq; auto; try lia.
  split; auto. unfold rel in *. rewrite Hq in F2. exact F2.
Qed.

Lemma align_val : forall m e e', e' <= e ->
  (inject_Z (Zpos (fst (shl_align m e e'))) * p2 e' == inject_Z (Zpos m) * p2 e)%Q.
Proof.
  intros m e e' H. unfold shl_align. destruct (e' - e) as [|k|k] eqn:Ek; try lia.
  - cbn [fst]. replace e' with e by lia. reflexivity.
  - cbn [fst]. rewrite shift_pos_mul, inject_Z_mult, <- p2_Z by lia.
    rewrite <- Qmult_assoc, <- p2_add. replace (Zpos k + e') with e by lia. reflexivity.
Qed.

Lemma fadd_nrm : forall k x y, nrm k x -> nrm k y -> 0 <= k <= 800 ->
  nrm (k + 2) (fadd x y) /\ rel u (val (fadd x y)) (val x + val y).
Proof.
  intros k x y Hx Hy K1.
  destruct (nrm_val _ _ Hx) as [X1 X2]. destruct (nrm_val _ _ Hy) as [Y1 Y2].
  assert (Px := nrm_pos _ _ Hx). assert (Py := nrm_pos _ _ Hy).
  destruct Hx as (mx & ex & -> & Mx & Ex). destruct Hy as (my & ey & -> & My & Ey).
  unfold fadd. cbn [SFadd cond_Zopp]. set (ez := Z.min ex ey).
  assert (Ax := align_val mx ex ez ltac:(lia)). assert (Ay := align_val my ey ez ltac:(lia)).
  set (a := fst (shl_align mx ex ez)) in *. set (b := fst (shl_align my ey ez)) in *.
  cbn [Z.add binary_normalize].
  assert (Hs : (inject_Z (Zpos (a + b)) * p2 ez
                == val (S754_finite false mx ex) + val (S754_finite false my ey))%Q).
  { rewrite !val_fin. cbn [signed]. rewrite <- Ax, <- Ay, Pos2Z.inj_add, inject_Z_plus. ring. }
  destruct (round_near (a + b) ez (k + 1)) as [F1 F2].
  - lia.
  - rewrite Hs. apply Qle_trans with (val (S754_finite false mx ex)).
    + eapply Qle_trans; [apply (p2_le _ (- k)); lia|exact X1].
    + rewrite <- (Qplus_0_r (val _)) at 1. apply Qplus_le_r. apply Qlt_le_weak. exact Py.
  - rewrite Hs. replace (k + 1 + 1) with (1 + (k + 1)) by lia. rewrite p2_add.
    change (p2 1) with (2 # 1)%Q.
    setoid_replace ((2 # 1) * p2 (k + 1))%Q with (p2 (k + 1) + p2 (k + 1))%Q by ring.
    apply Qplus_lt_le_compat; [exact X2|apply Qlt_le_weak; exact Y2].
  - split; [replace (k + 2) with (k + 1 + 1) by lia; exact F1|].
    unfold rel in *. rewrite Hs in F2. exact F2.
Qed.

(** ** Whole numbers *)

Lemma float_of_pos : forall p, Zpos p < 2 ^ 53 ->
  nrm 52 (float_of_Z (Zpos p)) /\ (val (float_of_Z (Zpos p)) == inject_Z (Zpos p))%Q.
Proof.
  intros p Hp. unfold float_of_Z. cbn [binary_normalize].
  destruct (binary_round_int false p) as (M & E & Hr & ->).
  assert (Hb := digits2_bound p). set (k := 53 - Zpos (digits2_pos p)).
  assert (Hk : 0 <= k).
  { assert (Zpos (digits2_pos p) - 1 < 53); [|lia]. apply (Z.pow_lt_mono_r_iff 2); lia. }
  assert (Hm : 2 ^ 52 <= Zpos p * 2 ^ k < 2 ^ 53).
  { replace (2 ^ 52) with (2 ^ (Zpos (digits2_pos p) - 1) * 2 ^ k)
      by (rewrite <- Z.pow_add_r by lia; f_equal; lia).
    replace (2 ^ 53) with (2 ^ Zpos (digits2_pos p) * 2 ^ k)
      by (rewrite <- Z.pow_add_r by lia; f_equal; lia).
    assert (0 < 2 ^ k) by (apply Z.pow_pos_nonneg; lia). nia. }
  assert (Hr' : rounds (Zpos p) 1 (Zpos p * 2 ^ k) (- k)).
  { apply rounds_close; try lia; unfold numer, denom;
      replace (Z.max 0 (- - k)) with k by lia; replace (Z.max 0 (- k)) with 0 by lia;
      change (2 ^ 0) with 1; lia. }
  destruct (rounds_unique _ _ _ _ _ _ Hr Hr') as [-> ->].
  assert (Hm0 : 0 < Zpos p * 2 ^ k) by (assert (0 < 2 ^ 52) by reflexivity; lia).
  unfold finish. replace (- k <=? 971) with true by (symmetry; apply Z.leb_le; lia). split.
  - exists (Z.to_pos (Zpos p * 2 ^ k)), (- k). rewrite Z2Pos.id by exact Hm0.
    repeat split; try lia; apply Hm.
  - rewrite val_fin. cbn [signed]. rewrite Z2Pos.id by exact Hm0.
    rewrite inject_Z_mult, <- p2_Z by lia. rewrite <- Qmult_assoc, <- p2_add.
    replace (k + - k) with 0 by lia. change (p2 0) with 1%Q. ring.
Qed.

(** ** Relative approximation, [j] units of 2^-53 *)

Definition near (k j : Z) (x : float) (q : Q) : Prop :=
  (x = S754_zero false /\ (q == 0)%Q)
  \/ (nrm k x /\ (0 < q)%Q /\ rel (inject_Z j * u) (val x) q).

Lemma near_N : forall n, (Z.of_N n < 2 ^ 53) -> near 52 0 (float_of_Z (Z.of_N n)) (ofN n).
Proof.
  intros [|p] H; [left; split; reflexivity|]. right. cbn [Z.of_N] in *.
  destruct (float_of_pos p H) as [H1 H2]. split; [exact H1|]. split; [reflexivity|].
  unfold rel, ofN. cbn [Z.of_N]. rewrite H2. set (q := inject_Z (Zpos p)).
  assert (Z0 : (inject_Z 0 * u == 0)%Q) by reflexivity. rewrite Z0. split; lra.
Qed.

Lemma near_weak : forall k j k' j' x q, k <= k' -> j <= j' -> near k j x q -> near k' j' x q.
Proof.
  intros k j k' j' x q Hk Hj [H|(H1 & H2 & H3)]; [left; exact H|right].
  split; [exact (nrm_weak _ _ _ Hk H1)|]. split; [exact H2|].
  apply rel_abs. apply rel_abs in H3. eapply Qle_trans; [exact H3|].
  apply Qmult_le_compat_r; [|apply Qlt_le_weak; exact H2].
  apply Qmult_le_compat_r; [|vm_compute; discriminate]. rewrite <- Zle_Qle. exact Hj.
Qed.

Lemma near_eq : forall k j x q q', (q == q')%Q -> near k j x q -> near k j x q'.
Proof.
  intros k j x q q' E [[H1 H2]|(H1 & H2 & H3)]; [left; split; auto; rewrite <- E; exact H2|right].
  split; [exact H1|]. unfold rel in *. rewrite <- E. auto.
Qed.

Global Instance rel_proper : Proper (Qeq ==> Qeq ==> Qeq ==> iff) rel.
Proof.
  intros a a' Ea r r' Er q q' Eq0. unfold rel. rewrite Ea, Er, Eq0. tauto.
Qed.

(** [j] small enough for the products of errors to stay below [u]. *)
Lemma small_u : forall j, 0 <= j <= 1000000 ->
  (0 <= inject_Z j * u)%Q /\ (inject_Z j * u <= 1 # 9000000000)%Q.
Proof.
  intros j H. split.
  - apply Qmult_le_0_compat; [|vm_compute; discriminate]. change 0%Q with (inject_Z 0).
    rewrite <- Zle_Qle. lia.
  - apply Qle_trans with (inject_Z 1000000 * u)%Q; [|vm_compute; discriminate].
    apply Qmult_le_compat_r; [|vm_compute; discriminate]. rewrite <- Zle_Qle. lia.
Qed.

(** Second order terms. *)
Lemma small_prod : forall i j, 0 <= i <= 1000000 -> 0 <= j <= 1000000 ->
  ((inject_Z i * u) * (inject_Z j * u) <= (1 # 8000) * u)%Q.
Proof.
  intros i j Hi Hj.
  setoid_replace ((inject_Z i * u) * (inject_Z j * u))%Q with ((inject_Z (i * j) * u) * u)%Q
    by (rewrite inject_Z_mult; ring).
  apply Qmult_le_compat_r; [|vm_compute; discriminate].
  apply Qle_trans with (inject_Z (1000000 * 1000000) * u)%Q; [|vm_compute; discriminate].
  apply Qmult_le_compat_r; [|vm_compute; discriminate]. rewrite <- Zle_Qle. nia.
Qed.

Lemma rel_pos : forall a r q, (0 < q)%Q -> (a < 1)%Q -> rel a r q -> (0 < r)%Q.
Proof.
  intros a r q Hq Ha [H _]. eapply Qlt_le_trans; [|exact H].
  apply Qmult_lt_0_compat; [lra|exact Hq].
Qed.

Lemma rel_mul : forall i j x y r q1 q2, 0 <= i <= 1000000 -> 0 <= j <= 1000000 ->
  (0 < q1)%Q -> (0 < q2)%Q -> rel (inject_Z i * u) x q1 -> rel (inject_Z j * u) y q2 ->
  rel u r (x * y) -> rel (inject_Z (i + j + 2) * u) r (q1 * q2).
Proof.
  intros i j x y r q1 q2 Hi Hj P1 P2 Hx Hy Hr.
  assert (A := small_u i Hi). assert (B := small_u j Hj). assert (C := small_prod i j Hi Hj).
  assert (D := small_prod i 1 Hi ltac:(lia)). assert (E := small_prod j 1 Hj ltac:(lia)).
  rewrite Qmult_1_l in D, E.
  rewrite !inject_Z_plus. change (inject_Z 2) with (2 # 1)%Q.
  assert (U : (0 < u)%Q) by reflexivity. assert (U1 : (u < 1 # 1000000)%Q) by reflexivity.
  assert (Px : (0 < x)%Q) by (apply (rel_pos (inject_Z i * u) x q1); auto; lra).
  assert (Py : (0 < y)%Q) by (apply (rel_pos (inject_Z j * u) y q2); auto; lra).
  destruct Hx as [Hx1 Hx2], Hy as [Hy1 Hy2], Hr as [Hr1 Hr2].
  setoid_replace ((inject_Z i + inject_Z j + (2 # 1)) * u)%Q
    with (inject_Z i * u + inject_Z j * u + (2 # 1) * u)%Q by ring.
  set (a := (inject_Z i * u)%Q) in *. set (b := (inject_Z j * u)%Q) in *.
  assert (L : ((1 - a) * q1 * ((1 - b) * q2) <= x * y)%Q).
  { apply Qmult_le_compat_nonneg; split; auto; apply Qlt_le_weak, Qmult_lt_0_compat; auto; lra. }
  assert (H : (x * y <= (1 + a) * q1 * ((1 + b) * q2))%Q).
  { apply Qmult_le_compat_nonneg; split; auto; apply Qlt_le_weak; auto. }
  assert (Q12 : (0 < q1 * q2)%Q) by (apply Qmult_lt_0_compat; auto).
  split.
  - eapply Qle_trans; [|exact Hr1]. eapply Qle_trans; [|apply Qmult_le_l; [lra|exact L]].
    setoid_replace ((1 - u) * ((1 - a) * q1 * ((1 - b) * q2)))%Q
      with ((1 - u) * ((1 - a) * (1 - b)) * (q1 * q2))%Q by ring.
    apply Qmult_le_compat_r; [|apply Qlt_le_weak; exact Q12].
    assert (0 <= a * b)%Q by (apply Qmult_le_0_compat; tauto).
    assert (0 <= u * (a + b))%Q by (apply Qmult_le_0_compat; lra).
    assert (u * (a * b) <= (1 # 1000) * u)%Q.
    { rewrite (Qmult_comm u). apply Qmult_le_compat_r; [|lra].
      apply Qle_trans with ((1 # 8000) * u)%Q; [exact C|]. vm_compute. discriminate. }
    assert (X : ((1 - u) * ((1 - a) * (1 - b)) == 1 - a - b - u + a * b + u * (a + b) - u * (a * b))%Q) by ring.
    rewrite X. lra.
  - eapply Qle_trans; [exact Hr2|]. eapply Qle_trans; [apply Qmult_le_l; [lra|exact H]|].
    setoid_replace ((1 + u) * ((1 + a) * q1 * ((1 + b) * q2)))%Q
      with ((1 + u) * ((1 + a) * (1 + b)) * (q1 * q2))%Q by ring.
    apply Qmult_le_compat_r; [|apply Qlt_le_weak; exact Q12].
    assert (u * (a * b) <= (1 # 1000) * u)%Q.
    { rewrite (Qmult_comm u). apply Qmult_le_compat_r; [|lra].
      apply Qle_trans with ((1 # 8000) * u)%Q; [exact C|]. vm_compute. discriminate. }
    assert (X : ((1 + u) * ((1 + a) * (1 + b)) == 1 + a + b + u + a * b + a * u + b * u + u * (a * b))%Q) by ring.
    rewrite X. lra.
Qed.

Lemma rel_div : forall i j x y r q1 q2, 0 <= i <= 1000000 -> 0 <= j <= 1000000 ->
  (0 < q1)%Q -> (0 < q2)%Q -> rel (inject_Z i * u) x q1 -> rel (inject_Z j * u) y q2 ->
  rel u r (x / y) -> rel (inject_Z (i + j + 2) * u) r (q1 / q2).
Proof.
  intros i j x y r q1 q2 Hi Hj P1 P2 Hx Hy Hr.
  assert (A := small_u i Hi). assert (B := small_u j Hj). assert (C := small_prod i j Hi Hj).
  assert (C' := small_prod j j Hj Hj).
  assert (D := small_prod i 1 Hi ltac:(lia)). assert (E := small_prod j 1 Hj ltac:(lia)).
  rewrite Qmult_1_l in D, E.
  rewrite !inject_Z_plus. change (inject_Z 2) with (2 # 1)%Q.
  assert (U : (0 < u)%Q) by reflexivity. assert (U1 : (u < 1 # 1000000)%Q) by reflexivity.
  assert (Px : (0 < x)%Q) by (apply (rel_pos (inject_Z i * u) x q1); auto; lra).
  assert (Py : (0 < y)%Q) by (apply (rel_pos (inject_Z j * u) y q2); auto; lra).
  destruct Hx as [Hx1 Hx2], Hy as [Hy1 Hy2], Hr as [Hr1 Hr2].
  setoid_replace ((inject_Z i + inject_Z j + (2 # 1)) * u)%Q
    with (inject_Z i * u + inject_Z j * u + (2 # 1) * u)%Q by ring.
  set (a := (inject_Z i * u)%Q) in *. set (b := (inject_Z j * u)%Q) in *.
  assert (A1 : (0 <= a)%Q) by tauto. assert (A2 : (a <= 1 # 9000000000)%Q) by tauto.
  assert (B1 : (0 <= b)%Q) by tauto. assert (B2 : (b <= 1 # 9000000000)%Q) by tauto.
  assert (L : ((1 - a) * q1 / ((1 + b) * q2) <= x / y)%Q).
  { apply Qdiv_le; auto. apply Qlt_le_weak, Qmult_lt_0_compat; auto; lra. }
  assert (H : (x / y <= (1 + a) * q1 / ((1 - b) * q2))%Q).
  { apply Qdiv_le; auto. apply Qmult_lt_0_compat; auto; lra. apply Qlt_le_weak; auto. }
  assert (Q12 : (0 < q1 / q2)%Q) by (unfold Qdiv; apply Qmult_lt_0_compat; auto; apply Qinv_lt_0_compat; auto).
  assert (N2 : ~ (q2 == 0)%Q) by (intro Z0; rewrite Z0 in P2; discriminate).
  assert (Nb : ~ (1 + b == 0)%Q) by (intro Z0; assert (0 < 1 + b)%Q by lra; rewrite Z0 in *; discriminate).
  assert (Nb' : ~ (1 - b == 0)%Q) by (intro Z0; assert (0 < 1 - b)%Q by lra; rewrite Z0 in *; discriminate).
  split.
  - eapply Qle_trans; [|exact Hr1]. eapply Qle_trans; [|apply Qmult_le_l; [lra|exact L]].
    setoid_replace ((1 - u) * ((1 - a) * q1 / ((1 + b) * q2)))%Q
      with ((1 - u) * (1 - a) / (1 + b) * (q1 / q2))%Q by (field; auto).
    apply Qmult_le_compat_r; [|apply Qlt_le_weak; exact Q12].
    apply Qle_shift_div_l; [lra|].
    assert (0 <= a * b)%Q by (apply Qmult_le_0_compat; tauto).
    assert (0 <= b * b)%Q by (apply Qmult_le_0_compat; tauto).
    assert (0 <= b * u)%Q by (apply Qmult_le_0_compat; lra).
    assert (0 <= a * u)%Q by (apply Qmult_le_0_compat; lra).
    assert (X : ((1 - (a + b + (2 # 1) * u)) * (1 + b)
                 == 1 - a - (2 # 1) * u - a * b - b * b - (2 # 1) * (b * u))%Q) by ring.
    assert (Y : ((1 - u) * (1 - a) == 1 - u - a + a * u)%Q) by ring.
    rewrite X, Y. lra.
  - eapply Qle_trans; [exact Hr2|]. eapply Qle_trans; [apply Qmult_le_l; [lra|exact H]|].
    setoid_replace ((1 + u) * ((1 + a) * q1 / ((1 - b) * q2)))%Q
      with ((1 + u) * (1 + a) / (1 - b) * (q1 / q2))%Q by (field; auto).
    apply Qmult_le_compat_r; [|apply Qlt_le_weak; exact Q12].
    apply Qle_shift_div_r; [lra|].
    assert (X : ((1 + (a + b + (2 # 1) * u)) * (1 - b)
                 == 1 + a + (2 # 1) * u - a * b - b * b - (2 # 1) * (b * u))%Q) by ring.
    assert (Y : ((1 + u) * (1 + a) == 1 + u + a + a * u)%Q) by ring.
    rewrite X, Y. lra.
Qed.

Lemma rel_add : forall i x y r q1 q2, 0 <= i <= 1000000 ->
  (0 < q1)%Q -> (0 < q2)%Q -> rel (inject_Z i * u) x q1 -> rel (inject_Z i * u) y q2 ->
  rel u r (x + y) -> rel (inject_Z (i + 2) * u) r (q1 + q2).
Proof.
  intros i x y r q1 q2 Hi P1 P2 Hx Hy Hr.
  assert (A := small_u i Hi). assert (D := small_prod i 1 Hi ltac:(lia)). rewrite Qmult_1_l in D.
  rewrite !inject_Z_plus. change (inject_Z 2) with (2 # 1)%Q.
  assert (U : (0 < u)%Q) by reflexivity. assert (U1 : (u < 1 # 1000000)%Q) by reflexivity.
  destruct Hx as [Hx1 Hx2], Hy as [Hy1 Hy2], Hr as [Hr1 Hr2].
  setoid_replace ((inject_Z i + (2 # 1)) * u)%Q with (inject_Z i * u + (2 # 1) * u)%Q by ring.
  set (a := (inject_Z i * u)%Q) in *.
  assert (A1 : (0 <= a)%Q) by tauto. assert (A2 : (a <= 1 # 9000000000)%Q) by tauto.
  assert (L : ((1 - a) * (q1 + q2) <= x + y)%Q).
  { setoid_replace ((1 - a) * (q1 + q2))%Q with ((1 - a) * q1 + (1 - a) * q2)%Q by ring.
    apply Qplus_le_compat; assumption. }
  assert (H : (x + y <= (1 + a) * (q1 + q2))%Q).
  { setoid_replace ((1 + a) * (q1 + q2))%Q with ((1 + a) * q1 + (1 + a) * q2)%Q by ring.
    apply Qplus_le_compat; assumption. }
  assert (Q12 : (0 <= q1 + q2)%Q) by lra.
  assert (0 <= a * u)%Q by (apply Qmult_le_0_compat; lra).
  split.
  - eapply Qle_trans; [|exact Hr1]. eapply Qle_trans; [|apply Qmult_le_l; [lra|exact L]].
    rewrite Qmult_assoc. apply Qmult_le_compat_r; [|exact Q12].
    assert (X : ((1 - u) * (1 - a) == 1 - u - a + a * u)%Q) by ring. rewrite X. lra.
  - eapply Qle_trans; [exact Hr2|]. eapply Qle_trans; [apply Qmult_le_l; [lra|exact H]|].
    rewrite Qmult_assoc. apply Qmult_le_compat_r; [|exact Q12].
    assert (X : ((1 + u) * (1 + a) == 1 + u + a + a * u)%Q) by ring. rewrite X. lra.
Qed.

Lemma near_mul : forall k1 k2 i j x y q1 q2, near k1 i x q1 -> near k2 j y q2 ->
  0 <= i <= 1000000 -> 0 <= j <= 1000000 -> 0 <= k1 -> 0 <= k2 -> k1 + k2 <= 800 ->
  near (k1 + k2 + 2) (i + j + 2) (fmul x y) (q1 * q2).
Proof.
  intros k1 k2 i j x y q1 q2 Hx Hy Hi Hj K1 K2 K.
  destruct Hx as [[-> X]|(X1 & X2 & X3)]; destruct Hy as [[-> Y]|(Y1 & Y2 & Y3)].
  - left. split; [reflexivity|]. rewrite X. ring.
  - left. split; [|rewrite X; ring]. destruct Y1 as (m & e & -> & _). reflexivity.
  - left. split; [|rewrite Y; ring]. destruct X1 as (m & e & -> & _). reflexivity.
  - right. destruct (fmul_nrm k1 k2 x y X1 Y1 K1 K2 K) as [F1 F2]. split; [exact F1|].
    split; [apply Qmult_lt_0_compat; auto|]. eapply rel_mul; eauto.
Qed.

Lemma near_div : forall k1 k2 i j x y q1 q2, near k1 i x q1 -> near k2 j y q2 -> (0 < q2)%Q ->
  0 <= i <= 1000000 -> 0 <= j <= 1000000 -> 0 <= k1 -> 0 <= k2 -> k1 + k2 <= 800 ->
  near (k1 + k2 + 2) (i + j + 2) (fdiv x y) (q1 / q2).
Proof.
  intros k1 k2 i j x y q1 q2 Hx Hy P2 Hi Hj K1 K2 K.
  destruct Hy as [[-> Y]|(Y1 & Y2 & Y3)]; [rewrite Y in P2; discriminate|].
  destruct Hx as [[-> X]|(X1 & X2 & X3)].
  - left. split; [|rewrite X; unfold Qdiv; ring]. destruct Y1 as (m & e & -> & _). reflexivity.
  - right. destruct (fdiv_nrm k1 k2 x y X1 Y1 K1 K2 K) as [F1 F2]. split; [exact F1|].
    split; [unfold Qdiv; apply Qmult_lt_0_compat; auto; apply Qinv_lt_0_compat; auto|].
    eapply rel_div; eauto.
Qed.

Lemma near_add : forall k i x y q1 q2, near k i x q1 -> near k i y q2 ->
  0 <= i <= 1000000 -> 0 <= k <= 800 -> near (k + 2) (i + 2) (fadd x y) (q1 + q2).
Proof.
  intros k i x y q1 q2 Hx Hy Hi K.
  destruct Hx as [[-> X]|(X1 & X2 & X3)].
  - destruct Hy as [[-> Y]|(Y1 & Y2 & Y3)].
    + left. split; [reflexivity|]. rewrite X, Y. reflexivity.
    + apply (near_weak k i); try lia. apply (near_eq _ _ _ q2); [rewrite X; ring|].
      right. assert (E : fadd (S754_zero false) y = y) by (destruct Y1 as (m & e & -> & _); reflexivity).
      rewrite E. auto.
  - destruct Hy as [[-> Y]|(Y1 & Y2 & Y3)].
    + apply (near_weak k i); try lia. apply (near_eq _ _ _ q1); [rewrite Y; ring|].
      right. assert (E : fadd x (S754_zero false) = x) by (destruct X1 as (m & e & -> & _); reflexivity).
      rewrite E. auto.
    + right. destruct (fadd_nrm k x y X1 Y1 K) as [F1 F2]. split; [exact F1|].
      split; [lra|]. eapply rel_add; eauto.
Qed.

(** ** Uses of [near] *)

Definition near_b (k j : Z) (x : float) (q : Q) : bool :=
  match x with
  | S754_zero false => Qeq_bool q 0
  | S754_finite false m e =>
      (2 ^ 52 <=? Zpos m) && (Zpos m <? 2 ^ 53) && (Z.abs (e + 52) <=? k)
      && negb (Qle_bool q 0)
      && Qle_bool ((1 - inject_Z j * u) * q) (val x) && Qle_bool (val x) ((1 + inject_Z j * u) * q)
  | _ => false
  end.
Lemma near_b_sound : forall k j x q, near_b k j x q = true -> near k j x q.
Proof.
  intros k j x q H. unfold near_b in H. destruct x as [[|]| | |[|] m e]; try discriminate.
  - left. split; [reflexivity|apply Qeq_bool_iff; exact H].
  - right. rewrite !andb_true_iff in H. destruct H as (((((Ha & Hb) & Hc) & Hq) & Hl) & Hh).
    apply Z.leb_le in Ha, Hc. apply Z.ltb_lt in Hb. split; [exists m, e|split].
    + split; [reflexivity|]. lia.
    + apply Qnot_le_lt. intro L. apply Qle_bool_iff in L. rewrite L in Hq. discriminate.
    + split; apply Qle_bool_iff; assumption.
Qed.

Lemma near_value : forall k j x q, near k j x q -> fvalue x = Some (val x).
Proof.
  intros k j x q [[-> _]|((m & e & -> & _) & _)]; reflexivity.
Qed.

Lemma near_abs : forall k j x q, near k j x q -> 0 <= j ->
  (Qabs (val x - q) <= inject_Z j * u * q)%Q.
Proof.
  intros k j x q [[-> Hq]|(_ & _ & H)] Hj; [|apply rel_abs; exact H].
  change (val (S754_zero false)) with 0%Q. rewrite Hq, Qmult_0_r. vm_compute. discriminate.
Qed.

Lemma near_nonneg : forall k j x q, near k j x q -> (0 <= q)%Q.
Proof.
  intros k j x q [[_ Hq]|(_ & Hq & _)]; [rewrite Hq; apply Qle_refl|apply Qlt_le_weak; exact Hq].
Qed.

Lemma near_within : forall k j x q eps B, near k j x q -> 0 <= j -> (q <= B)%Q ->
  (inject_Z j * u * B <= eps)%Q -> within eps (Some x) q.
Proof.
  intros k j x q eps B H Hj HB He. exists x, (val x). split; [reflexivity|].
  split; [exact (near_value _ _ _ _ H)|].
  eapply Qle_trans; [apply (near_abs k j); auto|]. eapply Qle_trans; [|exact He].
  assert (0 <= inject_Z j * u)%Q.
  { apply Qmult_le_0_compat; [|vm_compute; discriminate].
    change 0%Q with (inject_Z 0). rewrite <- Zle_Qle. exact Hj. }
  rewrite (Qmult_comm _ q), (Qmult_comm _ B). apply Qmult_le_compat_r; assumption.
Qed.

Lemma near_num : forall k x q, near k 0 x q -> is_num (Some x) q.
Proof.
  intros k x q H. exists x, (val x). split; [reflexivity|].
  split; [exact (near_value _ _ _ _ H)|].
  assert (A := near_abs k 0 x q H (Z.le_refl 0)).
  assert (B : (inject_Z 0 * u * q == 0)%Q) by (change (inject_Z 0) with 0%Q; ring). rewrite B in A.
  apply Qabs_Qle_condition in A. destruct A as [A1 A2]. apply Qle_antisym; lra.
Qed.

Lemma frac_Qval : forall m e, (val (S754_finite false m e)
  == inject_Z (fst (frac_of m e)) / inject_Z (snd (frac_of m e)))%Q.
Proof.
  intros m e. rewrite val_fin. cbn [signed]. destruct e as [|k|k]; cbn [frac_of fst snd].
  - change (p2 0) with 1%Q. unfold Qdiv. change (/ inject_Z 1)%Q with 1%Q. reflexivity.
  - rewrite p2_Z by lia. rewrite <- inject_Z_mult, <- Pos2Z.inj_pow.
    unfold Qdiv. change (/ inject_Z 1)%Q with 1%Q. rewrite Qmult_1_r. reflexivity.
  - change (Zneg k) with (- Zpos k). rewrite p2_opp, p2_Z by lia. rewrite <- Pos2Z.inj_pow. reflexivity.
Qed.

Lemma frac_den_pos : forall m e, 0 < snd (frac_of m e).
Proof. intros m [|k|k]; cbn; lia. Qed.

Lemma nrm_plain : forall k x, nrm k x -> k <= 900 -> ((1 # 1000) <= val x)%Q ->
  (val x < inject_Z (10 ^ 15))%Q -> plain x = true.
Proof.
  intros k x (m & e & -> & Hm & He) Hk Hlo Hhi.
  assert (Hd := frac_den_pos m e). rewrite frac_Qval in Hlo, Hhi.
  cbn [plain]. destruct (frac_of m e) as [n d]. cbn [fst snd] in *.
  assert (Hd' : (0 < inject_Z d)%Q) by (change 0%Q with (inject_Z 0); rewrite <- Zlt_Qlt; exact Hd).
  assert (Nd : ~ (inject_Z d == 0)%Q) by (intro Z0; rewrite Z0 in Hd'; discriminate).
  rewrite !andb_true_iff. repeat split.
  - apply Z.leb_le. lia.
  - apply Z.ltb_lt. lia.
  - apply Z.leb_le. lia.
  - apply Z.leb_le. lia.
  - apply Z.leb_le. rewrite Zle_Qle, inject_Z_mult.
    apply (Qmult_le_r _ _ (inject_Z d * (1000 # 1))) in Hlo.
    2:{ apply Qmult_lt_0_compat; [exact Hd'|reflexivity]. }
    setoid_replace ((1 # 1000) * (inject_Z d * (1000 # 1)))%Q with (inject_Z d) in Hlo by ring.
    setoid_replace (inject_Z n / inject_Z d * (inject_Z d * (1000 # 1)))%Q
      with (inject_Z n * (1000 # 1))%Q in Hlo by (field; exact Nd).
    exact Hlo.
  - apply Z.ltb_lt. rewrite Zlt_Qlt, inject_Z_mult.
    apply (Qmult_lt_r _ _ (inject_Z d)) in Hhi; [|exact Hd'].
    setoid_replace (inject_Z n / inject_Z d * inject_Z d)%Q with (inject_Z n) in Hhi by (field; exact Nd).
    exact Hhi.
Qed.

Lemma near_plain : forall k j x q, near k j x q -> 0 <= j <= 1000000 -> k <= 900 ->
  ((q == 0)%Q \/ ((2 # 1000) <= q)%Q) -> (q <= inject_Z (10 ^ 14))%Q -> plain x = true.
Proof.
  intros k j x q [[-> _]|(H1 & H2 & H3)] Hj Hk Hq HB; [reflexivity|].
  destruct Hq as [Hq|Hq]; [rewrite Hq in H2; discriminate|].
  destruct (small_u j Hj) as [S1 S2]. destruct H3 as [L H].
  set (a := (inject_Z j * u)%Q) in *. apply (nrm_plain k); auto.
  - eapply Qle_trans; [|exact L]. eapply Qle_trans; [|apply Qmult_le_compat_r; [|apply Qlt_le_weak; exact H2]].
    2:{ instantiate (1 := (1 # 2)%Q). lra. }
    lra.
  - eapply Qle_lt_trans; [exact H|].
    apply Qle_lt_trans with ((2 # 1) * q)%Q; [apply Qmult_le_compat_r; lra|].
    eapply Qle_lt_trans; [apply Qmult_le_l; [reflexivity|exact HB]|]. reflexivity.
Qed.

(** ** Fixed point notation read back *)

Lemma digits_zero : forall k, digits k 0 = repeat 48%N k.
Proof.
  induction k as [|k IH]; [reflexivity|]. cbn [digits]. change (0 / 10)%N with 0%N.
  rewrite IH. change [dig (0 mod 10)] with [48%N]. symmetry. exact (repeat_cons k 48%N).
Qed.

Lemma digits_pad : forall j k n, (n < 10 ^ N.of_nat j)%N ->
  digits (k + j) n = repeat 48%N k ++ digits j n.
Proof.
  induction j as [|j IH]; intros k n Hn.
  - assert (n = 0%N) by (change (10 ^ N.of_nat 0)%N with 1%N in Hn; lia). subst n.
    rewrite Nat.add_0_r, digits_zero. cbn [digits]. rewrite app_nil_r. reflexivity.
  - rewrite Nat.add_succ_r. cbn [digits]. rewrite IH, app_assoc; [reflexivity|].
    apply N.div_lt_upper_bound; [discriminate|]. rewrite Nat2N.inj_succ, N.pow_succ_r' in Hn. exact Hn.
Qed.

Lemma zfill_digits : forall k n, (1 <= k)%nat -> (n < 10 ^ N.of_nat k)%N -> zfill_N k n = digits k n.
Proof.
  intros k n Hk Hn. unfold zfill_N. destruct (N_str_digits n) as (j & E & Hj & Hlt & Hmin).
  rewrite E, digits_len.
  assert (L : (j <= k)%nat).
  { destruct Hmin as [[_ ->]|Hmin]; [exact Hk|].
    assert (10 ^ N.of_nat (j - 1) < 10 ^ N.of_nat k)%N by lia.
    apply N.pow_lt_mono_r_iff in H; lia. }
  rewrite <- digits_pad by exact Hlt. f_equal. lia.
Qed.

Lemma fixed_point_parse : forall k q, (1 <= k <= 300)%nat -> 0 <= q < 10 ^ 50 ->
  parse_float (fixed_point k q) = Some (float_of_dec false (Z.to_N q) (- Z.of_nat k)).
Proof.
  intros k q Hk Hq. unfold fixed_point. set (P := 10 ^ Z.of_nat k).
  assert (HP : 0 < P) by (apply Z.pow_pos_nonneg; lia).
  assert (Hdiv : 0 <= q / P) by (apply Z.div_pos; lia).
  assert (Hmod := Z.mod_pos_bound q P HP). assert (Hdm := Z.div_mod q P ltac:(lia)).
  assert (EP : Z.of_N (10 ^ N.of_nat k) = P) by (rewrite N2Z.inj_pow, nat_N_Z; reflexivity).
  rewrite zfill_digits; [|lia|].
  2:{ apply N2Z.inj_lt. rewrite EP, Z2N.id; lia. }
  destruct (N_str_digits (Z.to_N (q / P))) as (j & E & Hj & Hlt & Hmin). rewrite E.
  change (py ".") with [46%N]. cbn [app].
  assert (Hparse := parse_float_point false (digits j (Z.to_N (q / P))) (digits k (Z.to_N (q mod P)))).
  cbn [sign_str app] in Hparse. rewrite Hparse; auto using digits_are.
  2:{ intro H. apply (f_equal (@length N)) in H. rewrite digits_len in H. simpl in H. lia. }
  2:{ intro H. apply (f_equal (@length N)) in H. rewrite digits_len in H. simpl in H. lia. }
  rewrite dval_app, dval_acc, dval_digits, dval_digits, !digits_len; auto.
  2:{ apply N2Z.inj_lt. rewrite EP, Z2N.id; lia. }
  assert (EV : (Z.to_N (q / P) * 10 ^ N.of_nat k + Z.to_N (q mod P))%N = Z.to_N q).
  { apply N2Z.inj. rewrite N2Z.inj_add, N2Z.inj_mul, EP, !Z2N.id by lia. lia. }
  rewrite EV. f_equal. unfold dec_to_float. destruct (N.eqb_spec (Z.to_N q) 0) as [Z0|Z0].
  - rewrite Z0. reflexivity.
  - assert (Hj50 : (j <= 51)%nat).
    { destruct Hmin as [[_ ->]|Hmin]; [lia|].
      assert (Hq' : (Z.to_N (q / P) < 10 ^ 50)%N).
      { apply N2Z.inj_lt. rewrite Z2N.id by lia. change (Z.of_N (10 ^ 50)) with (10 ^ 50).
        apply Z.div_lt_upper_bound; [lia|]. nia. }
      assert (H : (10 ^ N.of_nat (j - 1) < 10 ^ 50)%N) by lia.
      apply N.pow_lt_mono_r_iff in H; lia. }
    replace (400 <? Z.of_nat (j + k) + - Z.of_nat k) with false by (symmetry; apply Z.ltb_ge; lia).
    replace (Z.of_nat (j + k) + - Z.of_nat k <? -400) with false by (symmetry; apply Z.ltb_ge; lia).
    reflexivity.
Qed.

Lemma float_of_dec_near : forall p k, (1 <= k <= 20)%nat -> Zpos p < 10 ^ 50 ->
  near 300 1 (float_of_dec false (Npos p) (- Z.of_nat k))
             (inject_Z (Zpos p) / inject_Z (10 ^ Z.of_nat k)).
Proof.
  intros p k Hk Hp.
  assert (HD : dec_den (- Z.of_nat k) = 10 ^ Z.of_nat k) by (unfold dec_den; f_equal; lia).
  assert (HN : dec_num (Zpos p) (- Z.of_nat k) = Zpos p).
  { unfold dec_num. replace (Z.max 0 (- Z.of_nat k)) with 0 by lia. lia. }
  assert (Pk : 0 < 10 ^ Z.of_nat k) by (apply Z.pow_pos_nonneg; lia).
  assert (Pk20 : 10 ^ Z.of_nat k <= 10 ^ 20) by (apply Z.pow_le_mono_r; lia).
  destruct (float_of_dec_rounds false p (- Z.of_nat k)) as (M & E & R & ->).
  { rewrite HD. assert (10 ^ 20 <= 2 ^ 1000) by (vm_compute; discriminate). lia. }
  rewrite HN, HD in R. set (D := 10 ^ Z.of_nat k) in *.
  assert (HD' : (0 < inject_Z D)%Q) by (change 0%Q with (inject_Z 0); rewrite <- Zlt_Qlt; exact Pk).
  assert (Hlo : (p2 (- 299) <= inject_Z (Zpos p) / inject_Z D)%Q).
  { apply Qle_shift_div_l; [exact HD'|]. apply Qle_trans with (p2 (-299) * inject_Z (10 ^ 20))%Q.
    - apply Qmult_le_l; [apply p2_pos|]. rewrite <- Zle_Qle. exact Pk20.
    - apply Qle_trans with (inject_Z 1); [vm_compute; discriminate|]. rewrite <- Zle_Qle. lia. }
  assert (Hhi : (inject_Z (Zpos p) / inject_Z D < p2 (299 + 1))%Q).
  { apply Qlt_shift_div_r; [exact HD'|]. apply Qlt_le_trans with (inject_Z (10 ^ 50)).
    - rewrite <- Zlt_Qlt. exact Hp.
    - rewrite <- (Qmult_1_r (inject_Z (10 ^ 50))). apply Qmult_le_compat_nonneg; split.
      + vm_compute; discriminate.
      + rewrite p2_Z by lia. rewrite <- Zle_Qle. vm_compute. discriminate.
      + discriminate.
      + change 1%Q with (inject_Z 1). rewrite <- Zle_Qle. lia. }
  assert (HK : 0 <= 299 <= 900) by lia.
  destruct (finish_near (Zpos p) D M E 299 Pk R HK Hlo Hhi) as [F1 F2].
  right. split; [exact F1|]. split.
  - eapply Qlt_le_trans; [apply (p2_pos (-299))|exact Hlo].
  - change (inject_Z 1) with 1%Q. rewrite Qmult_1_l. exact F2.
Qed.

Lemma round_half_even_near : forall n d, 0 < d ->
  2 * Z.abs (round_half_even n d * d - n) <= d.
Proof.
  intros n d Hd. unfold round_half_even. assert (Hm := Z.mod_pos_bound n d Hd).
  assert (Hdm := Z.div_mod n d ltac:(lia)).
  destruct (Z.compare_spec (2 * (n mod d)) d); [destruct (Z.even _)| |]; nia.
Qed.

Lemma format_parse : forall x, (exists k, nrm k x) -> ((1 # 1000) <= val x)%Q ->
  (val x <= inject_Z 1000000)%Q ->
  exists y q, parse_float (format_fixed 10 x) = Some y /\ near 300 1 y q
    /\ (Qabs (q - val x) <= (1 # 2) * (1 # 10 ^ 10))%Q.
Proof.
  intros x (k & m & e & -> & Hm & _) Hlo Hhi.
  assert (Ev := frac_Qval m e). rewrite Ev in Hlo, Hhi.
  assert (Hd := frac_den_pos m e). cbn [format_fixed sign_str app].
  destruct (frac_of m e) as [n d]. cbn [fst snd] in *.
  set (q := round_half_even (n * 10 ^ Z.of_nat 10) d).
  assert (Hq := round_half_even_near (n * 10 ^ Z.of_nat 10) d Hd). fold q in Hq.
  change (10 ^ Z.of_nat 10) with (10 ^ 10) in Hq.
  assert (Hd' : (0 < inject_Z d)%Q) by (change 0%Q with (inject_Z 0); rewrite <- Zlt_Qlt; exact Hd).
  assert (Nd : ~ (inject_Z d == 0)%Q) by (intro Z0; rewrite Z0 in Hd'; discriminate).
  assert (Hlo' : d <= n * 1000).
  { rewrite Zle_Qle, inject_Z_mult.
    apply (Qmult_le_r _ _ (inject_Z d * (1000 # 1))) in Hlo.
    2:{ apply Qmult_lt_0_compat; [exact Hd'|reflexivity]. }
    setoid_replace ((1 # 1000) * (inject_Z d * (1000 # 1)))%Q with (inject_Z d) in Hlo by ring.
    setoid_replace (inject_Z n / inject_Z d * (inject_Z d * (1000 # 1)))%Q
      with (inject_Z n * (1000 # 1))%Q in Hlo by (field; exact Nd).
    exact Hlo. }
  assert (Hhi' : n <= 1000000 * d).
  { rewrite Zle_Qle, inject_Z_mult.
    apply (Qmult_le_r _ _ (inject_Z d)) in Hhi; [|exact Hd'].
    setoid_replace (inject_Z n / inject_Z d * inject_Z d)%Q with (inject_Z n) in Hhi by (field; exact Nd).
    exact Hhi. }
  assert (Hq0 : 0 < q) by nia. assert (Hq1 : q <= 1000000 * 10 ^ 10) by nia.
  rewrite fixed_point_parse; [|lia|].
  2:{ assert (1000000 * 10 ^ 10 < 10 ^ 50) by reflexivity. lia. }
  destruct q as [|p|p] eqn:Ep; try lia. cbn [Z.to_N].
  assert (N := float_of_dec_near p 10 ltac:(lia)).
  assert (Hp : Zpos p < 10 ^ 50) by (assert (1000000 * 10 ^ 10 < 10 ^ 50) by reflexivity; lia).
  specialize (N Hp). set (y := float_of_dec false (Npos p) (- Z.of_nat 10)) in *.
  exists y, (inject_Z (Zpos p) / inject_Z (10 ^ 10))%Q. split; [reflexivity|]. split; [exact N|].
  assert (A : (Qabs (inject_Z (Zpos p) / inject_Z (10 ^ 10) - inject_Z n / inject_Z d)
               <= (1 # 2) * (1 # 10 ^ 10))%Q).
  { setoid_replace (inject_Z (Zpos p) / inject_Z (10 ^ 10) - inject_Z n / inject_Z d)%Q
      with (inject_Z (Zpos p * d - n * 10 ^ 10) * (1 # 10 ^ 10) / inject_Z d)%Q.
    2:{ unfold Z.sub. rewrite inject_Z_plus, inject_Z_opp, !inject_Z_mult.
        change (1 # 10 ^ 10)%Q with (/ inject_Z (10 ^ 10))%Q. field. split; auto. discriminate. }
    unfold Qdiv. rewrite !Qabs_Qmult. rewrite (Qabs_pos (/ inject_Z d))
      by (apply Qlt_le_weak, Qinv_lt_0_compat; exact Hd').
    change (Qabs (1 # 10 ^ 10)) with (1 # 10 ^ 10)%Q.
    apply Qle_shift_div_r; [exact Hd'|].
    change (Qabs (inject_Z (Zpos p * d - n * 10 ^ 10))) with (inject_Z (Z.abs (Zpos p * d - n * 10 ^ 10))).
    setoid_replace ((1 # 2) * (1 # 10 ^ 10) * inject_Z d)%Q
      with ((1 # 2) * inject_Z d * (1 # 10 ^ 10))%Q by ring.
    apply Qmult_le_compat_r; [|discriminate].
    apply (Qmult_le_l _ _ (inject_Z 2)); [reflexivity|].
    rewrite <- inject_Z_mult.
    setoid_replace (inject_Z 2 * ((1 # 2) * inject_Z d))%Q with (inject_Z d) by ring.
    rewrite <- Zle_Qle. exact Hq. }
  rewrite Ev. exact A.
Qed.

(** The distance between a value near [q] and its ten decimals. *)
Lemma near_format : forall k j x q, near k j x q -> 0 <= j <= 1000000 ->
  ((q == 0)%Q \/ ((2 # 1000) <= q)%Q) -> (q <= inject_Z 900000)%Q ->
  exists y q', parse_float (format_fixed 10 x) = Some y /\ near 300 1 y q'
    /\ (Qabs (q' - q) <= (1 # 2) * (1 # 10 ^ 10) + inject_Z j * u * q)%Q.
Proof.
  intros k j x q H Hj Hq HB. assert (A := near_abs _ _ _ _ H (proj1 Hj)).
  destruct H as [[-> Z0]|(H1 & H2 & H3)].
  - exists (S754_zero false), 0%Q. split; [vm_compute; reflexivity|]. split; [left; split; reflexivity|].
    rewrite Z0, Qmult_0_r. vm_compute. discriminate.
  - destruct Hq as [Hq|Hq]; [rewrite Hq in H2; discriminate|].
    destruct (small_u j Hj) as [S1 S2]. destruct H3 as [L H].
    set (a := (inject_Z j * u)%Q) in *.
    destruct (format_parse x (ex_intro _ k H1)) as (y & q' & E & N & D).
    + eapply Qle_trans; [|exact L]. apply Qle_trans with ((1 # 2) * q)%Q; [lra|].
      apply Qmult_le_compat_r; [lra|apply Qlt_le_weak; exact H2].
    + eapply Qle_trans; [exact H|]. apply Qle_trans with ((11 # 10) * q)%Q.
      * apply Qmult_le_compat_r; [lra|apply Qlt_le_weak; exact H2].
      * eapply Qle_trans; [apply Qmult_le_l; [reflexivity|exact HB]|]. discriminate.
    + exists y, q'. split; [exact E|]. split; [exact N|].
      setoid_replace (q' - q)%Q with ((q' - val x) + (val x - q))%Q by ring.
      eapply Qle_trans; [apply Qabs_triangle|]. apply Qplus_le_compat; assumption.
Qed.

(** Whole numbers are written and read exactly. *)
Lemma format_whole : forall p, Zpos p < 1000000 ->
  parse_float (format_fixed 10 (float_of_Z (Zpos p))) = Some (float_of_Z (Zpos p)).
Proof.
  intros p Hp. destruct (float_of_pos p) as [(m & e & E & Hm & He) Hv].
  { assert (1000000 < 2 ^ 53) by reflexivity. lia. }
  rewrite E at 1. rewrite E in Hv. rewrite frac_Qval in Hv.
  assert (Hd := frac_den_pos m e). cbn [format_fixed sign_str app].
  destruct (frac_of m e) as [n d]. cbn [fst snd] in *.
  assert (Hd' : (0 < inject_Z d)%Q) by (change 0%Q with (inject_Z 0); rewrite <- Zlt_Qlt; exact Hd).
  assert (En : n = Zpos p * d).
  { apply inject_Z_injective. rewrite inject_Z_mult, <- Hv. field. intro Z0. rewrite Z0 in Hd'. discriminate. }
  change (10 ^ Z.of_nat 10) with (10 ^ 10).
  assert (Er : round_half_even (n * 10 ^ 10) d = Zpos p * 10 ^ 10).
  { unfold round_half_even. replace (n * 10 ^ 10) with (Zpos p * 10 ^ 10 * d) by (rewrite En; ring).
    rewrite Z.div_mul, Z_mod_mult by lia. replace (2 * 0 ?= d) with Lt by (symmetry; apply Z.compare_lt_iff; lia).
    reflexivity. }
  rewrite Er, fixed_point_parse; [|lia|].
  2:{ assert (1000000 * 10 ^ 10 < 10 ^ 50) by reflexivity. lia. }
  f_equal. change (float_of_Z (Zpos p)) with (float_of_dec false (Npos p) 0).
  assert (Ep : Z.of_N (Z.to_N (Zpos p * 10 ^ 10)) = Zpos p * 10 ^ 10) by (apply Z2N.id; lia).
  assert (D10 : dec_den (- Z.of_nat 10) = 10 ^ 10) by reflexivity.
  assert (P1000 : 10 ^ 10 < 2 ^ 1000) by reflexivity.
  apply float_of_dec_eq; rewrite ?Ep, ?D10.
  - lia.
  - lia.
  - lia.
  - change (dec_den 0) with 1. cbn [Z.of_N]. lia.
  - change (dec_den 0) with 1. unfold dec_num. change (Z.max 0 (- Z.of_nat 10)) with 0.
    change (Z.max 0 0) with 0. cbn [Z.of_N]. ring.
Qed.

(** ** Comparisons *)

Lemma valid_cases : forall s m e, fvalid (S754_finite s m e) ->
  -1074 <= e <= 971 /\ Zpos m < 2 ^ 53 /\ (2 ^ 52 <= Zpos m \/ e = -1074).
Proof.
  intros s m e H. unfold fvalid in H. cbn [valid_binary] in H. unfold bounded, canonical_mantissa in H.
  apply andb_true_iff in H. destruct H as [H1 H2]. apply Zeq_is_eq_bool in H1. apply Z.leb_le in H2.
  unfold fexp, emin in H1. assert (Hb := digits2_bound m). set (d := Zpos (digits2_pos m)) in *.
  assert (Hd : 0 < d) by (subst d; lia).
  split; [lia|]. assert (d <= 53) by lia. split.
  - apply Z.lt_le_trans with (2 ^ d); [lia|]. apply Z.pow_le_mono_r; lia.
  - destruct (Z.eq_dec d 53) as [E|E]; [left|right; lia]. rewrite E in Hb. apply Hb.
Qed.

Lemma nrm_fvalid : forall k x, nrm k x -> k <= 900 -> fvalid x.
Proof.
  intros k x (m & e & -> & Hm & He) Hk. unfold fvalid. cbn [valid_binary].
  unfold bounded, canonical_mantissa. apply andb_true_iff. split.
  - apply Zeq_is_eq_bool. unfold fexp, emin.
    assert (Hb := digits2_bound m). set (d := Zpos (digits2_pos m)) in *.
    assert (d = 53).
    { subst d. apply (pow2_unique _ _ (Zpos m)); lia. }
    lia.
  - apply Z.leb_le. lia.
Qed.

Lemma mag_order : forall m1 e1 m2 e2, Zpos m1 < 2 ^ 53 -> 2 ^ 52 <= Zpos m2 -> e1 < e2 ->
  (inject_Z (Zpos m1) * p2 e1 < inject_Z (Zpos m2) * p2 e2)%Q.
Proof.
  intros m1 e1 m2 e2 H1 H2 He. replace e2 with (1 + e1 + (e2 - e1 - 1)) by lia.
  rewrite !p2_add. change (p2 1) with (inject_Z 2).
  apply Qlt_le_trans with (inject_Z (2 ^ 53) * p2 e1)%Q.
  - apply Qmult_lt_r; [apply p2_pos|]. rewrite <- Zlt_Qlt. exact H1.
  - rewrite (p2_Z (e2 - e1 - 1)) by lia.
    setoid_replace (inject_Z (Zpos m2) * (inject_Z 2 * p2 e1 * inject_Z (2 ^ (e2 - e1 - 1))))%Q
      with (inject_Z (Zpos m2 * 2 * 2 ^ (e2 - e1 - 1)) * p2 e1)%Q by (rewrite !inject_Z_mult; ring).
    apply Qmult_le_compat_r; [|apply Qlt_le_weak, p2_pos]. rewrite <- Zle_Qle.
    assert (0 < 2 ^ (e2 - e1 - 1)) by (apply Z.pow_pos_nonneg; lia).
    change (2 ^ 53) with (2 ^ 52 * 2). nia.
Qed.

Lemma mag_compare : forall s m1 e1 m2 e2, fvalid (S754_finite s m1 e1) -> fvalid (S754_finite s m2 e2) ->
  match Z.compare e1 e2 with
  | Lt => (inject_Z (Zpos m1) * p2 e1 < inject_Z (Zpos m2) * p2 e2)%Q
  | Gt => (inject_Z (Zpos m2) * p2 e2 < inject_Z (Zpos m1) * p2 e1)%Q
  | Eq => match Pos.compare_cont Eq m1 m2 with
          | Lt => (inject_Z (Zpos m1) * p2 e1 < inject_Z (Zpos m2) * p2 e2)%Q
          | Gt => (inject_Z (Zpos m2) * p2 e2 < inject_Z (Zpos m1) * p2 e1)%Q
          | Eq => (inject_Z (Zpos m1) * p2 e1 == inject_Z (Zpos m2) * p2 e2)%Q
          end
  end.
Proof.
  intros s m1 e1 m2 e2 V1 V2. apply valid_cases in V1, V2.
  destruct V1 as (E1 & M1 & C1), V2 as (E2 & M2 & C2).
  destruct (Z.compare_spec e1 e2) as [->|L|L].
  - assert (P := p2_pos e2). change (Pos.compare_cont Eq m1 m2) with (Pos.compare m1 m2).
    destruct (Pos.compare_spec m1 m2) as [->|L|L].
    + reflexivity.
    + apply Qmult_lt_r; [exact P|]. rewrite <- Zlt_Qlt. lia.
    + apply Qmult_lt_r; [exact P|]. rewrite <- Zlt_Qlt. lia.
  - apply mag_order; auto. destruct C2; [assumption|lia].
  - apply mag_order; auto. destruct C1; [assumption|lia].
Qed.

Definition finite (x : float) : bool :=
  match x with S754_zero _ | S754_finite _ _ _ => true | _ => false end.

Lemma mag_pos : forall m e, (0 < inject_Z (Zpos m) * p2 e)%Q.
Proof. intros m e. apply Qmult_lt_0_compat; [reflexivity|apply p2_pos]. Qed.

Lemma val_neg : forall m e, (val (S754_finite true m e) == - (inject_Z (Zpos m) * p2 e))%Q.
Proof.
  intros m e. rewrite val_fin. cbn [signed]. change (Zneg m) with (- Zpos m). rewrite inject_Z_opp. ring.
Qed.

Lemma compare_val : forall x y, fvalid x -> fvalid y -> finite x = true -> finite y = true ->
  SFcompare x y = Some (Qcompare (val x) (val y)).
Proof.
  assert (LT : forall a b, (a < b)%Q -> Some Lt = Some (Qcompare a b)).
  { intros a b H. f_equal. symmetry. apply Qlt_alt. exact H. }
  assert (GT : forall a b, (b < a)%Q -> Some Gt = Some (Qcompare a b)).
  { intros a b H. f_equal. symmetry. apply Qgt_alt. exact H. }
  assert (EQ : forall a b, (a == b)%Q -> Some Eq = Some (Qcompare a b)).
  { intros a b H. f_equal. symmetry. apply Qeq_alt. exact H. }
  intros x y Vx Vy Fx Fy.
  destruct x as [sx|sx| |sx mx ex]; try discriminate;
    destruct y as [sy|sy| |sy my ey]; try discriminate; cbn [SFcompare].
  - apply EQ. reflexivity.
  - destruct sy.
    + apply GT. rewrite val_neg. change (val (S754_zero sx)) with 0%Q. assert (P := mag_pos my ey). lra.
    + apply LT. rewrite val_fin. cbn [signed]. change (val (S754_zero sx)) with 0%Q. apply mag_pos.
  - destruct sx.
    + apply LT. rewrite val_neg. change (val (S754_zero sy)) with 0%Q. assert (P := mag_pos mx ex). lra.
    + apply GT. rewrite val_fin. cbn [signed]. change (val (S754_zero sy)) with 0%Q. apply mag_pos.
  - assert (Px := mag_pos mx ex). assert (Py := mag_pos my ey).
    destruct sx, sy.
    + assert (C := mag_compare true mx ex my ey Vx Vy).
      destruct (Z.compare ex ey); [destruct (Pos.compare_cont Eq mx my)| |]; cbn [CompOpp];
        [apply EQ|apply GT|apply LT|apply GT|apply LT]; rewrite !val_neg; lra.
    + apply LT. rewrite val_neg, val_fin. cbn [signed]. lra.
    + apply GT. rewrite val_neg, val_fin. cbn [signed]. lra.
    + assert (C := mag_compare false mx ex my ey Vx Vy).
      destruct (Z.compare ex ey); [destruct (Pos.compare_cont Eq mx my)| |];
        [apply EQ|apply LT|apply GT|apply LT|apply GT]; rewrite !val_fin; cbn [signed]; lra.
Qed.

Lemma fltb_val : forall x y, fvalid x -> fvalid y -> finite x = true -> finite y = true ->
  fltb x y = true <-> (val x < val y)%Q.
Proof.
  intros x y Vx Vy Fx Fy. unfold fltb, SFltb. rewrite compare_val by assumption.
  rewrite Qlt_alt. destruct (Qcompare (val x) (val y)); split; intro H; congruence.
Qed.
Lemma fleb_val : forall x y, fvalid x -> fvalid y -> finite x = true -> finite y = true ->
  fleb x y = true <-> (val x <= val y)%Q.
Proof.
  intros x y Vx Vy Fx Fy. unfold fleb, SFleb. rewrite compare_val by assumption.
  rewrite Qle_alt. destruct (Qcompare (val x) (val y)); split; intro H; congruence.
Qed.
