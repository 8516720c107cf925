(** * Proofs for property C57: unit conversions *)
From Coq Require Import String Ascii.
From Coq Require Import List NArith ZArith Bool Lia QArith Qabs Qpower Lqa.
From Coq Require Import Floats.SpecFloat.
From Verif Require Import PyBase PyFloat SpecNum Rounding ReprFacts FloatFacts Utils Base Accessors SpecConv.
Import ListNotations.
Local Open Scope string_scope.
Local Open Scope list_scope.
Local Open Scope Z_scope.

(** ** Numbers of either sign *)

(** Zero, or a normal number of magnitude 2^-k to 2^(k+1). *)
Definition fin (k : Z) (x : float) : Prop :=
  (exists s, x = S754_zero s)
  \/ exists s m e, x = S754_finite s m e /\ 2 ^ 52 <= Zpos m < 2 ^ 53 /\ - k <= e + 52 <= k.

(** [x] is [q] up to one rounding. *)
Definition once (x : float) (q : Q) : Prop := (Qabs (val x - q) <= u * Qabs q)%Q.

Lemma fin_abs : forall k x, fin k x ->
  (exists s, x = S754_zero s) \/ nrm k x \/ nrm k (SFopp x).
Proof.
  intros k x [H|(s & m & e & -> & Hm & He)]; [left; exact H|right].
  destruct s; [right|left]; exists m, e; auto.
Qed.

Lemma nrm_fin : forall k x, nrm k x -> fin k x.
Proof. intros k x (m & e & -> & Hm & He). right. exists false, m, e. auto. Qed.

Lemma opp_opp : forall x : float, SFopp (SFopp x) = x.
Proof. intros [s|s| |s m e]; cbn [SFopp]; try rewrite negb_involutive; reflexivity. Qed.

Lemma fin_opp : forall k x, fin k x -> fin k (SFopp x).
Proof.
  intros k x [(s & ->)|(s & m & e & -> & Hm & He)]; cbn [SFopp].
  - left. eauto.
  - right. exists (negb s), m, e. auto.
Qed.

Lemma val_zero : forall s, val (S754_zero s) = 0%Q.
Proof. reflexivity. Qed.

Lemma val_opp : forall x, (val (SFopp x) == - val x)%Q.
Proof.
  intros [s|s| |s m e]; try reflexivity. cbn [SFopp]. rewrite !val_fin.
  destruct s; cbn [signed negb].
  - change (Zneg m) with (- Zpos m)%Z. rewrite inject_Z_opp. ring.
  - change (Zneg m) with (- Zpos m)%Z. rewrite inject_Z_opp. ring.
Qed.

Lemma once_opp : forall x q, once (SFopp x) (- q) -> once x q.
Proof.
  intros x q H. unfold once in *. rewrite val_opp in H.
  setoid_replace (- val x - - q)%Q with (- (val x - q))%Q in H by ring.
  rewrite !Qabs_opp in H. exact H.
Qed.

Lemma once_proper : forall x q q', (q == q')%Q -> once x q -> once x q'.
Proof. intros x q q' E H. unfold once in *. rewrite <- E. exact H. Qed.

Lemma rel_once : forall x q, (0 <= q)%Q -> rel u (val x) q -> once x q.
Proof. intros x q Hq H. apply rel_abs in H. unfold once. rewrite (Qabs_pos q Hq). exact H. Qed.

Lemma aux_opp : forall s m e l,
  binary_round_aux 53 1024 (negb s) m e l = SFopp (binary_round_aux 53 1024 s m e l).
Proof.
  intros s m e l. unfold binary_round_aux. destruct (shr_fexp _ _ m e l) as [r1 e1].
  destruct (shr_fexp _ _ _ e1 loc_Exact) as [r2 e2]. destruct (shr_m r2) as [|p|p]; auto.
  destruct (Zle_bool e2 (1024 - 53)); reflexivity.
Qed.

Lemma round_opp : forall s p e, binary_round 53 1024 (negb s) p e = SFopp (binary_round 53 1024 s p e).
Proof.
  intros s p e. unfold binary_round. destruct (shl_align _ _ _) as [m x]. apply aux_opp.
Qed.

Lemma mul_opp : forall x m e, fmul (SFopp x) (S754_finite false m e) = SFopp (fmul x (S754_finite false m e)).
Proof.
  intros [s|s| |s mx ex] m e; unfold fmul; cbn [SFopp SFmul]; try reflexivity;
    rewrite ?xorb_false_r; try reflexivity. apply aux_opp.
Qed.

Lemma div_opp : forall x m e, fdiv (SFopp x) (S754_finite false m e) = SFopp (fdiv x (S754_finite false m e)).
Proof.
  intros [s|s| |s mx ex] m e; unfold fdiv; cbn [SFopp SFdiv]; try reflexivity;
    rewrite ?xorb_false_r; try reflexivity.
  destruct (SFdiv_core_binary _ _ _ _ _ _) as [[q r] l]. apply aux_opp.
Qed.

Lemma once_zero : forall s, once (S754_zero s) 0.
Proof. intro s. unfold once. rewrite val_zero. vm_compute. discriminate. Qed.

Lemma once_exact : forall x, once x (val x).
Proof.
  intro x. unfold once. setoid_replace (val x - val x)%Q with 0%Q by ring.
  change (Qabs 0) with 0%Q. apply Qmult_le_0_compat; [vm_compute; discriminate|apply Qabs_nonneg].
Qed.

Lemma fmul_fin : forall k1 k2 x y, fin k1 x -> nrm k2 y -> 0 <= k1 -> 0 <= k2 -> k1 + k2 <= 800 ->
  fin (k1 + k2 + 2) (fmul x y) /\ once (fmul x y) (val x * val y).
Proof.
  intros k1 k2 x y Hx Hy K1 K2 HK. assert (Py := nrm_pos _ _ Hy).
  destruct (fin_abs k1 x Hx) as [(s & ->)|[Hn|Hn]].
  - destruct Hy as (m & e & -> & _). unfold fmul. cbn [SFmul]. split; [left; eauto|].
    apply (once_proper _ 0); [rewrite val_zero; ring|apply once_zero].
  - destruct (fmul_nrm k1 k2 x y Hn Hy K1 K2 HK) as [H1 H2]. split; [apply nrm_fin; exact H1|].
    apply rel_once; [|exact H2]. assert (Px := nrm_pos _ _ Hn). apply Qlt_le_weak.
    apply Qmult_lt_0_compat; assumption.
  - destruct (fmul_nrm k1 k2 (SFopp x) y Hn Hy K1 K2 HK) as [H1 H2].
    assert (E : fmul (SFopp x) y = SFopp (fmul x y)) by (destruct Hy as (m & e & -> & _); apply mul_opp).
    rewrite E in H1, H2. split.
    + rewrite <- (opp_opp (fmul x y)). apply fin_opp, nrm_fin, H1.
    + apply once_opp. apply (once_proper _ (val (SFopp x) * val y)); [rewrite val_opp; ring|].
      apply rel_once; [|exact H2]. assert (Px := nrm_pos _ _ Hn). apply Qlt_le_weak.
      apply Qmult_lt_0_compat; assumption.
Qed.

Lemma fdiv_fin : forall k1 k2 x y, fin k1 x -> nrm k2 y -> 0 <= k1 -> 0 <= k2 -> k1 + k2 <= 800 ->
  fin (k1 + k2 + 2) (fdiv x y) /\ once (fdiv x y) (val x / val y).
Proof.
  intros k1 k2 x y Hx Hy K1 K2 HK. assert (Py := nrm_pos _ _ Hy).
  assert (Pi : (0 < / val y)%Q) by (apply Qinv_lt_0_compat; exact Py).
  destruct (fin_abs k1 x Hx) as [(s & ->)|[Hn|Hn]].
  - destruct Hy as (m & e & -> & _). unfold fdiv. cbn [SFdiv]. split; [left; eauto|].
    apply (once_proper _ 0); [rewrite val_zero; unfold Qdiv; ring|apply once_zero].
  - destruct (fdiv_nrm k1 k2 x y Hn Hy K1 K2 HK) as [H1 H2]. split; [apply nrm_fin; exact H1|].
    apply rel_once; [|exact H2]. assert (Px := nrm_pos _ _ Hn). apply Qlt_le_weak.
    apply Qmult_lt_0_compat; assumption.
  - destruct (fdiv_nrm k1 k2 (SFopp x) y Hn Hy K1 K2 HK) as [H1 H2].
    assert (E : fdiv (SFopp x) y = SFopp (fdiv x y)) by (destruct Hy as (m & e & -> & _); apply div_opp).
    rewrite E in H1, H2. split.
    + rewrite <- (opp_opp (fdiv x y)). apply fin_opp, nrm_fin, H1.
    + apply once_opp. apply (once_proper _ (val (SFopp x) / val y)); [rewrite val_opp; unfold Qdiv; ring|].
      apply rel_once; [|exact H2]. assert (Px := nrm_pos _ _ Hn). apply Qlt_le_weak.
      apply Qmult_lt_0_compat; assumption.
Qed.

Lemma signed_align : forall s m e e', e' <= e ->
  (inject_Z (cond_Zopp s (Zpos (fst (shl_align m e e')))) * p2 e' == val (S754_finite s m e))%Q.
Proof.
  intros s m e e' H. rewrite val_fin. assert (A := align_val m e e' H).
  destruct s; cbn [cond_Zopp signed].
  - change (Zneg m) with (- Zpos m)%Z. rewrite !inject_Z_opp.
    setoid_replace (- inject_Z (Zpos (fst (shl_align m e e'))) * p2 e')%Q
      with (- (inject_Z (Zpos (fst (shl_align m e e'))) * p2 e'))%Q by ring.
    rewrite A. ring.
  - exact A.
Qed.

Lemma fin_bound : forall k x, fin k x -> (Qabs (val x) <= p2 (k + 1))%Q.
Proof.
  intros k x H. destruct (fin_abs k x H) as [(s & ->)|[Hn|Hn]].
  - rewrite val_zero. change (Qabs 0) with 0%Q. apply Qlt_le_weak, p2_pos.
  - rewrite Qabs_pos by (apply Qlt_le_weak; exact (nrm_pos _ _ Hn)). apply Qlt_le_weak.
    apply nrm_val. exact Hn.
  - rewrite <- Qabs_opp, <- val_opp. rewrite Qabs_pos by (apply Qlt_le_weak; exact (nrm_pos _ _ Hn)).
    apply Qlt_le_weak. apply nrm_val. exact Hn.
Qed.

Lemma normalize_fin : forall n ez k q, 0 <= k <= 700 -> - k <= ez + 52 ->
  (inject_Z n * p2 ez == q)%Q -> (Qabs q <= p2 (k + 2))%Q ->
  fin (k + 60) (binary_normalize 53 1024 n ez false) /\ once (binary_normalize 53 1024 n ez false) q.
Proof.
  intros n ez k q Hk Hez Hq Hb.
  assert (P : forall p, (inject_Z (Zpos p) * p2 ez <= p2 (k + 2))%Q ->
            nrm (k + 60) (binary_round 53 1024 false p ez)
            /\ rel u (val (binary_round 53 1024 false p ez)) (inject_Z (Zpos p) * p2 ez)).
  { intros p Hp. destruct (round_near p ez (k + 52)) as [F1 F2].
    - lia.
    - apply Qle_trans with (p2 ez); [apply p2_le; lia|]. rewrite <- (Qmult_1_l (p2 ez)) at 1.
      apply Qmult_le_compat_r; [|apply Qlt_le_weak, p2_pos]. change 1%Q with (inject_Z 1).
      rewrite <- Zle_Qle. lia.
    - eapply Qle_lt_trans; [exact Hp|]. replace (k + 52 + 1) with ((k + 2) + 51) by lia. rewrite (p2_add (k + 2) 51).
      rewrite <- (Qmult_1_r (p2 (k + 2))) at 1. apply Qmult_lt_l; [apply p2_pos|reflexivity].
    - split; [|exact F2]. eapply nrm_weak; [|exact F1]. lia. }
  assert (Pp : forall p, (0 <= inject_Z (Zpos p) * p2 ez)%Q).
  { intro p. apply Qmult_le_0_compat; [|apply Qlt_le_weak, p2_pos]. change 0%Q with (inject_Z 0).
    rewrite <- Zle_Qle. lia. }
  destruct n as [|p|p]; cbn [binary_normalize].
  - split; [left; eauto|]. apply (once_proper _ 0); [rewrite <- Hq; ring|apply once_zero].
  - destruct (P p) as [F1 F2].
    { rewrite <- (Qabs_pos _ (Pp p)). rewrite Hq. exact Hb. }
    split; [apply nrm_fin; exact F1|]. eapply once_proper; [exact Hq|].
    apply rel_once; [apply Pp|exact F2].
  - assert (Hq' : (inject_Z (Zpos p) * p2 ez == - q)%Q).
    { rewrite <- Hq. change (Zneg p) with (- Zpos p)%Z. rewrite inject_Z_opp. ring. }
    destruct (P p) as [F1 F2].
    { rewrite <- (Qabs_pos _ (Pp p)). rewrite Hq', Qabs_opp. exact Hb. }
    change true with (negb false). rewrite round_opp. split; [apply fin_opp, nrm_fin; exact F1|].
    apply once_opp. rewrite opp_opp. eapply once_proper; [exact Hq'|].
    apply rel_once; [apply Pp|exact F2].
Qed.

Lemma fadd_fin : forall k x y, fin k x -> fin k y -> 0 <= k <= 700 ->
  fin (k + 60) (fadd x y) /\ once (fadd x y) (val x + val y).
Proof.
  assert (W : forall k x, fin k x -> fin (k + 60) x).
  { intros k x [H|(s & m & e & -> & Hm & He)]; [left; exact H|right]. exists s, m, e. repeat split; auto; lia. }
  intros k x y Hx Hy K.
  assert (Bx := fin_bound _ _ Hx). assert (By := fin_bound _ _ Hy).
  destruct Hx as [(s & ->)|(sx & mx & ex & -> & Mx & Ex)]; destruct Hy as [(s' & ->)|(sy & my & ey & -> & My & Ey)].
  - assert (Z0 : exists z, fadd (S754_zero s) (S754_zero s') = S754_zero z)
      by (unfold fadd; cbn [SFadd]; destruct (Bool.eqb s s'); eauto).
    destruct Z0 as (z & ->). split; [left; eauto|].
    apply (once_proper _ 0); [rewrite !val_zero; ring|apply once_zero].
  - change (fadd (S754_zero s) (S754_finite sy my ey)) with (S754_finite sy my ey).
    split; [apply W; right; exists sy, my, ey; auto|].
    eapply once_proper; [|apply once_exact]. rewrite val_zero. ring.
  - change (fadd (S754_finite sx mx ex) (S754_zero s')) with (S754_finite sx mx ex).
    split; [apply W; right; exists sx, mx, ex; auto|].
    eapply once_proper; [|apply once_exact]. rewrite val_zero. ring.
  - unfold fadd. cbn [SFadd]. apply normalize_fin.
    + lia.
    + lia.
    + rewrite inject_Z_plus, Qmult_plus_distr_l. rewrite !signed_align by lia. reflexivity.
    + eapply Qle_trans; [apply Qabs_triangle|]. replace (k + 2) with (1 + (k + 1)) by lia. rewrite p2_add.
      change (p2 1) with (2 # 1)%Q.
      setoid_replace ((2 # 1) * p2 (k + 1))%Q with (p2 (k + 1) + p2 (k + 1))%Q by ring.
      apply Qplus_le_compat; assumption.
Qed.

Lemma fsub_add : forall x y, x <> S754_nan -> (forall s, x <> S754_infinity s) -> fsub x y = fadd x (SFopp y).
Proof.
  intros [s|s| |s m e] [s'|s'| |s' m' e'] H1 H2; try contradiction; try reflexivity;
    try (exfalso; apply (H2 s); reflexivity).
  unfold fsub, fadd. cbn [SFsub SFadd SFopp]. f_equal. destruct s'; cbn [negb cond_Zopp]; lia.
Qed.

Lemma fsub_fin : forall k x y, fin k x -> fin k y -> 0 <= k <= 700 ->
  fin (k + 60) (fsub x y) /\ once (fsub x y) (val x - val y).
Proof.
  intros k x y Hx Hy K. rewrite fsub_add.
  - destruct (fadd_fin k x (SFopp y) Hx (fin_opp _ _ Hy) K) as [H1 H2]. split; [exact H1|].
    eapply once_proper; [|exact H2]. rewrite val_opp. reflexivity.
  - destruct Hx as [(s & ->)|(s & m & e & -> & _)]; discriminate.
  - intro z. destruct Hx as [(s & ->)|(s & m & e & -> & _)]; discriminate.
Qed.

(** ** The numbers of the statement *)

Lemma usual_fin : forall x q, usual x -> fvalue x = Some q -> fin 301 x /\ (val x == q)%Q.
Proof.
  intros x q [Hv (q' & Eq & Hq)] E. rewrite E in Eq. injection Eq as <-.
  assert (Ev : (val x == q)%Q) by (unfold val; rewrite E; reflexivity). split; [|exact Ev].
  destruct x as [s|s| |s m e]; try discriminate; [left; eauto|]. right. exists s, m, e.
  unfold fvalid, valid_binary, bounded, canonical_mantissa in Hv.
  apply andb_true_iff in Hv as [Hc He]. apply Zeq_bool_eq in Hc. apply Zle_bool_imp_le in He.
  assert (Hd := digits2_bound m). set (d := Zpos (digits2_pos m)) in *.
  assert (D0 : 1 <= d) by (unfold d; lia).
  assert (Em : (Qabs q == inject_Z (Zpos m) * p2 e)%Q).
  { rewrite <- Ev, val_fin. rewrite Qabs_Qmult. rewrite (Qabs_pos (p2 e)) by (apply Qlt_le_weak, p2_pos).
    destruct s; reflexivity. }
  assert (N0 : ~ (q == 0)%Q).
  { intro Z0. rewrite Z0 in Em. change (Qabs 0) with 0%Q in Em.
    assert (P : (0 < inject_Z (Zpos m) * p2 e)%Q).
    { apply Qmult_lt_0_compat; [reflexivity|apply p2_pos]. }
    rewrite <- Em in P. discriminate P. }
  destruct Hq as [Hq|[Hlo Hhi]]; [contradiction|].
  rewrite <- p2_Z in Hlo, Hhi by lia. rewrite <- p2_opp in Hlo. rewrite Em in Hlo, Hhi.
  assert (L1 : - 300 < d + e).
  { apply p2_lt_inv. eapply Qle_lt_trans; [exact Hlo|]. rewrite p2_add.
    apply Qmult_lt_r; [apply p2_pos|]. rewrite p2_Z by lia. rewrite <- Zlt_Qlt. apply Hd. }
  assert (L2 : d - 1 + e <= 300).
  { destruct (Z_lt_le_dec 300 (d - 1 + e)) as [L|L]; [|exact L]. exfalso.
    assert (B : (p2 (d - 1 + e) <= inject_Z (Zpos m) * p2 e)%Q).
    { rewrite p2_add. apply Qmult_le_compat_r; [|apply Qlt_le_weak, p2_pos].
      rewrite p2_Z by lia. rewrite <- Zle_Qle. apply Hd. }
    assert (C : (p2 301 <= p2 300)%Q).
    { eapply Qle_trans; [apply (p2_le 301 (d - 1 + e)); lia|]. eapply Qle_trans; eauto. }
    apply Qle_not_lt in C. apply C. replace 301 with (1 + 300) by lia. rewrite p2_add.
    change (p2 1) with (2 # 1)%Q. rewrite <- (Qmult_1_l (p2 300)) at 1.
    apply Qmult_lt_r; [apply p2_pos|reflexivity]. }
  rewrite fexp_normal in Hc by lia. assert (E53 : d = 53) by lia. rewrite E53 in Hd.
  split; [reflexivity|]. split; [exact Hd|lia].
Qed.

(** A normal positive constant, checked by computation. *)
Definition nrm_b (k : Z) (x : float) : bool :=
  match x with
  | S754_finite false m e => (2 ^ 52 <=? Zpos m) && (Zpos m <? 2 ^ 53) && (- k <=? e + 52) && (e + 52 <=? k)
  | _ => false
  end.
Lemma nrm_b_ok : forall k x, nrm_b k x = true -> nrm k x.
Proof.
  intros k [s|s| |[] m e] H; try discriminate. unfold nrm_b in H.
  apply andb_true_iff in H as [H H4]. apply andb_true_iff in H as [H H3].
  apply andb_true_iff in H as [H1 H2]. exists m, e. split; [reflexivity|].
  apply Z.leb_le in H1, H3, H4. apply Z.ltb_lt in H2. auto.
Qed.

(** ** Multiplication by a constant *)

(** The constant [c] is [k] up to the relative error [t]. *)
Definition factor_b (c : float) (k t tol : Q) : bool :=
  nrm_b 40 c && Qle_bool ((1 - t) * k) (val c) && Qle_bool (val c) ((1 + t) * k)
  && Qle_bool 0 k && Qle_bool 0 t && Qle_bool (u * (1 + t) + t) tol.

Lemma value_some : forall k x, fin k x -> fvalue x = Some (val x).
Proof. intros k x [(s & ->)|(s & m & e & -> & _)]; reflexivity. Qed.

Lemma factor_scales : forall c k t tol, factor_b c k t tol = true -> scales (fun v => converted v c) k tol.
Proof.
  intros c k t tol H. unfold factor_b in H.
  apply andb_true_iff in H as [H H6]. apply andb_true_iff in H as [H H5].
  apply andb_true_iff in H as [H H4]. apply andb_true_iff in H as [H H3].
  apply andb_true_iff in H as [H1 H2]. apply nrm_b_ok in H1.
  apply Qle_bool_iff in H2, H3, H4, H5, H6. split; [reflexivity|].
  intros x q Hu Hv. destruct (usual_fin x q Hu Hv) as [Hf Eq].
  destruct (fmul_fin 301 40 x c Hf H1) as [F1 F2]; try lia.
  exists (fmul x c), (val (fmul x c)). split; [reflexivity|]. split; [exact (value_some _ _ F1)|].
  unfold once in F2. assert (Pc := nrm_pos _ _ H1).
  set (y := val (fmul x c)) in *. set (w := val c) in *. set (a := val x) in *.
  rewrite <- Eq. rewrite Qabs_Qmult in F2. rewrite (Qabs_pos w) in F2 by (apply Qlt_le_weak; exact Pc).
  rewrite Qabs_Qmult, (Qabs_pos k H4). assert (Pa := Qabs_nonneg a). set (b := Qabs a) in *.
  assert (D : (Qabs (a * w - a * k) <= b * (t * k))%Q).
  { setoid_replace (a * w - a * k)%Q with (a * (w - k))%Q by ring. rewrite Qabs_Qmult. fold b.
    rewrite (Qmult_comm b), (Qmult_comm b). apply Qmult_le_compat_r; [|exact Pa].
    apply Qabs_Qle_condition. split; lra. }
  assert (T : (Qabs (y - a * k) <= Qabs (y - a * w) + Qabs (a * w - a * k))%Q).
  { setoid_replace (y - a * k)%Q with ((y - a * w) + (a * w - a * k))%Q by ring. apply Qabs_triangle. }
  eapply Qle_trans; [exact T|]. eapply Qle_trans; [apply Qplus_le_compat; [exact F2|exact D]|].
  assert (U0 : (0 <= u)%Q) by (vm_compute; discriminate).
  assert (B1 : (u * (b * w) <= u * (b * ((1 + t) * k)))%Q).
  { rewrite !(Qmult_comm u). apply Qmult_le_compat_r; [|exact U0]. rewrite !(Qmult_comm b).
    apply Qmult_le_compat_r; assumption. }
  apply Qle_trans with ((u * (1 + t) + t) * (b * k))%Q.
  - setoid_replace ((u * (1 + t) + t) * (b * k))%Q with (u * (b * ((1 + t) * k)) + b * (t * k))%Q by ring.
    apply Qplus_le_compat; [exact B1|apply Qle_refl].
  - apply Qmult_le_compat_r; [exact H6|]. apply Qmult_le_0_compat; assumption.
Qed.

Lemma metres : Forall (fun '(f, k, tol) => scales f k tol) metre_units.
Proof.
  repeat (apply Forall_cons || apply Forall_nil).
  - apply (factor_scales M_TO_KM _ (1 # 10 ^ 16)). vm_compute. reflexivity.
  - apply (factor_scales M_TO_SMI _ (4 # 10 ^ 16)). vm_compute. reflexivity.
  - apply (factor_scales M_TO_FT _ (4 # 10 ^ 16)). vm_compute. reflexivity.
  - apply (factor_scales M_TO_CM _ (1 # 10 ^ 16)). vm_compute. reflexivity.
  - apply (factor_scales M_TO_DM _ (1 # 10 ^ 16)). vm_compute. reflexivity.
  - apply (factor_scales M_TO_IN _ (6 # 10 ^ 7)). vm_compute. reflexivity.
Qed.

Lemma hectopascals : Forall (fun '(f, k, tol) => scales f k tol) hectopascal_units.
Proof.
  repeat (apply Forall_cons || apply Forall_nil).
  - apply (factor_scales HPA_TO_INHG _ (6 # 10 ^ 7)). vm_compute. reflexivity.
  - apply (factor_scales HPA_TO_MBAR _ (1 # 10 ^ 16)). vm_compute. reflexivity.
  - apply (factor_scales HPA_TO_BAR _ (2 # 10 ^ 16)). vm_compute. reflexivity.
  - apply (factor_scales HPA_TO_ATM _ (4 # 10 ^ 16)). vm_compute. reflexivity.
Qed.

Lemma knots : Forall (fun '(f, k, tol) => scales f k tol) knot_units.
Proof.
  repeat (apply Forall_cons || apply Forall_nil).
  - apply (factor_scales KNOT_TO_MPS _ (9 # 10 ^ 9)). vm_compute. reflexivity.
  - apply (factor_scales KNOT_TO_KPH _ (2 # 10 ^ 16)). vm_compute. reflexivity.
  - apply (factor_scales KNOT_TO_MIPH _ (5 # 10 ^ 7)). vm_compute. reflexivity.
Qed.

Lemma degrees : forall b, Forall (fun '(f, k, tol) => scales f k tol) (degree_units b).
Proof.
  intro b.
  repeat (apply Forall_cons || apply Forall_nil).
  - apply (factor_scales DEGREES_TO_RADIANS _ (4 # 10 ^ 16)). vm_compute. reflexivity.
  - apply (factor_scales DEGREES_TO_GRADIANS _ (11 # 10 ^ 10)). vm_compute. reflexivity.
Qed.

(** ** Temperatures *)

(** Error [j] units of 2^-53 relative to the magnitude [m]. *)
Definition off (j : Z) (r q m : Q) : Prop := (Qabs (r - q) <= inject_Z j * u * m)%Q.

Lemma once_off : forall j x q q' m, 0 <= j <= 1000 -> (0 <= m)%Q ->
  once x q -> off j q q' m -> (Qabs q' <= m)%Q -> off (j + 2) (val x) q' m.
Proof.
  intros j x q q' m Hj Hm H1 H2 H3. unfold once, off in *.
  assert (U0 : (0 <= u)%Q) by (vm_compute; discriminate).
  assert (J : (0 <= inject_Z j * u /\ inject_Z j * u <= 1)%Q).
  { destruct (small_u j ltac:(lia)) as [S1 S2]. split; [exact S1|].
    eapply Qle_trans; [exact S2|]. vm_compute. discriminate. }
  assert (B : (Qabs q <= 2 * m)%Q).
  { setoid_replace q with ((q - q') + q')%Q by ring.
    eapply Qle_trans; [apply Qabs_triangle|].
    assert (inject_Z j * u * m <= 1 * m)%Q by (apply Qmult_le_compat_r; [apply J|exact Hm]). lra. }
  setoid_replace (val x - q')%Q with ((val x - q) + (q - q'))%Q by ring.
  eapply Qle_trans; [apply Qabs_triangle|].
  assert (C : (u * Qabs q <= u * (2 * m))%Q)
    by (rewrite !(Qmult_comm u); apply Qmult_le_compat_r; assumption).
  rewrite inject_Z_plus. change (inject_Z 2) with 2%Q.
  setoid_replace ((inject_Z j + 2) * u * m)%Q with (u * (2 * m) + inject_Z j * u * m)%Q by ring.
  lra.
Qed.

Lemma off_eq : forall q q' m, (q == q')%Q -> off 0 q q' m.
Proof.
  intros q q' m E. unfold off. rewrite E. setoid_replace (q' - q')%Q with 0%Q by ring.
  setoid_replace (inject_Z 0 * u * m)%Q with 0%Q by (change (inject_Z 0) with 0%Q; ring).
  vm_compute. discriminate.
Qed.

(** A constant that is not exact. *)
Lemma off_const : forall j c k m, (Qabs (c - k) <= inject_Z j * u * k)%Q -> (k <= m)%Q -> 0 <= j -> off j c k m.
Proof.
  intros j c k m H1 H2 Hj. unfold off. eapply Qle_trans; [exact H1|].
  rewrite !(Qmult_comm (inject_Z j * u)). apply Qmult_le_compat_r; [exact H2|].
  apply Qmult_le_0_compat; [|vm_compute; discriminate]. change 0%Q with (inject_Z 0).
  rewrite <- Zle_Qle. exact Hj.
Qed.

Lemma off_plus : forall i j a a' ma b b' mb, off i a a' ma -> off j b b' mb ->
  0 <= i -> 0 <= j -> (0 <= ma)%Q -> (0 <= mb)%Q -> off (Z.max i j) (a + b) (a' + b') (ma + mb).
Proof.
  intros i j a a' ma b b' mb H1 H2 Hi Hj Ha Hb. unfold off in *.
  assert (U0 : (0 <= u)%Q) by (vm_compute; discriminate).
  setoid_replace (a + b - (a' + b'))%Q with ((a - a') + (b - b'))%Q by ring.
  eapply Qle_trans; [apply Qabs_triangle|].
  assert (P : forall z m, z <= Z.max i j -> (0 <= m)%Q -> (inject_Z z * u * m <= inject_Z (Z.max i j) * u * m)%Q).
  { intros z m Hz Hm. apply Qmult_le_compat_r; [|exact Hm]. apply Qmult_le_compat_r; [|exact U0].
    rewrite <- Zle_Qle. exact Hz. }
  assert (P1 := P i ma ltac:(lia) Ha). assert (P2 := P j mb ltac:(lia) Hb).
  rewrite Qmult_plus_distr_r. lra.
Qed.

Lemma off_scale : forall j r q m c, off j r q m -> (0 <= c)%Q -> off j (r * c) (q * c) (m * c).
Proof.
  intros j r q m c H Hc. unfold off in *. setoid_replace (r * c - q * c)%Q with ((r - q) * c)%Q by ring.
  rewrite Qabs_Qmult, (Qabs_pos c Hc), Qmult_assoc. apply Qmult_le_compat_r; assumption.
Qed.

Lemma off_proper : forall j r q m r' q' m', (r == r')%Q -> (q == q')%Q -> (m == m')%Q ->
  off j r q m -> off j r' q' m'.
Proof. intros j r q m r' q' m' E1 E2 E3 H. unfold off in *. rewrite <- E1, <- E2, <- E3. exact H. Qed.

Lemma off_tol : forall j r q m, (0 <= m)%Q -> 0 <= j <= 9 -> off j r q m ->
  (Qabs (r - q) <= rounding * m)%Q.
Proof.
  intros j r q m Hm Hj H. eapply Qle_trans; [exact H|]. apply Qmult_le_compat_r; [|exact Hm].
  apply Qle_trans with (inject_Z 9 * u)%Q; [|vm_compute; discriminate].
  apply Qmult_le_compat_r; [|vm_compute; discriminate]. rewrite <- Zle_Qle. lia.
Qed.

(** The constants of the formulas. *)
Lemma c9 : nrm 40 f9 /\ (val f9 == 9)%Q.
Proof. split; [apply nrm_b_ok|]; vm_compute; reflexivity. Qed.
Lemma c5 : nrm 40 f5 /\ (val f5 == 5)%Q.
Proof. split; [apply nrm_b_ok|]; vm_compute; reflexivity. Qed.
Lemma c32 : nrm 40 f32 /\ (val f32 == 32)%Q.
Proof. split; [apply nrm_b_ok|]; vm_compute; reflexivity. Qed.
Lemma ck : nrm 40 f273_15 /\ (Qabs (val f273_15 - (27315 # 100)) <= inject_Z 1 * u * (27315 # 100))%Q.
Proof. split; [apply nrm_b_ok; vm_compute; reflexivity|vm_compute; discriminate]. Qed.
Lemma cr : nrm 40 f491_67 /\ (Qabs (val f491_67 - (27315 # 100) * (9 # 5))
                             <= inject_Z 1 * u * ((27315 # 100) * (9 # 5)))%Q.
Proof. split; [apply nrm_b_ok; vm_compute; reflexivity|vm_compute; discriminate]. Qed.

Lemma fin_weak : forall k k' x, k <= k' -> fin k x -> fin k' x.
Proof.
  intros k k' x H [Hz|(s & m & e & -> & Hm & He)]; [left; exact Hz|right].
  exists s, m, e. split; [reflexivity|]. split; [exact Hm|lia].
Qed.

Lemma mul_off : forall k j x q m c fc, fin k x -> 0 <= k <= 600 -> 0 <= j <= 100 ->
  nrm 40 fc -> (val fc == c)%Q -> (0 <= c)%Q -> (0 <= m)%Q -> (Qabs q <= m)%Q -> off j (val x) q m ->
  fin (k + 42) (fmul x fc) /\ off (j + 2) (val (fmul x fc)) (q * c) (m * c).
Proof.
  intros k j x q m c fc Hf Hk Hj Hc Ec Pc Pm Hq Ho.
  destruct (fmul_fin k 40 x fc Hf Hc) as [F1 F2]; try lia. split; [eapply fin_weak; [|exact F1]; lia|].
  apply (once_off j _ (val x * val fc)).
  - lia.
  - apply Qmult_le_0_compat; assumption.
  - exact F2.
  - eapply off_proper; [| | |exact (off_scale j _ _ _ c Ho Pc)]; try reflexivity. rewrite Ec. reflexivity.
  - rewrite Qabs_Qmult, (Qabs_pos c Pc). apply Qmult_le_compat_r; assumption.
Qed.

Lemma div_off : forall k j x q m c fc, fin k x -> 0 <= k <= 600 -> 0 <= j <= 100 ->
  nrm 40 fc -> (val fc == c)%Q -> (0 < c)%Q -> (0 <= m)%Q -> (Qabs q <= m)%Q -> off j (val x) q m ->
  fin (k + 42) (fdiv x fc) /\ off (j + 2) (val (fdiv x fc)) (q * / c) (m * / c).
Proof.
  intros k j x q m c fc Hf Hk Hj Hc Ec Pc Pm Hq Ho.
  assert (Pi : (0 <= / c)%Q) by (apply Qlt_le_weak, Qinv_lt_0_compat; exact Pc).
  destruct (fdiv_fin k 40 x fc Hf Hc) as [F1 F2]; try lia. split; [eapply fin_weak; [|exact F1]; lia|].
  apply (once_off j _ (val x / val fc)).
  - lia.
  - apply Qmult_le_0_compat; assumption.
  - exact F2.
  - eapply off_proper; [| | |exact (off_scale j _ _ _ (/ c) Ho Pi)]; try reflexivity.
    unfold Qdiv. rewrite Ec. reflexivity.
  - rewrite Qabs_Qmult, (Qabs_pos (/ c) Pi). apply Qmult_le_compat_r; assumption.
Qed.

Lemma add_off : forall k j i x q m c fc, fin k x -> 40 <= k <= 600 -> 0 <= j <= 100 -> 0 <= i <= 100 ->
  nrm 40 fc -> (Qabs (val fc - c) <= inject_Z i * u * c)%Q -> (0 <= c)%Q -> (Qabs q <= m)%Q -> off j (val x) q m ->
  fin (k + 60) (fadd x fc) /\ off (Z.max j i + 2) (val (fadd x fc)) (q + c) (m + c).
Proof.
  intros k j i x q m c fc Hf Hk Hj Hi Hc Ec Pc Hq Ho.
  assert (Pm : (0 <= m)%Q) by (eapply Qle_trans; [apply Qabs_nonneg|exact Hq]).
  destruct (fadd_fin k x fc Hf) as [F1 F2]; [eapply fin_weak; [|apply nrm_fin; exact Hc]; lia|lia|].
  split; [exact F1|]. apply (once_off _ _ (val x + val fc)).
  - lia.
  - lra.
  - exact F2.
  - apply off_plus; try assumption; lia.
  - eapply Qle_trans; [apply Qabs_triangle|]. rewrite (Qabs_pos c Pc). lra.
Qed.

Lemma sub_off : forall k j i x q m c fc, fin k x -> 40 <= k <= 600 -> 0 <= j <= 100 -> 0 <= i <= 100 ->
  nrm 40 fc -> (Qabs (val fc - c) <= inject_Z i * u * c)%Q -> (0 <= c)%Q -> (Qabs q <= m)%Q -> off j (val x) q m ->
  fin (k + 60) (fsub x fc) /\ off (Z.max j i + 2) (val (fsub x fc)) (q - c) (m + c).
Proof.
  intros k j i x q m c fc Hf Hk Hj Hi Hc Ec Pc Hq Ho.
  assert (Pm : (0 <= m)%Q) by (eapply Qle_trans; [apply Qabs_nonneg|exact Hq]).
  destruct (fsub_fin k x fc Hf) as [F1 F2]; [eapply fin_weak; [|apply nrm_fin; exact Hc]; lia|lia|].
  split; [exact F1|]. apply (once_off _ _ (val x - val fc)).
  - lia.
  - lra.
  - exact F2.
  - unfold Qminus. apply off_plus; try assumption; try lia. unfold off.
    setoid_replace (- val fc - - c)%Q with (- (val fc - c))%Q by ring. rewrite Qabs_opp. exact Ec.
  - unfold Qminus. eapply Qle_trans; [apply Qabs_triangle|]. rewrite Qabs_opp, (Qabs_pos c Pc). lra.
Qed.

Lemma c32' : (Qabs (val f32 - 32) <= inject_Z 0 * u * 32)%Q.
Proof. vm_compute. discriminate. Qed.

(** From the error of the computation to the form of the statement. *)
Lemma shifted : forall f g k b, f None = None -> (forall x, f (Some x) = Some (g x)) ->
  (forall x q, fin 301 x -> (val x == q)%Q ->
     exists j m k', 0 <= j <= 9 /\ fin k' (g x) /\ off j (val (g x)) (k * q + b) m
       /\ (m == Qabs (k * q) + Qabs b)%Q) ->
  shifts f k b rounding.
Proof.
  intros f g k b H0 Hf H. split; [exact H0|]. intros x q Hu Hv.
  destruct (usual_fin x q Hu Hv) as [Hx Ex]. destruct (H x q Hx Ex) as (j & m & k' & Hj & Hg & Ho & Em).
  exists (g x), (val (g x)). split; [apply Hf|]. split; [exact (value_some _ _ Hg)|].
  rewrite <- Em. apply (off_tol j); auto. rewrite Em.
  assert (A := Qabs_nonneg (k * q)). assert (B := Qabs_nonneg b). lra.
Qed.

Lemma celsius : Forall (fun '(f, k, b, tol) => shifts f k b tol) celsius_units.
Proof.
  destruct c9 as [N9 V9]. destruct c5 as [N5 V5]. destruct c32 as [N32 _].
  destruct ck as [Nk Vk]. destruct cr as [Nr Vr].
  repeat (apply Forall_cons || apply Forall_nil).
  - apply (shifted _ celsius_to_kelvin); try reflexivity. intros x q Hx Ex.
    assert (A := Qabs_nonneg q). assert (R := Qle_refl (Qabs q)). assert (O := off_eq _ _ (Qabs q) Ex).
    destruct (add_off 301 0 1 x q (Qabs q) (27315 # 100) f273_15 Hx ltac:(lia) ltac:(lia) ltac:(lia) Nk Vk ltac:(vm_compute; discriminate) R O) as [F1 O1].
    eexists 3, _, _. split; [lia|]. split; [exact F1|]. split.
    + eapply off_proper; [| | |exact O1]; try reflexivity; field.
    + rewrite Qabs_Qmult. change (Qabs 1) with 1%Q. change (Qabs (27315 # 100)) with (27315 # 100)%Q. field.
  - apply (shifted _ celsius_to_fahrenheit); try reflexivity. intros x q Hx Ex.
    assert (A := Qabs_nonneg q). assert (R := Qle_refl (Qabs q)). assert (O := off_eq _ _ (Qabs q) Ex).
    destruct (mul_off 301 0 x q (Qabs q) 9 f9 Hx ltac:(lia) ltac:(lia) N9 V9 ltac:(vm_compute; discriminate) A R O) as [F1 O1].
    assert (P1 : (Qabs (q * 9) <= Qabs q * 9)%Q) by (rewrite Qabs_Qmult; apply Qle_refl).
    assert (Q1 := Qle_trans _ _ _ (Qabs_nonneg _) P1).
    destruct (div_off (301 + 42) (0 + 2) _ _ _ 5 f5 F1 ltac:(lia) ltac:(lia) N5 V5 ltac:(reflexivity) Q1 P1 O1) as [F2 O2].
    assert (P2 : (Qabs (q * 9 * / 5) <= Qabs q * 9 * / 5)%Q)
      by (rewrite Qabs_Qmult; apply Qmult_le_compat_r; [exact P1|vm_compute; discriminate]).
    destruct (add_off (301 + 42 + 42) (0 + 2 + 2) 0 _ _ _ 32 f32 F2 ltac:(lia) ltac:(lia) ltac:(lia) N32 c32' ltac:(vm_compute; discriminate) P2 O2) as [F3 O3].
    eexists 6, _, _. split; [lia|]. split; [exact F3|]. split.
    + eapply off_proper; [| | |exact O3]; try reflexivity; field.
    + rewrite Qabs_Qmult. change (Qabs (9 # 5)) with (9 # 5)%Q. change (Qabs 32) with 32%Q. field.
  - apply (shifted _ celsius_to_rankine); try reflexivity. intros x q Hx Ex.
    assert (A := Qabs_nonneg q). assert (R := Qle_refl (Qabs q)). assert (O := off_eq _ _ (Qabs q) Ex).
    destruct (mul_off 301 0 x q (Qabs q) 9 f9 Hx ltac:(lia) ltac:(lia) N9 V9 ltac:(vm_compute; discriminate) A R O) as [F1 O1].
    assert (P1 : (Qabs (q * 9) <= Qabs q * 9)%Q) by (rewrite Qabs_Qmult; apply Qle_refl).
    assert (Q1 := Qle_trans _ _ _ (Qabs_nonneg _) P1).
    destruct (div_off (301 + 42) (0 + 2) _ _ _ 5 f5 F1 ltac:(lia) ltac:(lia) N5 V5 ltac:(reflexivity) Q1 P1 O1) as [F2 O2].
    assert (P2 : (Qabs (q * 9 * / 5) <= Qabs q * 9 * / 5)%Q)
      by (rewrite Qabs_Qmult; apply Qmult_le_compat_r; [exact P1|vm_compute; discriminate]).
    destruct (add_off (301 + 42 + 42) (0 + 2 + 2) 1 _ _ _ ((27315 # 100) * (9 # 5)) f491_67 F2 ltac:(lia) ltac:(lia) ltac:(lia) Nr Vr ltac:(vm_compute; discriminate) P2 O2) as [F3 O3].
    eexists 6, _, _. split; [lia|]. split; [exact F3|]. split.
    + eapply off_proper; [| | |exact O3]; try reflexivity; field.
    + rewrite Qabs_Qmult. change (Qabs (9 # 5)) with (9 # 5)%Q. change (Qabs ((27315 # 100) * (9 # 5))) with ((27315 # 100) * (9 # 5))%Q. field.
  - apply (shifted _ kelvin_to_celsius); try reflexivity. intros x q Hx Ex.
    assert (A := Qabs_nonneg q). assert (R := Qle_refl (Qabs q)). assert (O := off_eq _ _ (Qabs q) Ex).
    destruct (sub_off 301 0 1 x q (Qabs q) (27315 # 100) f273_15 Hx ltac:(lia) ltac:(lia) ltac:(lia) Nk Vk ltac:(vm_compute; discriminate) R O) as [F1 O1].
    eexists 3, _, _. split; [lia|]. split; [exact F1|]. split.
    + eapply off_proper; [| | |exact O1]; try reflexivity; field.
    + rewrite Qabs_Qmult. change (Qabs 1) with 1%Q. change (Qabs (- (27315 # 100))) with (27315 # 100)%Q. field.
  - apply (shifted _ fahrenheit_to_celsius); try reflexivity. intros x q Hx Ex.
    assert (A := Qabs_nonneg q). assert (R := Qle_refl (Qabs q)). assert (O := off_eq _ _ (Qabs q) Ex).
    destruct (sub_off 301 0 0 x q (Qabs q) 32 f32 Hx ltac:(lia) ltac:(lia) ltac:(lia) N32 c32' ltac:(vm_compute; discriminate) R O) as [F1 O1].
    assert (P1 : (Qabs (q - 32) <= Qabs q + 32)%Q) by exact (Qabs_triangle q (- 32)).
    assert (Q1 := Qle_trans _ _ _ (Qabs_nonneg _) P1).
    destruct (mul_off (301 + 60) (Z.max 0 0 + 2) _ _ _ 5 f5 F1 ltac:(lia) ltac:(lia) N5 V5 ltac:(vm_compute; discriminate) Q1 P1 O1) as [F2 O2].
    assert (P2 : (Qabs ((q - 32) * 5) <= (Qabs q + 32) * 5)%Q)
      by (rewrite Qabs_Qmult; apply Qmult_le_compat_r; [exact P1|vm_compute; discriminate]).
    assert (Q2 := Qle_trans _ _ _ (Qabs_nonneg _) P2).
    destruct (div_off (301 + 60 + 42) (Z.max 0 0 + 2 + 2) _ _ _ 9 f9 F2 ltac:(lia) ltac:(lia) N9 V9 ltac:(reflexivity) Q2 P2 O2) as [F3 O3].
    eexists 6, _, _. split; [lia|]. split; [exact F3|]. split.
    + eapply off_proper; [| | |exact O3]; try reflexivity; field.
    + rewrite Qabs_Qmult. change (Qabs (5 # 9)) with (5 # 9)%Q. change (Qabs (- (160 # 9))) with (160 # 9)%Q. field.
  - apply (shifted _ rankine_to_celsius); try reflexivity. intros x q Hx Ex.
    assert (A := Qabs_nonneg q). assert (R := Qle_refl (Qabs q)). assert (O := off_eq _ _ (Qabs q) Ex).
    destruct (sub_off 301 0 1 x q (Qabs q) ((27315 # 100) * (9 # 5)) f491_67 Hx ltac:(lia) ltac:(lia) ltac:(lia) Nr Vr ltac:(vm_compute; discriminate) R O) as [F1 O1].
    assert (P1 : (Qabs (q - ((27315 # 100) * (9 # 5))) <= Qabs q + ((27315 # 100) * (9 # 5)))%Q) by exact (Qabs_triangle q (- ((27315 # 100) * (9 # 5)))).
    assert (Q1 := Qle_trans _ _ _ (Qabs_nonneg _) P1).
    destruct (mul_off (301 + 60) (Z.max 0 1 + 2) _ _ _ 5 f5 F1 ltac:(lia) ltac:(lia) N5 V5 ltac:(vm_compute; discriminate) Q1 P1 O1) as [F2 O2].
    assert (P2 : (Qabs ((q - ((27315 # 100) * (9 # 5))) * 5) <= (Qabs q + ((27315 # 100) * (9 # 5))) * 5)%Q)
      by (rewrite Qabs_Qmult; apply Qmult_le_compat_r; [exact P1|vm_compute; discriminate]).
    assert (Q2 := Qle_trans _ _ _ (Qabs_nonneg _) P2).
    destruct (div_off (301 + 60 + 42) (Z.max 0 1 + 2 + 2) _ _ _ 9 f9 F2 ltac:(lia) ltac:(lia) N9 V9 ltac:(reflexivity) Q2 P2 O2) as [F3 O3].
    eexists 7, _, _. split; [lia|]. split; [exact F3|]. split.
    + eapply off_proper; [| | |exact O3]; try reflexivity; field.
    + rewrite Qabs_Qmult. change (Qabs (5 # 9)) with (5 # 9)%Q. change (Qabs (- (27315 # 100))) with (27315 # 100)%Q. field.
Qed.
