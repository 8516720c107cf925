(** * The texts of the groups say their values (C62) *)
From Coq Require Import String Ascii.
From Coq Require Import List NArith ZArith QArith Qabs Bool Lia Lqa.
From Coq Require Import Floats.SpecFloat.
From Verif Require Import PyBase PyRegex AeroRegex PyFloat PyTime Utils Base MetarGroups Trend Metar Taf SpecNum SpecTime TimeFacts SpecRules
  StrFacts SpecText ProofText ProofTafText ReprFacts FloatFacts ProofRules SpecConv ProofConv ProofJson ProofGroups ProofValues ProofRange ProofRangeReport SpecSay.
Import ListNotations.
Local Open Scope string_scope.
Local Open Scope nat_scope.
Local Open Scope list_scope.

(** ** Numbers *)

Lemma numeral_N : forall n, numeral (N_str n) n.
Proof.
  intro n. destruct (N_str_digits n) as (k & -> & K1 & K2 & K3). pose proof (digits_len k n) as L. split; [|split; [|split]].
  - intro E. rewrite E in L. cbn in L. lia.
  - exact (digits_are k n).
  - rewrite <- (dval_digits k n K2) at 2. unfold dval. generalize (digits k n) 0%N. intros l. induction l as [|c l IH]; intro a; [reflexivity|].
    cbn [fold_left]. rewrite (N.mul_comm a 10). apply IH.
  - intro H. rewrite L. destruct K3 as [[_ ->]|K3]; [reflexivity|].
    destruct (Nat.eq_dec k 1) as [->|Nk]; [reflexivity|]. exfalso.
    pose proof (dval_digits k n K2) as D. pose proof (digits_are k n) as F. destruct (digits k n) as [|c t] eqn:E; [cbn in L; lia|].
    cbn [hd] in H. subst c. apply Forall_inv_tail in F as Ft. pose proof (dval_less t Ft) as B. cbn [length] in L.
    assert (D' : dval 0 t = n) by exact D. rewrite D' in B. replace (k - 1) with (length t) in K3 by lia. lia.
Qed.

Lemma half_even : forall n d, (0 < d)%Z -> (2 * Z.abs (round_half_even n d * d - n) = d)%Z -> Z.even (round_half_even n d) = true.
Proof.
  intros n d Hd. unfold round_half_even. assert (Hm := Z.mod_pos_bound n d Hd). assert (Hdm := Z.div_mod n d ltac:(lia)).
  destruct (Z.compare_spec (2 * (n mod d)) d) as [C|C|C]; [|intro H; nia|intro H; nia].
  intros _. destruct (Z.even (n / d)) eqn:E; [exact E|]. rewrite Z.even_add, E. reflexivity.
Qed.
Lemma half_even_pos : forall n d, (0 <= n)%Z -> (0 < d)%Z -> (0 <= round_half_even n d)%Z.
Proof.
  intros n d Hn Hd. unfold round_half_even. pose proof (Z.div_pos n d Hn Hd).
  destruct (_ ?= _)%Z; [destruct (Z.even _)| |]; lia.
Qed.

Lemma tenths : forall z, (0 <= z)%Z -> exists a b, fixed_point 1 z = N_str a ++ py "." ++ [(48 + b)%N] /\ (b < 10)%N /\ Z.of_N (10 * a + b) = z.
Proof.
  intros z Hz. exists (Z.to_N (z / 10)), (Z.to_N (z mod 10)). unfold fixed_point. change (10 ^ Z.of_nat 1)%Z with 10%Z.
  pose proof (Z.mod_pos_bound z 10 ltac:(lia)) as M. pose proof (Z.div_mod z 10 ltac:(lia)) as D. pose proof (Z.div_pos z 10 Hz ltac:(lia)) as P.
  split; [|split; lia]. f_equal. f_equal.
  assert (K : forall b, In b (upto 10) -> zfill_N 1 b = [(48 + b)%N]).
  { intros b I. pose proof (proj1 (forallb_forall (fun b => str_eqb (zfill_N 1 b) [(48 + b)%N]) (upto 10)) ltac:(vm_compute; reflexivity) b I) as C.
    apply str_eqb_eq. exact C. }
  apply K. apply in_upto. lia.
Qed.

Lemma even_N : forall k, N.even k = Z.even (Z.of_N k).
Proof. intros [|[p|p|]]; reflexivity. Qed.

(** "{:.1f}" of any finite number. *)
Lemma number_written : forall x q, fvalue x = Some q -> written (format_fixed 1 x) q.
Proof.
  intros x q E. destruct x as [s|s| |s m e]; try discriminate E.
  - injection E as <-. exists s, (py "0"), 0%N, 0%N. split; [destruct s; reflexivity|]. split; [exact (numeral_N 0)|]. split; [reflexivity|].
    cbv zeta. assert (Z0 : ((0 # 1) - ((if s then - Z.of_N (10 * 0 + 0) else Z.of_N (10 * 0 + 0)) # 10) == 0)%Q) by (destruct s; reflexivity).
    rewrite Z0. split; [discriminate|]. split; [reflexivity|]. destruct s; discriminate.
  - assert (V : (q == (if s then - (1) else 1) * val (S754_finite false m e))%Q).
    { destruct s; injection E as <-; unfold val; cbn [fvalue]; destruct e as [|k|k]; unfold Qeq; cbn; lia. }
    rewrite frac_Qval in V. pose proof (frac_den_pos m e) as Hd. cbn [format_fixed].
    assert (Hn : (0 < fst (frac_of m e))%Z) by (destruct e; cbn; lia).
    destruct (frac_of m e) as [n d]. cbn [fst snd] in *. change (10 ^ Z.of_nat 1)%Z with 10%Z.
    set (z := round_half_even (n * 10) d). pose proof (half_even_pos (n * 10) d ltac:(lia) Hd) as Pz. fold z in Pz.
    pose proof (round_half_even_near (n * 10) d Hd) as Nz. fold z in Nz. pose proof (half_even (n * 10) d Hd) as Ez. fold z in Ez.
    destruct (tenths z Pz) as (a & b & F & B & K). exists s, (N_str a), a, b. split; [rewrite F; reflexivity|].
    split; [exact (numeral_N a)|]. split; [exact B|]. cbv zeta. rewrite K.
    assert (Hd' : (0 < inject_Z d)%Q) by (change 0%Q with (inject_Z 0); rewrite <- Zlt_Qlt; exact Hd).
    assert (Nd : ~ (inject_Z d == 0)%Q) by (intro Z0; rewrite Z0 in Hd'; discriminate).
    assert (R : (q - ((if s then - z else z) # 10) == (if s then 1 else - (1)) * (inject_Z (z * d - n * 10) / (10 * inject_Z d)))%Q).
    { rewrite V. unfold Z.sub. rewrite inject_Z_plus, inject_Z_opp, !inject_Z_mult.
      assert (Q10 : forall y, (y # 10 == inject_Z y / 10)%Q) by (intro y; unfold Qdiv, Qeq; cbn; lia).
      rewrite Q10. destruct s; [rewrite inject_Z_opp|]; field; exact Nd. }
    assert (A : (Qabs (q - ((if s then - z else z) # 10)) == inject_Z (Z.abs (z * d - n * 10)) / (10 * inject_Z d))%Q).
    { rewrite R, Qabs_Qmult. assert (O : (Qabs (if s then 1 else - (1)) == 1)%Q) by (destruct s; reflexivity). rewrite O, Qmult_1_l.
      unfold Qdiv. rewrite Qabs_Qmult. change (Qabs (inject_Z (z * d - n * 10))) with (inject_Z (Z.abs (z * d - n * 10))).
      rewrite (Qabs_pos (/ _)); [reflexivity|]. apply Qlt_le_weak, Qinv_lt_0_compat. lra. }
    rewrite A. split; [|split].
    + apply Qle_shift_div_r; [lra|]. rewrite Zle_Qle, inject_Z_mult in Nz. change (inject_Z 2) with 2%Q in Nz. lra.
    + intro T. rewrite even_N, K. apply Ez.
      assert (T2 : (inject_Z (Z.abs (z * d - n * 10)) == (1 # 20) * (10 * inject_Z d))%Q) by (rewrite <- T; field; lra).
      assert (T3 : (inject_Z (2 * Z.abs (z * d - n * 10)) == inject_Z d)%Q).
      { rewrite inject_Z_mult, T2. change (inject_Z 2) with 2%Q. lra. }
      apply inject_Z_injective. exact T3.
    + assert (P : (0 < inject_Z n / inject_Z d)%Q).
      { apply Qlt_shift_div_l; [exact Hd'|]. rewrite Qmult_0_l. change 0%Q with (inject_Z 0). rewrite <- Zlt_Qlt. exact Hn. }
      destruct s; rewrite V; lra.
Qed.

(** ** Values *)

Lemma plain_frac : forall m e, plain (S754_finite false m e) = true -> (- 200 <= e <= 200)%Z.
Proof.
  intros m e H. cbn [plain] in H. pose proof (frac_den_pos m e) as Hd. destruct (frac_of m e) as [n d] eqn:F.
  rewrite !andb_true_iff, !Z.leb_le, !Z.ltb_lt in H. destruct H as (((((A & B) & _) & _) & C) & D). cbn [snd] in Hd.
  destruct e as [|k|k]; cbn [frac_of] in F; injection F as <- <-.
  - lia.
  - assert (L : (2 ^ Zpos k < 2 ^ 50)%Z).
    { rewrite <- Pos2Z.inj_pow in D |- *. assert (2 ^ 52 * Z.pos (2 ^ k) <= Z.pos m * Z.pos (2 ^ k))%Z by (apply Z.mul_le_mono_nonneg_r; lia). lia. }
    apply Z.pow_lt_mono_r_iff in L; lia.
  - assert (L : (2 ^ Zpos k < 2 ^ 64)%Z) by (rewrite <- Pos2Z.inj_pow; lia).
    apply Z.pow_lt_mono_r_iff in L; lia.
Qed.
Lemma plain_sign : forall s m e, plain (S754_finite s m e) = plain (S754_finite false m e).
Proof. reflexivity. Qed.

Lemma plain_normal : forall x, plain x = true -> normal x.
Proof.
  intros [s|s| |s m e] H; try discriminate H; [exact I|]. rewrite plain_sign in H. pose proof (plain_frac m e H) as E.
  cbn [plain] in H. destruct (frac_of m e) as [n d]. rewrite !andb_true_iff, !Z.leb_le, !Z.ltb_lt in H. cbn [normal]. lia.
Qed.

Lemma plain_value : forall x, plain x = true -> fvalue x = Some (val x).
Proof. intros [s|s| |s m e] H; try discriminate H; reflexivity. Qed.

Lemma plain_usual : forall x, plain x = true -> usual x.
Proof.
  intros x H. pose proof (plain_normal x H) as N. pose proof (plain_value x H) as V. split.
  - destruct x as [s|s| |s m e]; try discriminate H; [reflexivity|]. cbn [normal] in N.
    assert (F : fvalid (S754_finite false m e)) by (apply (nrm_fvalid 900); [exists m, e; split; [reflexivity|]; split; [exact (proj1 N)|lia]|lia]).
    exact F.
  - exists (val x). split; [exact V|]. destruct x as [s|s| |s m e]; try discriminate H; [left; reflexivity|]. right.
    assert (A : (Qabs (val (S754_finite s m e)) == inject_Z (Zpos m) * p2 e)%Q).
    { rewrite val_fin, Qabs_Qmult, (Qabs_pos (p2 e)) by (apply Qlt_le_weak, p2_pos). destruct s; reflexivity. }
    rewrite A, <- p2_Z, <- p2_opp by lia. rewrite plain_sign in H. pose proof (plain_frac m e H) as E. destruct N as [N _].
    assert (P : (inject_Z (2 ^ 52) <= inject_Z (Zpos m) /\ inject_Z (Zpos m) <= inject_Z (2 ^ 53))%Q) by (rewrite <- !Zle_Qle; lia).
    rewrite <- !p2_Z in P by lia. pose proof (p2_pos e) as Pe. split.
    + apply Qle_trans with (p2 52 * p2 e)%Q; [rewrite <- p2_add; apply p2_le; lia|apply Qmult_le_compat_r; [apply P|lra]].
    + apply Qle_trans with (p2 53 * p2 e)%Q; [apply Qmult_le_compat_r; [apply P|lra]|rewrite <- p2_add; apply p2_le; lia].
Qed.

(** A value is false in Python exactly when it is zero. *)
Lemma truthy_zero : forall lo hi v, okv lo hi v -> vtruthy v = negb (zero v).
Proof.
  intros lo hi [x|] H; [|reflexivity]. destruct (H x eq_refl) as [P _]. unfold zero. cbn [vtruthy exact].
  destruct x as [s|s| |s m e]; try discriminate P; [destruct s; reflexivity|]. cbn [ftruthy fvalue].
  destruct s, e; reflexivity.
Qed.

Lemma quantity_said : forall lo hi unit v, okv lo hi v -> quantity unit v (numeric_str_unit unit v).
Proof.
  intros lo hi unit v H. unfold numeric_str_unit. rewrite (truthy_zero lo hi v H). destruct v as [x|]; [|reflexivity].
  destruct (H x eq_refl) as [P _]. cbn [quantity]. exists (val x), (format_fixed 1 x). split; [exact (plain_value x P)|].
  split; [apply number_written; exact (plain_value x P)|]. cbn [numeric_str]. destruct (zero (Some x)); cbn [negb]; [rewrite app_nil_r|]; reflexivity.
Qed.

Lemma rescaled_said : forall f k tol lo hi v, scales f k tol -> okv lo hi v -> v <> None -> rescaled k tol v (numeric_str (f v)).
Proof.
  intros f k tol lo hi v [_ S] H N. destruct v as [x|]; [|congruence]. destruct (H x eq_refl) as [P _].
  destruct (S x (val x) (plain_usual x P) (plain_value x P)) as (y & r & E & V & T). exists x, (val x), r.
  split; [reflexivity|]. split; [exact (plain_value x P)|]. split; [exact T|]. rewrite E. apply number_written. exact V.
Qed.

Lemma kilometres : scales in_kilometers (1 # 1000) (1 # 10 ^ 15).
Proof. exact (Forall_inv metres). Qed.
Lemma feet : scales in_feet (10000 # 3048) (1 # 10 ^ 15).
Proof. exact (Forall_inv (Forall_inv_tail (Forall_inv_tail metres))). Qed.

Lemma compass_said : forall d, okv 0 360 (dir_value d) -> compass d (cardinal d).
Proof.
  intros [[x|] var] H; unfold compass; cbn [dir_value] in *; [|reflexivity]. destruct (H x eq_refl) as [P B].
  destruct (cardinal_sector x (val x) var (plain_normal x P) (plain_value x P) B) as (i & p & E & S & C).
  exists (val x), i, p. split; [exact (plain_value x P)|]. auto.
Qed.
Lemma heading_said : forall d, okv 0 360 (dir_value d) -> heading d (direction_str d).
Proof.
  intros d H. unfold heading, direction_str. destruct (dir_variable d); [reflexivity|].
  pose proof (quantity_said 0 360 degree_sign (dir_value d) H) as Q. unfold numeric_str_unit in Q. exact Q.
Qed.

(** ** Phrases *)

Definition sq (s : str) : str := re_sub r_SPACES (py " ") s None.

(** A text that ends in ink and has no two blanks in a row. *)
Fixpoint calm (p : str) : bool :=
  match p with
  | [] => false
  | c :: p' => match p' with
               | [] => negb (is_space c)
               | d :: _ => negb (is_space c && is_space d) && calm p'
               end
  end.
Definition neat (p : str) : bool := calm p && negb (is_space (hd 32%N p)).

Lemma spaces_ink : forall t, head_ink t -> mlen r_SPACES t = None.
Proof.
  intros [|c t] H; [reflexivity|]. unfold mlen, r_SPACES. cbn [run]. rewrite in_space. cbn [head_ink] in H. rewrite H. reflexivity.
Qed.
Lemma spaces_one : forall c t, head_ink t -> mlen r_SPACES (c :: t) = None.
Proof.
  intros c t H. unfold mlen, r_SPACES. cbn [run]. rewrite in_space. destruct (is_space c); [|reflexivity]. cbn [flat_map].
  destruct t as [|d t]; [reflexivity|]. rewrite in_space. cbn in H. rewrite H. reflexivity.
Qed.
Lemma spaces_many : forall x t, 2 <= length x -> blanks x -> head_ink t -> mlen r_SPACES (x ++ t) = Some (length x).
Proof.
  intros x t Hl Hx Ht. destruct x as [|a [|b x]]; cbn [length] in Hl; try lia.
  unfold mlen, r_SPACES. cbn [run app]. inversion Hx as [|a0 l Ha Hx']; subst. inversion Hx' as [|b0 l Hb Hx'']; subst.
  rewrite !in_space. rewrite Ha. cbn [flat_map]. rewrite in_space, Hb. cbn [flat_map].
  destruct (star_head [CSpace] x t 2) as (l & ->).
  - eapply Forall_impl; [|exact Hx'']. intros c Hc. rewrite in_space. exact Hc.
  - destruct t as [|c t]; [exact I|]. rewrite in_space. exact Ht.
  - reflexivity.
Qed.

Lemma calm_quiet : forall p t, calm p = true -> quiet r_SPACES p t.
Proof.
  induction p as [|c p IH]; intros t H; [discriminate H|]. cbn [calm] in H. destruct p as [|d p].
  - apply quiet_cons; [|apply quiet_nil]. apply spaces_ink. cbn. apply negb_true_iff. exact H.
  - apply andb_true_iff in H. destruct H as [H1 H2]. apply quiet_cons; [|exact (IH t H2)]. cbn [app].
    destruct (is_space d) eqn:D; [|apply spaces_one; exact D].
    apply spaces_ink. cbn. rewrite andb_true_r in H1. apply negb_true_iff. exact H1.
Qed.
Lemma sq_calm : forall p t, calm p = true -> sq (p ++ t) = p ++ sq t.
Proof. intros p t H. apply re_sub_quiet; [reflexivity|exact (calm_quiet p t H)]. Qed.
Lemma sq_spaces : forall k t, head_ink t -> sq (repeat 32%N (S k) ++ t) = 32%N :: sq t.
Proof.
  intros k t H. unfold sq. destruct k as [|k].
  - cbn [repeat app]. apply re_sub_copy; [reflexivity|exact (spaces_one _ _ H)].
  - rewrite re_sub_hit; [reflexivity|reflexivity|reflexivity|discriminate|discriminate|].
    apply spaces_many; [rewrite repeat_length; lia| |exact H]. apply Forall_forall. intros c I. apply repeat_spec in I. subst c. reflexivity.
Qed.

Definition part (p : str) : Prop := p = [] \/ neat p = true.
Definition rest (l : list str) : str := flat_map (fun p => 32%N :: p) l.

Lemma calm_app : forall a b, calm a = true -> calm b = true -> calm (a ++ b) = true.
Proof.
  induction a as [|c a IH]; intros b Ha Hb; [exact Hb|]. cbn [calm] in Ha. destruct a as [|d a].
  - cbn [app]. destruct b as [|d b]; [discriminate Hb|]. cbn [calm] in *. apply negb_true_iff in Ha. rewrite Ha. exact Hb.
  - apply andb_true_iff in Ha. destruct Ha as [H1 H2]. apply andb_true_iff. split; [exact H1|]. exact (IH b H2 Hb).
Qed.
Lemma calm_gap : forall b, neat b = true -> calm (32%N :: b) = true.
Proof.
  intros b H. apply andb_true_iff in H. destruct H as [H1 H2]. destruct b as [|d b]; [discriminate H1|]. cbn [hd] in H2.
  change (negb (is_space 32 && is_space d) && calm (d :: b) = true). rewrite H1, andb_true_r. change (is_space 32) with true. exact H2.
Qed.
Lemma neat_app : forall a b, neat a = true -> calm b = true -> neat (a ++ b) = true.
Proof.
  intros a b Ha Hb. apply andb_true_iff in Ha. destruct Ha as [H1 H2]. apply andb_true_iff. split; [exact (calm_app a b H1 Hb)|].
  destruct a as [|c a]; [discriminate H1|exact H2].
Qed.
Lemma phrase_part : forall l, Forall part l -> part (phrase l).
Proof.
  intros l H. induction H as [|p l [->|Hp] H IH]; [left; reflexivity|exact IH|]. right. cbn [phrase].
  destruct p as [|c p]; [discriminate Hp|]. destruct IH as [E|IH].
  - rewrite E. exact Hp.
  - destruct (phrase l) as [|d r] eqn:E; [exact Hp|]. apply neat_app; [exact Hp|]. exact (calm_gap _ IH).
Qed.
Lemma neat_head : forall p t, neat p = true -> head_ink (p ++ t).
Proof.
  intros [|c p] t H; [discriminate H|]. apply andb_true_iff in H. destruct H as [_ H]. apply negb_true_iff. exact H.
Qed.

Lemma repeat_more : forall k t, repeat 32%N (S k) ++ t = repeat 32%N k ++ 32%N :: t.
Proof. induction k as [|k IH]; intro t; [reflexivity|]. cbn [repeat app] in *. rewrite <- IH. reflexivity. Qed.

Lemma sq_rest : forall l k, Forall part l -> 1 <= k + length l -> exists e, (e = [] \/ e = [32%N])
  /\ sq (repeat 32%N k ++ rest l) = match phrase l with [] => [32%N] | p => 32%N :: p ++ e end.
Proof.
  intros l. induction l as [|p l IH]; intros k H L.
  - destruct k as [|k]; [cbn in L; lia|]. exists []. split; [left; reflexivity|]. cbn [rest flat_map phrase].
    rewrite (sq_spaces k [] I). reflexivity.
  - inversion H as [|? ? Hp Hl]; subst. cbn [rest flat_map]. fold (rest l). destruct Hp as [->|Hp].
    + destruct (IH (S k) Hl ltac:(lia)) as (e & He & E). exists e. split; [exact He|]. cbn [phrase]. rewrite <- E, repeat_more. reflexivity.
    + replace (repeat 32%N k ++ (32%N :: p) ++ rest l) with (repeat 32%N (S k) ++ p ++ rest l)
        by (rewrite repeat_more; reflexivity).
      rewrite sq_spaces by exact (neat_head p _ Hp). assert (C : calm p = true) by (apply andb_true_iff in Hp; apply Hp).
      rewrite sq_calm by exact C. cbn [phrase]. destruct p as [|c p]; [discriminate C|].
      destruct l as [|q l].
      * exists []. split; [left; reflexivity|]. cbn [rest flat_map phrase]. reflexivity.
      * destruct (IH 0 Hl ltac:(cbn; lia)) as (e & He & E). cbn [repeat app] in E. rewrite E.
        destruct (phrase (q :: l)) as [|d r] eqn:Ep; [exists [32%N]|exists e]; (split; [auto|]); [reflexivity|].
        change (py " ") with [32%N]. cbn [app]. rewrite <- app_assoc. reflexivity.
Qed.

Lemma neat_trimmed : forall p, neat p = true -> trimmed p.
Proof.
  intros p H. apply andb_true_iff in H. destruct H as [H1 H2]. destruct p as [|c p]; [exact I|]. split; [apply negb_true_iff; exact H2|].
  clear H2. revert c H1. induction p as [|d p IH]; intros c H; [apply negb_true_iff; exact H|].
  cbn [calm] in H. apply andb_true_iff in H. exact (IH d (proj2 H)).
Qed.
Lemma strip_ends : forall a p e, (a = [] \/ a = [32%N]) -> (e = [] \/ e = [32%N]) -> part p -> strip (a ++ p ++ e) = p.
Proof.
  intros a p e Ha He Hp. apply strip_pad.
  - destruct Ha as [->| ->]; repeat constructor.
  - destruct He as [->| ->]; repeat constructor.
  - destruct Hp as [->|Hp]; [exact I|exact (neat_trimmed p Hp)].
Qed.

Lemma phrase_squeezed : forall p l, part p -> Forall part l -> strip (sq (p ++ rest l)) = phrase (p :: l).
Proof.
  intros p l Hp Hl. pose proof (phrase_part (p :: l) (Forall_cons _ Hp Hl)) as W. destruct Hp as [->|Hp].
  - cbn [app phrase] in *. destruct l as [|q l]; [reflexivity|].
    destruct (sq_rest (q :: l) 0 Hl ltac:(cbn; lia)) as (e & He & E). cbn [repeat app] in E. rewrite E.
    destruct (phrase (q :: l)) as [|c r]; [reflexivity|]. exact (strip_ends [32%N] (c :: r) e (or_intror eq_refl) He W).
  - assert (C : calm p = true) by (apply andb_true_iff in Hp; apply Hp). rewrite sq_calm by exact C.
    cbn [phrase] in *. destruct p as [|c p]; [discriminate C|]. destruct l as [|q l].
    + cbn [rest flat_map]. change (sq []) with (@nil N). exact (strip_ends [] (c :: p) [] (or_introl eq_refl) (or_introl eq_refl) (or_intror Hp)).
    + destruct (sq_rest (q :: l) 0 Hl ltac:(cbn; lia)) as (e & He & E). cbn [repeat app] in E. rewrite E.
      destruct (phrase (q :: l)) as [|d r].
      * exact (strip_ends [] (c :: p) [32%N] (or_introl eq_refl) (or_intror eq_refl) (or_intror Hp)).
      * pose proof (strip_ends [] ((c :: p) ++ py " " ++ d :: r) e (or_introl eq_refl) He W) as K.
        refine (eq_trans _ K). f_equal. cbn [app]. rewrite <- !app_assoc. reflexivity.
Qed.

(** ** Groups *)

Lemma dig_not_space' : forall c, (48 <= c <= 57)%N -> is_space c = false.
Proof.
  intros c H. pose proof (proj1 (forallb_forall (fun c => negb (is_space c)) (chars 48 10)) ltac:(vm_compute; reflexivity) c) as K.
  apply negb_true_iff, K, in_chars. lia.
Qed.

Lemma word_calm : forall w, w <> [] -> Forall (fun c => is_space c = false) w -> neat w = true.
Proof.
  intros w N H. apply andb_true_iff. split.
  - induction H as [|c w Hc H IH]; [congruence|]. cbn [calm]. destruct w as [|d w]; [rewrite Hc; reflexivity|].
    rewrite Hc. apply IH. discriminate.
  - destruct H as [|c w Hc H]; [congruence|]. cbn [hd]. rewrite Hc. reflexivity.
Qed.
Lemma written_word : forall t q, written t q -> t <> [] /\ Forall (fun c => is_space c = false) t.
Proof.
  intros t q (s & a & n & b & -> & (Na & Fa & _) & B & _). split.
  - intro E. apply app_eq_nil in E. destruct E as [_ E]. apply app_eq_nil in E. destruct E as [E _]. contradiction.
  - apply Forall_app. split; [destruct s; repeat constructor|]. apply Forall_app. split.
    + eapply Forall_impl; [|exact Fa]. intros c Hc. apply dig_not_space'. exact Hc.
    + repeat constructor. apply dig_not_space'. lia.
Qed.
Lemma quantity_part : forall unit v t, calm unit = true -> quantity unit v t -> part t.
Proof.
  intros unit v t U H. destruct v as [x|]; [|left; exact H]. destruct H as (q & n & _ & W & ->).
  destruct (written_word n q W) as [N F]. right. destruct (zero (Some x)); [rewrite app_nil_r; exact (word_calm n N F)|].
  apply neat_app; [exact (word_calm n N F)|exact U].
Qed.

Lemma compass_part : forall d c, compass d c -> part (or_empty c).
Proof.
  intros d c H. unfold compass in H. destruct (dir_value d) as [x|]; [|subst c; left; reflexivity].
  destruct H as (q & i & p & _ & E & _ & ->). right. cbn [or_empty]. apply nth_error_In in E.
  exact (proj1 (forallb_forall (fun p => neat (py p)) points16) ltac:(vm_compute; reflexivity) p E).
Qed.
Lemma bracketed : forall h, neat h = true -> neat (py "(" ++ h ++ py ")") = true.
Proof.
  intros h H. apply neat_app; [reflexivity|]. apply calm_app; [apply andb_true_iff in H; apply H|reflexivity].
Qed.
Lemma heading_part : forall d h, heading d h -> part h.
Proof.
  intros d h H. unfold heading in H. destruct (dir_variable d); [subst h; right; reflexivity|].
  apply (quantity_part degrees_mark _ _ eq_refl H).
Qed.

Lemma wind_says : forall w, wind_ok w -> wind_said w (metar_wind_str w).
Proof.
  intros w (D & S & G). pose proof (compass_said _ D) as Hc. pose proof (heading_said _ D) as Hh.
  pose proof (quantity_said _ _ (py " kt") _ S) as Hs. pose proof (quantity_said _ _ (py " kt") _ G) as Hg.
  exists (cardinal (w_dir w)), (direction_str (w_dir w)), (speed_str (w_speed w)), (speed_str (w_gust w)).
  split; [exact Hc|]. split; [exact Hh|]. split; [exact Hs|]. split; [exact Hg|].
  unfold metar_wind_str. rewrite (truthy_zero _ _ _ G).
  assert (E : wind_str (w_dir w) (w_speed w) = phrase [or_empty (cardinal (w_dir w));
     if zero (dir_value (w_dir w)) then direction_str (w_dir w) else py "(" ++ direction_str (w_dir w) ++ py ")"; speed_str (w_speed w)]).
  { unfold wind_str. rewrite (truthy_zero _ _ _ D). cbv zeta.
    change (match cardinal (w_dir w) with Some c => c | None => [] end) with (or_empty (cardinal (w_dir w))).
    rewrite <- phrase_squeezed.
    - unfold rest, sq. cbn [flat_map]. rewrite app_nil_r. change (py " ") with [32%N]. cbn [app].
      destruct (zero (dir_value (w_dir w))); reflexivity.
    - exact (compass_part _ _ Hc).
    - constructor; [|constructor; [exact (quantity_part (py " kt") _ _ eq_refl Hs)|constructor]].
      pose proof (heading_part _ _ Hh) as P. destruct (zero (dir_value (w_dir w))) eqn:Z; [exact P|]. right.
      destruct P as [P|P]; [|exact (bracketed _ P)]. rewrite P. reflexivity. }
  rewrite E. destruct (zero (w_gust w)); reflexivity.
Qed.

Lemma wvar_says : forall w, wvar_ok w -> wvar_said w (wind_variation_str w).
Proof.
  intros w [A B]. unfold wvar_said, wind_variation_str. destruct (dir_value (wv_from w)) as [x|] eqn:E; [|reflexivity].
  rewrite <- E in A. exists (cardinal (wv_from w)), (direction_str (wv_from w)), (cardinal (wv_to w)), (direction_str (wv_to w)).
  split; [exact (compass_said _ A)|]. split; [exact (heading_said _ A)|]. split; [exact (compass_said _ B)|]. split; [exact (heading_said _ B)|].
  reflexivity.
Qed.

Lemma seen_says : forall hi v, vis_ok hi v -> seen_said v (visibility_dir_str v).
Proof.
  intros hi v [A B]. exists (visibility_str v), (cardinal (v_dir v)), (direction_str (v_dir v)).
  split; [exact (compass_said _ B)|]. split; [exact (heading_said _ B)|]. split.
  - unfold visibility_str. destruct (v_vis v) as [x|] eqn:E; [|reflexivity].
    exists (numeric_str (in_kilometers (Some x))). split; [|reflexivity]. apply (rescaled_said _ _ _ _ _ _ kilometres A). discriminate.
  - unfold visibility_dir_str. rewrite (truthy_zero _ _ _ B).
    destruct (dir_value (v_dir v)) as [x|] eqn:E; [|cbn [zero exact]; rewrite app_nil_r; reflexivity].
    destruct (zero (Some x)); reflexivity.
Qed.
Lemma vis_says : forall hi v, vis_ok hi v -> vis_said v (prevailing_str v).
Proof.
  intros hi v H. unfold vis_said, prevailing_str. destruct (v_cavok v); [reflexivity|exact (seen_says hi v H)].
Qed.

Lemma limited_says : forall lo hi limit v, okv lo hi v -> limited limit v (range2str v limit).
Proof.
  intros lo hi limit v H. unfold limited, range2str. destruct v as [x|]; [|reflexivity].
  pose proof (quantity_said lo hi (py " m") (Some x) H) as Q. exists (distance_str (Some x)). split; [exact Q|].
  destruct limit as [[|c k]|]; cbn [truthy or_empty fmt_opt phrase].
  - destruct (distance_str (Some x)); reflexivity.
  - destruct Q as (q & n & _ & W & E). fold (distance_str (Some x)) in E. destruct (distance_str (Some x)) as [|d r]; [|reflexivity].
    exfalso. destruct (written_word n q W) as [N _]. symmetry in E. apply app_eq_nil in E. apply N, E.
  - destruct (distance_str (Some x)); reflexivity.
Qed.
Lemma rvr_says : forall r, rvr_ok r -> rvr_said r (runway_range_str r).
Proof.
  intros r [A B]. unfold rvr_said, runway_range_str. destruct (rr_low r) as [x|] eqn:E; [|reflexivity].
  exists (range2str (Some x) (rr_rvr_low r)), (range2str (rr_high r) (rr_rvr_high r)).
  split; [exact (limited_says _ _ _ _ A)|]. split; [exact (limited_says _ _ _ _ B)|]. rewrite (truthy_zero _ _ _ B).
  destruct (rr_trend r) as [[|c k]|]; destruct (zero (rr_high r)); reflexivity.
Qed.

Lemma cloud_says : forall c, cloud_ok c -> cloud_said c (cloud_str c).
Proof.
  intros c H. unfold cloud_said, cloud_str. rewrite (truthy_zero _ _ _ H). destruct (zero (cl_height c)) eqn:Z; cbn [negb].
  - rewrite andb_false_r. destruct (cl_cover c) as [cv|]; [|reflexivity]. unfold or_none. cbn [mem existsb].
    destruct (str_eqb cv (py "clear")); [cbn; rewrite app_nil_r; reflexivity|].
    destruct (str_eqb cv (py "undefined")); [cbn; rewrite app_nil_r; reflexivity|].
    destruct (str_eqb cv (py "indefinite ceiling")); [cbn; rewrite app_nil_r; reflexivity|reflexivity].
  - exists (numeric_str (cl_feet c)). split.
    + apply (rescaled_said _ _ _ _ _ _ feet H). intro E. rewrite E in Z. discriminate Z.
    + rewrite andb_true_r. destruct (cl_type c) as [[|k t]|]; cbn [truthy if_any]; rewrite ?app_nil_r; reflexivity.
Qed.

Lemma temps_says : forall t, temps_ok t -> temps_said t (temperatures_str t).
Proof.
  intros t [A B]. exists (temperature_str (te_temp t)), (temperature_str (te_dewpt t)).
  split; [exact (quantity_said _ _ _ _ A)|]. split; [exact (quantity_said _ _ _ _ B)|].
  unfold temperatures_str. destruct (te_temp t) as [x|], (te_dewpt t) as [y|]; try reflexivity.
  rewrite (truthy_zero _ _ _ B). destruct (zero (Some y)); reflexivity.
Qed.
Lemma press_says : forall p, press_ok p -> press_said p (pressure_str (pr_value p)).
Proof. intros p H. exact (quantity_said _ _ _ _ H). Qed.
Lemma sea_says : forall s, sea_ok s -> sea_said s (sea_state_str s).
Proof.
  intros s [A B]. exists (temperature_str (se_temp s)), (distance_str (se_height s)).
  split; [exact (quantity_said _ _ _ _ A)|]. split; [exact (quantity_said _ _ _ _ B)|].
  unfold sea_state_str. rewrite (truthy_zero _ _ _ A), (truthy_zero _ _ _ B).
  generalize (temperature_str (se_temp s)) (distance_str (se_height s)) (zero (se_temp s)) (zero (se_height s)). intros a b za zb.
  destruct (se_temp s) as [x|], (se_height s) as [y|], (se_state s) as [[|c k]|]; destruct za, zb; cbn [negb truthy fmt_opt];
    rewrite <- ?app_assoc; reflexivity.
Qed.
Lemma ttemp_says : forall t, ttemp_ok t -> ttemp_said t (taf_temp_str t).
Proof.
  intros t H. unfold ttemp_said, taf_temp_str. unfold ttemp_ok in H. destruct (tt_value t) as [x|] eqn:E; [|reflexivity].
  exists (temperature_str (Some x)). split; [exact (quantity_said _ _ _ _ H)|reflexivity].
Qed.

(** Weather: "None" is taken out of the text of the five terms. *)
Definition tame (o : option str) : Prop := part (or_empty o) /\ ~ In 78%N (or_empty o).
Definition tame_b (t : str) : bool := (match t with [] => true | _ => neat t end) && negb (existsb (N.eqb 78) t).
Lemma tables_tame : forall tbl o, forallb tame_b (map snd tbl) = true -> from_table tbl o -> tame o.
Proof.
  intros tbl o K H. destruct o as [t|]; [|split; [left; reflexivity|intros []]].
  pose proof (proj1 (forallb_forall _ _) K t (H t eq_refl)) as T. apply andb_true_iff in T. destruct T as [T1 T2]. split; cbn [or_empty].
  - destruct t; [left; reflexivity|right; exact T1].
  - intro I. apply negb_true_iff in T2. apply not_true_iff_false in T2. apply T2. apply existsb_exists. exists 78%N. split; [exact I|reflexivity].
Qed.

Lemma replace_other : forall t s, ~ In 78%N t -> replace (py "None") [] (t ++ s) = t ++ replace (py "None") [] s.
Proof.
  induction t as [|c t IH]; intros s H; [reflexivity|]. cbn [app]. rewrite replace_step.
  - f_equal. apply IH. intro I. apply H. right. exact I.
  - discriminate.
  - change (N.eqb 78 c && starts_with (py "one") (t ++ s) = false). destruct (N.eqb_spec 78 c) as [E|E]; [|reflexivity].
    exfalso. apply H. left. symmetry. exact E.
Qed.
Lemma replace_term : forall o s, tame o -> replace (py "None") [] (fmt_opt o ++ s) = or_empty o ++ replace (py "None") [] s.
Proof.
  intros [t|] s [_ H]; cbn [fmt_opt or_empty] in *; [exact (replace_other t s H)|].
  rewrite replace_at by discriminate. reflexivity.
Qed.
Lemma replace_gap : forall s, replace (py "None") [] (py " " ++ s) = 32%N :: replace (py "None") [] s.
Proof. intro s. apply (replace_other [32%N]). intros [E|[]]. discriminate E. Qed.

Definition terms (o : option str) (l : list (option str)) : str := fmt_opt o ++ flat_map (fun p => py " " ++ fmt_opt p) l.
Lemma replace_terms : forall l o, tame o -> Forall tame l ->
  replace (py "None") [] (terms o l) = or_empty o ++ rest (map or_empty l).
Proof.
  unfold terms. induction l as [|p l IH]; intros o Ho Hl.
  - cbn [flat_map rest map]. rewrite replace_term by exact Ho. rewrite replace_nil by discriminate. reflexivity.
  - cbn [flat_map rest map]. fold (rest (map or_empty l)). rewrite replace_term by exact Ho. rewrite <- app_assoc, replace_gap.
    inversion Hl as [|? ? Hp Hl']; subst. rewrite (IH p Hp Hl'). reflexivity.
Qed.
Lemma terms_said : forall o l, tame o -> Forall tame l -> drop_none (terms o l) = phrase (map or_empty (o :: l)).
Proof.
  intros o l Ho Hl. unfold drop_none. rewrite replace_terms by assumption. apply phrase_squeezed; [apply Ho|].
  induction Hl as [|p l Hp Hl IH]; constructor; [apply Hp|exact IH].
Qed.

Lemma tables : forallb tame_b (map snd INTENSITY) = true /\ forallb tame_b (map snd DESCRIPTION) = true
  /\ forallb tame_b (map snd PRECIPITATION) = true /\ forallb tame_b (map snd OBSCURATION) = true /\ forallb tame_b (map snd OTHER) = true.
Proof. conjs; vm_compute; reflexivity. Qed.

Lemma weather_says : forall w, weather_ok w -> weather_said w (weather_str w).
Proof.
  intros w (A & B & C & D & E). destruct tables as (T1 & T2 & T3 & T4 & T5). unfold weather_said.
  rewrite <- (terms_said (we_int w) [we_desc w; we_prec w; we_obsc w; we_other w]).
  - unfold weather_str, terms. cbn [flat_map]. rewrite <- !app_assoc, app_nil_r. reflexivity.
  - exact (tables_tame _ _ T1 A).
  - exact (Forall_cons _ (tables_tame _ _ T2 B) (Forall_cons _ (tables_tame _ _ T3 C) (Forall_cons _ (tables_tame _ _ T4 D)
      (Forall_cons _ (tables_tame _ _ T5 E) (Forall_nil _))))).
Qed.
Lemma recent_says : forall w, recent_ok w -> recent_said w (recent_weather_str w).
Proof.
  intros w (B & C & D & E). destruct tables as (_ & T2 & T3 & T4 & T5). unfold recent_said.
  rewrite <- (terms_said (rw_desc w) [rw_prec w; rw_obsc w; rw_other w]).
  - unfold recent_weather_str, terms. cbn [flat_map]. rewrite <- !app_assoc, app_nil_r. reflexivity.
  - exact (tables_tame _ _ T2 B).
  - exact (Forall_cons _ (tables_tame _ _ T3 C) (Forall_cons _ (tables_tame _ _ T4 D) (Forall_cons _ (tables_tame _ _ T5 E) (Forall_nil _)))).
Qed.

(** ** Reports *)

Lemma common_says : forall c, common_ok c -> common_said c.
Proof.
  intros c (A & B & C & D). split; [exact (wind_says _ A)|]. split; [exact (vis_says _ _ B)|]. split.
  - eapply Forall_impl; [|exact D]. exact weather_says.
  - eapply Forall_impl; [|exact C]. exact cloud_says.
Qed.
Theorem metar_says : forall e code y mo tr x, metar_parse e code y mo tr = Ok x -> metar_said x.
Proof.
  intros e code y mo tr x E. apply metar_ok in E. destruct E as [(A & B & C & D & F & G & R & H) T].
  split; [exact (common_says _ A)|]. split; [exact (wvar_says _ B)|]. split; [exact (seen_says _ _ C)|].
  split; [eapply Forall_impl; [|exact D]; exact rvr_says|]. split; [exact (temps_says _ F)|]. split; [exact (press_says _ G)|].
  split; [exact (recent_says _ R)|]. split; [exact (sea_says _ H)|].
  eapply Forall_impl; [|exact T]. intros p. apply common_says.
Qed.
Theorem taf_says : forall e code y mo tr x, taf_parse e code y mo tr = Ok x -> taf_said x.
Proof.
  intros e code y mo tr x E. apply taf_parsed_ok in E. destruct E as (A & B & C & D). split; [exact (common_says _ A)|].
  split; [eapply Forall_impl; [|exact B]; exact ttemp_says|]. split; [eapply Forall_impl; [|exact C]; exact ttemp_says|].
  eapply Forall_impl; [|exact D]. intros p. apply common_says.
Qed.

(** ** Times *)

Lemma pad_any : forall k n, 1 <= k -> (n < 10 ^ N.of_nat k)%N -> Z_pad k (Z.of_N n) = digits k n.
Proof.
  intros k n K H. replace (Z_pad k (Z.of_N n)) with (zfill_N k n) by (destruct n; reflexivity). exact (zfill_digits k n K H).
Qed.
Lemma pad_2 : forall z, (0 <= z < 100)%Z -> Z_pad 2 z = digits 2 (Z.to_N z).
Proof. intros z H. rewrite <- (Z2N.id z) at 1 by lia. apply pad_any; [lia|]. change (10 ^ N.of_nat 2)%N with 100%N. lia. Qed.
Lemma pad_4 : forall z, (0 <= z < 10000)%Z -> Z_pad 4 z = digits 4 (Z.to_N z).
Proof. intros z H. rewrite <- (Z2N.id z) at 1 by lia. apply pad_any; [lia|]. change (10 ^ N.of_nat 4)%N with 10000%N. lia. Qed.

Lemma clock_says : forall d, real_time d -> clock_said d (dt_str d).
Proof.
  intros d ((Y & n & Mn & D) & H & Mi). unfold clock_said, dt_str.
  assert (M : (1 <= dt_month d <= 12 /\ n <= 31)%Z) by (inversion Mn; cbn [In] in *; lia).
  rewrite pad_4, !pad_2 by lia. reflexivity.
Qed.
