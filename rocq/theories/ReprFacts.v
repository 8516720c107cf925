(** * Reading floats and writing them back

    [float(s)] of a string of digits is that number; [float(repr(x))] is [x]
    for every normal [x] between 0.001 and 10^15. *)
From Coq Require Import String Ascii.
From Coq Require Import List NArith ZArith Bool Lia.
From Coq Require Import Floats.SpecFloat.
From Verif Require Import PyBase PyFloat SpecNum Rounding.
Import ListNotations.
Local Open Scope nat_scope.
Local Open Scope list_scope.

(** ** Decimal digits *)

Definition is_dig (c : N) : Prop := (48 <= c <= 57)%N.
Definition dval (acc : N) (s : str) : N := fold_left (fun a c => a * 10 + (c - 48))%N s acc.

Lemma is_dig_dig : forall n, is_dig (dig (n mod 10)).
Proof.
  intro n. assert (H : (n mod 10 < 10)%N) by (apply N.mod_lt; discriminate).
  revert H. generalize (n mod 10)%N. intros m H. unfold is_dig, dig. lia.
Qed.

Lemma digits_are : forall k n, Forall is_dig (digits k n).
Proof.
  induction k as [|k IH]; intro n; cbn [digits]; [constructor|].
  apply Forall_app. split; [apply IH|]. constructor; [apply is_dig_dig|constructor].
Qed.

Lemma digits_len : forall k n, length (digits k n) = k.
Proof. induction k as [|k IH]; intro n; simpl; auto. rewrite app_length, IH. simpl. lia. Qed.

Lemma dval_app : forall a b acc, dval acc (a ++ b) = dval (dval acc a) b.
Proof. intros. unfold dval. apply fold_left_app. Qed.

Lemma dval_acc : forall s acc, dval acc s = (acc * 10 ^ N.of_nat (length s) + dval 0 s)%N.
Proof.
  induction s as [|c s IH]; intro acc; unfold dval in *; cbn [fold_left length].
  - rewrite N.mul_1_r, N.add_0_r. reflexivity.
  - rewrite IH, (IH (0 * 10 + _)%N). rewrite Nat2N.inj_succ, N.pow_succ_r'. lia.
Qed.

Lemma dval_digits : forall k n, (n < 10 ^ N.of_nat k)%N -> dval 0 (digits k n) = n.
Proof.
  induction k as [|k IH]; intros n H.
  - simpl in H. cbn. lia.
  - cbn [digits]. rewrite dval_app. rewrite IH.
    + unfold dval. cbn [fold_left]. unfold dig. assert (E := N.div_mod n 10 ltac:(discriminate)).
      revert E. generalize (n mod 10)%N (n / 10)%N. intros; lia.
    + rewrite Nat2N.inj_succ, N.pow_succ_r' in H. apply N.div_lt_upper_bound; lia.
Qed.

Lemma nat_digits : forall f n acc, (n < 2 ^ N.of_nat f)%N -> (f <> 0)%nat ->
  exists k, nat_digits_fuel f n acc = digits k n ++ acc /\ (1 <= k)%nat
    /\ (n < 10 ^ N.of_nat k)%N /\ (n = 0 /\ k = 1%nat \/ 10 ^ N.of_nat (k - 1) <= n)%N.
Proof.
  induction f as [|f IH]; intros n acc Hn Hf; [contradiction|].
  cbn [nat_digits_fuel]. destruct (n <? 10)%N eqn:E.
  - apply N.ltb_lt in E. exists 1%nat. cbn [digits app]. repeat split; auto. simpl. lia.
  - apply N.ltb_ge in E.
    assert (Hf' : (f <> 0)%nat) by (intro; subst f; simpl in Hn; lia).
    assert (Hn' : (n / 10 < 2 ^ N.of_nat f)%N).
    { rewrite Nat2N.inj_succ, N.pow_succ_r' in Hn. apply N.div_lt_upper_bound; lia. }
    destruct (IH (n / 10)%N (dig (n mod 10) :: acc) Hn' Hf') as (k & Ek & Hk & Hu & Hl).
    exists (S k). cbn [digits]. rewrite <- app_assoc. cbn [app].
    assert (Ed := N.div_mod n 10 ltac:(discriminate)).
    assert (Hm : (n mod 10 < 10)%N) by (apply N.mod_lt; discriminate).
    clear IH. generalize dependent (n mod 10)%N. generalize dependent (n / 10)%N.
    intros q Hq Hu Hl r Ek Ed Hm. repeat split; auto; try lia.
    + rewrite Nat2N.inj_succ, N.pow_succ_r'. lia.
    + right. replace (S k - 1)%nat with k by lia. destruct Hl as [[Hl Hk1]|Hl].
      * subst k. simpl. lia.
      * replace k with (S (k - 1)) by lia. rewrite Nat2N.inj_succ, N.pow_succ_r'. lia.
Qed.

Lemma N_str_digits : forall n, exists k, N_str n = digits k n /\ (1 <= k)%nat
  /\ (n < 10 ^ N.of_nat k)%N /\ (n = 0 /\ k = 1%nat \/ 10 ^ N.of_nat (k - 1) <= n)%N.
Proof.
  intro n. unfold N_str.
  destruct (nat_digits (S (N.to_nat (N.log2 n))) n []) as (k & Ek & H); [|discriminate|].
  - rewrite Nat2N.inj_succ, N2Nat.id. destruct n as [|p]; [reflexivity|].
    apply N.log2_spec. lia.
  - exists k. rewrite app_nil_r in Ek. auto.
Qed.

(** ** [float(s)] *)

Lemma adigit_dig : forall c, is_dig c -> adigit c = Some (c - 48)%N.
Proof.
  intros c [H1 H2]. unfold adigit. apply N.leb_le in H1, H2. rewrite H1, H2. reflexivity.
Qed.

Definition stops (s : str) : Prop := match s with [] => True | c :: _ => adigit c = None /\ c <> 95%N end.

Lemma digit_run_digits : forall ds rest acc cnt, Forall is_dig ds -> stops rest ->
  digit_run acc cnt (ds ++ rest) = (dval acc ds, cnt + length ds, rest).
Proof.
  induction ds as [|c ds IH]; intros rest acc cnt Hd Hs; cbn [app].
  - unfold dval. cbn [fold_left length]. rewrite Nat.add_0_r. destruct rest as [|c r]; [reflexivity|].
    cbn [digit_run]. destruct Hs as [H1 H2]. rewrite H1.
    replace (c =? 95)%N with false by (symmetry; apply N.eqb_neq; exact H2). reflexivity.
  - cbn [digit_run]. inversion Hd as [|x l Hc Hl E1]; subst. rewrite (adigit_dig c Hc).
    rewrite IH; auto. unfold dval. cbn [fold_left length]. f_equal. f_equal. lia.
Qed.

Lemma dig_not_space : forall c, is_dig c -> is_c_space c = false.
Proof.
  intros c [H1 H2]. unfold is_c_space. apply orb_false_iff. split.
  - apply andb_false_iff. right. apply N.leb_gt. lia.
  - apply N.eqb_neq. lia.
Qed.

Lemma c_strip_id : forall c s c' s', is_c_space c = false -> is_c_space c' = false ->
  c :: s = s' ++ [c'] -> c_strip (c :: s) = c :: s.
Proof.
  intros c s c' s' H1 H2 E. unfold c_strip. cbn [c_lstrip]. rewrite H1. rewrite E.
  rewrite rev_app_distr. cbn [rev app c_lstrip]. rewrite H2. cbn [rev]. rewrite rev_involutive.
  reflexivity.
Qed.

Lemma to_ascii_id : forall s, Forall (fun c => c < 128)%N s -> map to_ascii_char s = s.
Proof.
  induction s as [|c s IH]; intro H; [reflexivity|]. inversion H as [|x l Hc Hl E]; subst.
  cbn [map]. rewrite (IH Hl). f_equal. unfold to_ascii_char.
  apply N.ltb_lt in Hc. rewrite Hc. reflexivity.
Qed.

Lemma digs_ascii : forall s, Forall is_dig s -> Forall (fun c => c < 128)%N s.
Proof. intros s H. eapply Forall_impl; [|exact H]. intros c [H1 H2]. cbn beta. lia. Qed.

Lemma lower_not_word : forall c s w, is_dig c -> (forall x, hd_error w = Some x -> ~ is_dig x) ->
  w <> [] -> str_eqb (lower (c :: s)) w = false.
Proof.
  intros c s w Hc Hw Hne. destruct w as [|x w]; [contradiction|].
  apply str_eqb_neq. intro E. cbn [lower map] in E. injection E as E _.
  apply (Hw x); [reflexivity|]. subst x. unfold lower_char.
  replace ((65 <=? c) && (c <=? 90))%N with false; auto.
  symmetry. apply andb_false_iff. left. apply N.leb_gt. destruct Hc. lia.
Qed.

Lemma parse_unsigned_start : forall neg c s, is_dig c ->
  parse_unsigned neg (c :: s) =
    let '(ip, ni, s1) := digit_run 0 0 (c :: s) in
    let '(m, nf, s2) :=
      match s1 with
      | 46%N :: t => match t with
                     | c :: _ => match adigit c with
                                 | Some _ =>
                                     let '(f, n, r) := digit_run 0 0 t in
                                     ((ip * 10 ^ N.of_nat n + f)%N, n, r)
                                 | None => (ip, O, t)
                                 end
                     | [] => (ip, O, t)
                     end
      | _ => (ip, O, s1)
      end in
    if Nat.eqb (ni + nf) 0 then None
    else match s2 with
         | [] => Some (dec_to_float neg m (ni + nf) (- Z.of_nat nf))
         | c :: t =>
             if (c =? 101)%N || (c =? 69)%N then
               match parse_exponent t with
               | Some e => Some (dec_to_float neg m (ni + nf) (e - Z.of_nat nf))
               | None => None
               end
             else None
         end.
Proof.
  intros neg c s Hc. unfold parse_unsigned.
  rewrite !(lower_not_word c s) by
    (auto; try discriminate; intros x E; injection E as <-; unfold is_dig; lia).
  reflexivity.
Qed.

Lemma parse_unsigned_digits : forall neg ds, Forall is_dig ds -> ds <> [] ->
  parse_unsigned neg ds = Some (dec_to_float neg (dval 0 ds) (length ds) 0).
Proof.
  intros neg ds Hd Hne. destruct ds as [|c s]; [contradiction|].
  assert (Hc : is_dig c) by (inversion Hd; assumption).
  rewrite (parse_unsigned_start neg c s Hc).
  assert (E := digit_run_digits (c :: s) [] 0 0 Hd I). rewrite app_nil_r in E. rewrite E.
  cbn [Nat.add length]. rewrite Nat.add_0_r. reflexivity.
Qed.

Lemma parse_unsigned_point : forall neg A B, Forall is_dig A -> Forall is_dig B -> A <> [] -> B <> [] ->
  parse_unsigned neg (A ++ 46%N :: B)
  = Some (dec_to_float neg (dval 0 (A ++ B)) (length A + length B) (- Z.of_nat (length B))).
Proof.
  intros neg A B HA HB NA NB. destruct A as [|c s]; [contradiction|]. destruct B as [|b t]; [contradiction|].
  assert (Hc : is_dig c) by (inversion HA; assumption).
  assert (Hb : is_dig b) by (inversion HB; assumption).
  cbn [app]. rewrite (parse_unsigned_start neg c _ Hc).
  assert (Hst : stops (46%N :: b :: t)) by (split; [reflexivity|discriminate]).
  assert (E := digit_run_digits (c :: s) (46%N :: b :: t) 0 0 HA Hst).
  cbn [app] in E. rewrite E. cbv zeta beta match. rewrite (adigit_dig b Hb).
  assert (E2 := digit_run_digits (b :: t) [] 0 0 HB I). rewrite app_nil_r in E2. rewrite E2.
  rewrite (app_comm_cons s (b :: t) c).
  rewrite dval_app, (dval_acc (b :: t) (dval 0 (c :: s))).
  reflexivity.
Qed.

Lemma dig_cases : forall c, is_dig c -> In c [48; 49; 50; 51; 52; 53; 54; 55; 56; 57]%N.
Proof. intros c [H1 H2]. simpl. lia. Qed.

Lemma sign_match : forall c s, is_dig c ->
  match c :: s with
  | 45%N :: t => parse_unsigned true t
  | 43%N :: t => parse_unsigned false t
  | t => parse_unsigned false t
  end = parse_unsigned false (c :: s).
Proof.
  intros c s Hc. apply dig_cases in Hc. simpl in Hc.
  repeat (destruct Hc as [<-|Hc]; [reflexivity|]). contradiction.
Qed.

Lemma parse_float_digits : forall ds, Forall is_dig ds -> ds <> [] ->
  parse_float ds = Some (dec_to_float false (dval 0 ds) (length ds) 0).
Proof.
  intros ds Hd Hne. unfold parse_float. rewrite (to_ascii_id ds (digs_ascii ds Hd)).
  destruct ds as [|c s]; [contradiction|]. assert (Hc : is_dig c) by (inversion Hd; assumption).
  destruct (exists_last Hne) as (s' & c' & E).
  assert (Hc' : is_dig c') by (rewrite E in Hd; apply Forall_app in Hd; destruct Hd as [_ Hd]; inversion Hd; assumption).
  rewrite (c_strip_id c s c' s' (dig_not_space c Hc) (dig_not_space c' Hc') E).
  etransitivity; [apply (sign_match c s Hc)|]. apply parse_unsigned_digits; auto.
Qed.

Lemma parse_float_point : forall (neg : bool) A B, Forall is_dig A -> Forall is_dig B -> A <> [] -> B <> [] ->
  parse_float (sign_str neg ++ A ++ 46%N :: B)
  = Some (dec_to_float neg (dval 0 (A ++ B)) (length A + length B) (- Z.of_nat (length B))).
Proof.
  intros neg A B HA HB NA NB. unfold parse_float.
  assert (Hasc : Forall (fun c => c < 128)%N (A ++ 46%N :: B)).
  { apply Forall_app. split; [apply digs_ascii; exact HA|]. constructor; [reflexivity|apply digs_ascii; exact HB]. }
  destruct (exists_last NB) as (s' & c' & E).
  assert (Hc' : is_dig c') by (rewrite E in HB; apply Forall_app in HB; destruct HB as [_ HB]; inversion HB; assumption).
  rewrite <- (parse_unsigned_point neg A B HA HB NA NB).
  destruct A as [|c s]; [contradiction|]. assert (Hc : is_dig c) by (inversion HA; assumption).
  destruct neg; cbn [sign_str app].
  - change (py "-" ++ c :: s ++ 46%N :: B) with (45%N :: c :: s ++ 46%N :: B).
    rewrite to_ascii_id by (constructor; [reflexivity|exact Hasc]).
    rewrite (c_strip_id 45%N _ c' (45%N :: (c :: s) ++ 46%N :: s')); auto using dig_not_space.
    rewrite E. cbn [app]. rewrite <- !app_assoc. reflexivity.
  - rewrite to_ascii_id by exact Hasc.
    rewrite (c_strip_id c _ c' ((c :: s) ++ 46%N :: s')); auto using dig_not_space.
    2:{ rewrite E. cbn [app]. rewrite <- !app_assoc. reflexivity. }
    apply (sign_match c _ Hc).
Qed.

(** ** Rounding decimals *)

Local Open Scope Z_scope.

Definition dec_num (m e : Z) : Z := m * 10 ^ Z.max 0 e.
Definition dec_den (e : Z) : Z := 10 ^ Z.max 0 (- e).

Lemma dec_den_pos : forall e, 0 < dec_den e.
Proof. intro e. apply Z.pow_pos_nonneg; lia. Qed.

Lemma shift_pos_mul : forall d p, Zpos (shift_pos d p) = Zpos p * 2 ^ Zpos d.
Proof. intros d p. rewrite Zpower.shift_pos_correct, Zpower.Zpower_pos_nat.
  rewrite <- Zpower.Zpower_nat_Z || idtac. rewrite Z.mul_comm. f_equal.
  rewrite <- Zpower.Zpower_pos_nat. reflexivity. Qed.

Lemma binary_round_int : forall s p, exists M E, rounds (Zpos p) 1 M E
  /\ binary_round 53 1024 s p 0 = finish s M E.
Proof.
  intros s p. unfold binary_round, shl_align. rewrite fexp_normal by lia.
  assert (Hb := digits2_bound p).
  destruct (Zpos (digits2_pos p) + 0 - 53 - 0) as [|k|k] eqn:Ek.
  - apply round_aux.
    + apply (located_eq (Zpos p) 1); [unfold numer; cbn; lia|reflexivity|apply located_exact; lia].
    + replace 52 with (Zpos (digits2_pos p) - 1) by lia. lia.
    + cbn [Zdigits2]. lia.
  - apply round_aux.
    + apply (located_eq (Zpos p) 1); [unfold numer; cbn; lia|reflexivity|apply located_exact; lia].
    + apply Z.le_trans with (2 ^ (Zpos (digits2_pos p) - 1)); [|lia]. apply Z.pow_le_mono_r; lia.
    + cbn [Zdigits2]. lia.
  - assert (Em : 2 ^ 52 <= Zpos (shift_pos k p) < 2 ^ 53).
    { rewrite shift_pos_mul.
      replace (2 ^ 52) with (2 ^ (Zpos (digits2_pos p) - 1) * 2 ^ Zpos k)
        by (rewrite <- Z.pow_add_r by lia; f_equal; lia).
      replace (2 ^ 53) with (2 ^ Zpos (digits2_pos p) * 2 ^ Zpos k)
        by (rewrite <- Z.pow_add_r by lia; f_equal; lia).
      assert (0 < 2 ^ Zpos k) by (apply Z.pow_pos_nonneg; lia). nia. }
    replace (Zpos (digits2_pos p) + 0 - 53) with (- Zpos k) by lia.
    apply round_aux.
    + apply (located_eq (Zpos (shift_pos k p)) 1); [|reflexivity|apply located_exact; lia].
      rewrite shift_pos_mul. reflexivity.
    + lia.
    + rewrite (zdigits_eq _ 53) by (cbn; lia). lia.
Qed.

Lemma div_core : forall p k, 10 ^ Zpos k <= Zpos p * 2 ^ 1000 ->
  exists m e l, SFdiv_core_binary 53 1024 (Zpos p) 0 (Zpos (Pos.pow 10 k)) 0 = (m, e, l)
    /\ seen (Zpos p) (10 ^ Zpos k) e (shr_record_of_loc m l)
    /\ 2 ^ 52 <= m /\ -1021 <= Zdigits2 m + e.
Proof.
  intros p k Hlow. rewrite <- Pos2Z.inj_pow in Hlow |- *. set (T := Pos.pow 10 k) in *.
  unfold SFdiv_core_binary. cbn [Zdigits2].
  assert (Hp := digits2_bound p). assert (HT := digits2_bound T).
  set (d1 := Zpos (digits2_pos p)) in *. set (d2 := Zpos (digits2_pos T)) in *.
  assert (Hd : -1001 <= d1 - d2).
  { destruct (Z_lt_le_dec (d1 - d2) (-1001)) as [H|H]; auto. exfalso.
    assert (2 ^ d1 * 2 ^ 1000 <= 2 ^ (d2 - 1)).
    { rewrite <- Z.pow_add_r by lia. apply Z.pow_le_mono_r; lia. }
    assert (0 < 2 ^ 1000) by (apply Z.pow_pos_nonneg; lia). nia. }
  rewrite fexp_normal by lia. replace (0 - 0) with 0 by lia.
  set (e' := Z.min (d1 + 0 - (d2 + 0) - 53) 0).
  set (m' := match 0 - e' with Zpos _ => Z.shiftl (Zpos p) (0 - e') | Z0 => Zpos p | Zneg _ => 0 end).
  assert (Em' : m' = Zpos p * 2 ^ (- e')).
  { unfold m'. destruct (0 - e') as [|z|z] eqn:E; try lia.
    - replace (- e') with 0 by lia. lia.
    - rewrite <- E. rewrite Z.shiftl_mul_pow2 by lia. reflexivity. }
  clearbody m'.
  assert (Hdm := Z_div_mod m' (Zpos T) ltac:(lia)).
  destruct (Z.div_eucl m' (Zpos T)) as [q r] eqn:Eqr. destruct Hdm as [Hq Hr].
  exists q, e', (new_location (Zpos T) r).
  assert (Hm0 : 0 <= m') by (rewrite Em'; apply Z.mul_nonneg_nonneg; [lia|apply Z.pow_nonneg; lia]).
  assert (Eq : m' / Zpos T = q) by (symmetry; apply (Z.div_unique_pos m' (Zpos T) q r); lia).
  assert (Er : m' mod Zpos T = r) by (symmetry; apply (Z.mod_unique_pos m' (Zpos T) q r); lia).
  split; [reflexivity|].
  assert (Hseen : seen (Zpos p) (Zpos T) e' (shr_record_of_loc q (new_location (Zpos T) r))).
  { rewrite <- Eq, <- Er. apply (located_eq m' (Zpos T)); [| |apply located_new; lia].
    - rewrite Em'. unfold numer. replace (Z.max 0 (- e')) with (- e') by lia. reflexivity.
    - unfold denom. replace (Z.max 0 e') with 0 by lia. lia. }
  split; [exact Hseen|].
  assert (Hq52 : 2 ^ 52 <= q).
  { rewrite <- Eq. apply Z.div_le_lower_bound; [lia|]. rewrite Em'.
    apply Z.le_trans with (2 ^ (d1 - 1) * 2 ^ (- e')).
    - apply Z.le_trans with (2 ^ d2 * 2 ^ 52).
      + assert (0 < 2 ^ 52) by reflexivity. nia.
      + rewrite <- !Z.pow_add_r by lia. apply Z.pow_le_mono_r; lia.
    - apply Z.mul_le_mono_nonneg_r; [apply Z.pow_nonneg; lia|lia]. }
  split; [exact Hq52|].
  assert (Hq0 : 0 < q) by (assert (0 < 2 ^ 52) by reflexivity; lia).
  destruct (zdigits_bound q Hq0) as [H1 H2].
  destruct (Z_lt_le_dec (Zdigits2 q + e') (-1021)) as [H|H]; auto. exfalso.
  (* q + 1 > p * 2^-e' / T, so the digits of q reach d1 - d2 - e' *)
  assert (B : Zpos p * 2 ^ (- e') < (q + 1) * Zpos T) by lia.
  assert (C : 2 ^ (d1 - 1) * 2 ^ (- e') < 2 ^ Zdigits2 q * 2 ^ d2).
  { apply Z.le_lt_trans with (Zpos p * 2 ^ (- e')).
    - apply Z.mul_le_mono_nonneg_r; [apply Z.pow_nonneg; lia|lia].
    - apply Z.lt_le_trans with ((q + 1) * Zpos T); [lia|].
      apply Z.mul_le_mono_nonneg; lia. }
  rewrite <- !Z.pow_add_r in C by lia. apply Z.pow_lt_mono_r_iff in C; lia.
Qed.

Lemma float_of_dec_rounds : forall s p e, dec_den e <= Zpos p * 2 ^ 1000 ->
  exists M E, rounds (dec_num (Zpos p) e) (dec_den e) M E
    /\ float_of_dec s (Npos p) e = finish s M E.
Proof.
  intros s p e Hlow. unfold dec_num, dec_den in *. destruct e as [|k|k]; cbn [float_of_dec].
  - change (Z.max 0 (- 0)) with 0. rewrite Z.mul_1_r. apply binary_round_int.
  - replace (Z.max 0 (Zpos k)) with (Zpos k) by lia. replace (Z.max 0 (- Zpos k)) with 0 by lia.
    rewrite <- Pos2Z.inj_pow, <- Pos2Z.inj_mul. apply binary_round_int.
  - replace (Z.max 0 (- Zneg k)) with (Zpos k) in * by lia.
    replace (Z.max 0 (Zneg k)) with 0 by lia. rewrite Z.mul_1_r.
    destruct (div_core p k Hlow) as (m & e' & l & Em & Hs & H1 & H2). rewrite Em.
    apply round_aux; assumption.
Qed.

(** Equal decimals are read as equal floats. *)
Lemma float_of_dec_eq : forall s m e m' e', (0 < m)%N -> (0 < m')%N ->
  dec_den e <= Z.of_N m * 2 ^ 1000 -> dec_den e' <= Z.of_N m' * 2 ^ 1000 ->
  dec_num (Z.of_N m) e * dec_den e' = dec_num (Z.of_N m') e' * dec_den e ->
  float_of_dec s m e = float_of_dec s m' e'.
Proof.
  intros s [|p] e [|p'] e' H1 H2 L L' E; try lia. cbn [Z.of_N] in *.
  destruct (float_of_dec_rounds s p e L) as (M & X & R & ->).
  destruct (float_of_dec_rounds s p' e' L') as (M' & X' & R' & ->).
  assert (R2 : rounds (dec_num (Zpos p') e') (dec_den e') M X).
  { apply (rounds_rational (dec_num (Zpos p) e) (dec_den e)); auto using dec_den_pos.
    unfold dec_num. apply Z.mul_nonneg_nonneg; [lia|apply Z.pow_nonneg; lia]. }
  destruct (rounds_unique _ _ _ _ _ _ R2 R') as [-> ->]. reflexivity.
Qed.

(** ** [repr] *)

Definition sci (n d t : Z) : Prop := 10 ^ 16 * d <= n * 10 ^ (17 - t) < 10 ^ 17 * d.

Lemma dec_exp_large : forall n d, 0 < d -> d <= n -> n < 10 ^ 16 * d ->
  let t := Z.of_nat (length (N_str (Z.to_N (n / d)))) in 1 <= t <= 16 /\ sci n d t.
Proof.
  intros n d Hd Hn Hu t.
  assert (Hq := Z.div_mod n d ltac:(lia)). assert (Hr := Z.mod_pos_bound n d Hd).
  assert (Hq1 : 1 <= n / d) by (apply Z.div_le_lower_bound; lia).
  assert (Hq2 : n / d < 10 ^ 16) by (apply Z.div_lt_upper_bound; lia).
  destruct (N_str_digits (Z.to_N (n / d))) as (k & Ek & Hk & Hku & Hkl).
  unfold t. rewrite Ek, digits_len. clear t Ek.
  set (q := n / d) in *.
  assert (Hku' : q < 10 ^ Z.of_nat k).
  { apply N2Z.inj_lt in Hku. rewrite Z2N.id in Hku by lia. rewrite N2Z.inj_pow, nat_N_Z in Hku. exact Hku. }
  assert (Hkl' : 10 ^ (Z.of_nat k - 1) <= q).
  { destruct Hkl as [[E _]|Hkl]; [lia|].
    apply N2Z.inj_le in Hkl. rewrite Z2N.id in Hkl by lia. rewrite N2Z.inj_pow, nat_N_Z in Hkl.
    rewrite Nat2Z.inj_sub in Hkl by lia. exact Hkl. }
  assert (Hk16 : Z.of_nat k <= 16).
  { destruct (Z_lt_le_dec 16 (Z.of_nat k)) as [H|H]; auto. exfalso.
    assert (10 ^ 16 <= 10 ^ (Z.of_nat k - 1)) by (apply Z.pow_le_mono_r; lia). lia. }
  split; [lia|]. unfold sci.
  assert (Hp : 0 < 10 ^ (17 - Z.of_nat k)) by (apply Z.pow_pos_nonneg; lia).
  replace (10 ^ 16) with (10 ^ (Z.of_nat k - 1) * 10 ^ (17 - Z.of_nat k))
    by (rewrite <- Z.pow_add_r by lia; f_equal; lia).
  replace (10 ^ 17) with (10 ^ Z.of_nat k * 10 ^ (17 - Z.of_nat k))
    by (rewrite <- Z.pow_add_r by lia; f_equal; lia).
  assert (A : 10 ^ (Z.of_nat k - 1) * d <= n) by nia.
  assert (B : n < 10 ^ Z.of_nat k * d) by nia.
  split; nia.
Qed.

Lemma dec_exp_small_spec : forall f n d t, 0 < d -> n < d -> d <= n * 10 ^ (Z.of_nat f + 1) ->
  exists j, dec_exp_small f n d t = t - j /\ 0 <= j <= Z.of_nat f
    /\ n * 10 ^ j < d /\ d <= n * 10 ^ (j + 1).
Proof.
  induction f as [|f IH]; intros n d t Hd Hn Hl; cbn [dec_exp_small].
  - exists 0. rewrite Z.sub_0_r. repeat split; try lia.
  - destruct (n * 10 <? d) eqn:E.
    + apply Z.ltb_lt in E.
      assert (Hl' : d <= n * 10 * 10 ^ (Z.of_nat f + 1)).
      { replace (Z.of_nat (S f) + 1) with (1 + (Z.of_nat f + 1)) in Hl by lia.
        rewrite Z.pow_add_r in Hl by lia. lia. }
      destruct (IH (n * 10) d (t - 1) Hd E Hl') as (j & Ej & Hj & H1 & H2).
      exists (j + 1). rewrite Ej. repeat split; try lia.
      * rewrite Z.pow_add_r by lia. lia.
      * replace (j + 1 + 1) with (1 + (j + 1)) by lia. rewrite (Z.pow_add_r 10 1) by lia. lia.
    + apply Z.ltb_ge in E. exists 0. rewrite Z.sub_0_r. repeat split; try lia.
Qed.

(** Between 0.001 and 10^15. *)
Lemma dec_exp_spec : forall n d, 0 < d -> d <= n * 1000 -> n < 10 ^ 15 * d ->
  -2 <= dec_exp n d <= 15 /\ sci n d (dec_exp n d).
Proof.
  intros n d Hd Hl Hu. unfold dec_exp. destruct (d <=? n) eqn:E.
  - apply Z.leb_le in E.
    destruct (dec_exp_large n d Hd E ltac:(lia)) as [[H1 H2] H3].
    set (t := Z.of_nat _) in *. split; [|exact H3]. split; [lia|].
    destruct (Z_lt_le_dec 15 t) as [H|H]; auto. exfalso.
    assert (Et : t = 16) by lia. unfold sci in H3. rewrite Et in H3.
    change (17 - 16) with 1 in H3. rewrite Z.pow_1_r in H3. lia.
  - apply Z.leb_gt in E.
    assert (Hl' : d <= n * 10 ^ (Z.of_nat 400 + 1)).
    { apply Z.le_trans with (n * 10 ^ 3); [lia|]. apply Z.mul_le_mono_nonneg_l; [lia|].
      apply Z.pow_le_mono_r; lia. }
    destruct (dec_exp_small_spec 400 n d 0 Hd E Hl') as (j & Ej & Hj & H1 & H2).
    rewrite Ej.
    assert (Hj2 : j <= 2).
    { destruct (Z_lt_le_dec 2 j) as [H|H]; auto. exfalso.
      assert (10 ^ 3 <= 10 ^ j) by (apply Z.pow_le_mono_r; lia).
      assert (n * 10 ^ 3 <= n * 10 ^ j) by (apply Z.mul_le_mono_nonneg_l; lia). lia. }
    split; [lia|]. unfold sci. replace (17 - (0 - j)) with (17 + j) by lia.
    rewrite Z.pow_add_r by lia. rewrite (Z.pow_add_r 10 j 1) in H2 by lia.
    replace (10 ^ 17) with (10 ^ 16 * 10) by reflexivity.
    assert (0 < 10 ^ 16) by reflexivity. nia.
Qed.

(** The scaled value has [k] digits. *)
Lemma scale_range : forall n d t k, 0 < d -> 0 < n -> sci n d t -> t <= 15 -> (1 <= k <= 17)%nat ->
  let (a, b) := scale n d t k in
  0 < b /\ 0 < a /\ 10 ^ (Z.of_nat k - 1) * b <= a < 10 ^ Z.of_nat k * b.
Proof.
  intros n d t k Hd Hn [H1 H2] Ht Hk. unfold scale.
  set (K := Z.of_nat k). assert (HK : 1 <= K <= 17) by (unfold K; lia).
  destruct (0 <=? K - t) eqn:E.
  - apply Z.leb_le in E.
    assert (Hp : 0 < 10 ^ (K - t)) by (apply Z.pow_pos_nonneg; lia).
    assert (Hq : 0 < 10 ^ (17 - K)) by (apply Z.pow_pos_nonneg; lia).
    split; [lia|]. split; [apply Z.mul_pos_pos; lia|].
    replace (10 ^ (17 - t)) with (10 ^ (K - t) * 10 ^ (17 - K)) in *
      by (rewrite <- Z.pow_add_r by lia; f_equal; lia).
    replace (10 ^ 16) with (10 ^ (K - 1) * 10 ^ (17 - K)) in *
      by (rewrite <- Z.pow_add_r by lia; f_equal; lia).
    replace (10 ^ 17) with (10 ^ K * 10 ^ (17 - K)) in *
      by (rewrite <- Z.pow_add_r by lia; f_equal; lia).
    split.
    + apply (Z.mul_le_mono_pos_r _ _ (10 ^ (17 - K))); [exact Hq|]. lia.
    + apply (Z.mul_lt_mono_pos_r (10 ^ (17 - K))); [exact Hq|]. lia.
  - apply Z.leb_gt in E. replace (- (K - t)) with (t - K) by lia.
    assert (Hp : 0 < 10 ^ (t - K)) by (apply Z.pow_pos_nonneg; lia).
    assert (Hq : 0 < 10 ^ (17 - t)) by (apply Z.pow_pos_nonneg; lia).
    split; [apply Z.mul_pos_pos; lia|]. split; [lia|].
    replace (10 ^ 16) with (10 ^ (K - 1) * 10 ^ (t - K) * 10 ^ (17 - t)) in *
      by (rewrite <- !Z.pow_add_r by lia; f_equal; lia).
    replace (10 ^ 17) with (10 ^ K * 10 ^ (t - K) * 10 ^ (17 - t)) in *
      by (rewrite <- !Z.pow_add_r by lia; f_equal; lia).
    split.
    + apply (Z.mul_le_mono_pos_r _ _ (10 ^ (17 - t))); [exact Hq|]. lia.
    + apply (Z.mul_lt_mono_pos_r (10 ^ (17 - t))); [exact Hq|]. lia.
Qed.

Lemma feq_exact_eq : forall x s m e, feq_exact x (S754_finite s m e) = true -> x = S754_finite s m e.
Proof.
  intros x s m e H. destruct x as [z|z| |s' m' e']; try discriminate. cbn in H.
  apply andb_true_iff in H as [H He]. apply andb_true_iff in H as [Hs Hm].
  apply eqb_prop in Hs. apply Pos.eqb_eq in Hm. apply Z.eqb_eq in He. congruence.
Qed.

(** What a successful attempt gives. *)
Lemma repr_try_ok : forall s m e n d t k q ex, 0 < d -> 0 < n -> sci n d t -> t <= 15 ->
  (1 <= k <= 17)%nat ->
  repr_try (S754_finite s m e) s n d t k = Some (q, ex) ->
  ex = t - Z.of_nat k /\ float_of_dec s q ex = S754_finite s m e
  /\ 10 ^ (Z.of_nat k - 1) <= Z.of_N q <= 10 ^ Z.of_nat k.
Proof.
  intros s m e n d t k q ex Hd Hn Hs Ht Hk H. unfold repr_try in H.
  assert (Hr := scale_range n d t k Hd Hn Hs Ht Hk).
  destruct (scale n d t k) as [a b]. destruct Hr as (Hb & Ha & Hr1 & Hr2).
  assert (Hlo : 10 ^ (Z.of_nat k - 1) <= a / b < 10 ^ Z.of_nat k).
  { split; [apply Z.div_le_lower_bound; lia|apply Z.div_lt_upper_bound; lia]. }
  assert (Hp : 0 < 10 ^ (Z.of_nat k - 1)) by (apply Z.pow_pos_nonneg; lia).
  set (lo := a / b) in *. set (r := a mod b) in *.
  set (first := match 2 * r ?= b with
                | Eq => if Z.even lo then lo else lo + 1 | Lt => lo | Gt => lo + 1 end) in *.
  assert (Hf : first = lo \/ first = lo + 1).
  { unfold first. destruct (2 * r ?= b); auto. destruct (Z.even lo); auto. }
  clearbody first.
  destruct (feq_exact (float_of_dec s (Z.to_N first) (t - Z.of_nat k)) _) eqn:E1.
  - injection H as <- <-. apply feq_exact_eq in E1. split; [reflexivity|]. split; [exact E1|].
    rewrite Z2N.id by lia. lia.
  - set (other := if first =? lo then lo + 1 else lo) in *.
    assert (Ho : other = lo \/ other = lo + 1) by (unfold other; destruct (first =? lo); auto).
    clearbody other.
    destruct (feq_exact (float_of_dec s (Z.to_N other) (t - Z.of_nat k)) _) eqn:E2; [|discriminate].
    injection H as <- <-. apply feq_exact_eq in E2. split; [reflexivity|]. split; [exact E2|].
    rewrite Z2N.id by lia. lia.
Qed.

Lemma repr_search_ok : forall fuel s m e n d t k q ex, 0 < d -> 0 < n -> sci n d t -> t <= 15 ->
  (1 <= k)%nat -> (k + fuel <= 18)%nat ->
  repr_search (S754_finite s m e) s n d t k fuel = Some (q, ex) ->
  exists k', (1 <= k' <= 17)%nat /\ ex = t - Z.of_nat k' /\ float_of_dec s q ex = S754_finite s m e
    /\ 10 ^ (Z.of_nat k' - 1) <= Z.of_N q <= 10 ^ Z.of_nat k'.
Proof.
  induction fuel as [|f IH]; intros s m e n d t k q ex Hd Hn Hs Ht Hk Hf H; [discriminate|].
  cbn [repr_search] in H.
  destruct (repr_try (S754_finite s m e) s n d t k) as [[q' ex']|] eqn:E.
  - injection H as <- <-. exists k. split; [lia|].
    exact (repr_try_ok s m e n d t k q' ex' Hd Hn Hs Ht ltac:(lia) E).
  - apply (IH s m e n d t (S k) q ex Hd Hn Hs Ht); try lia. exact H.
Qed.

Lemma repr_search_some : forall fuel x s n d t k j, (k <= j < k + fuel)%nat ->
  repr_try x s n d t j <> None -> repr_search x s n d t k fuel <> None.
Proof.
  induction fuel as [|f IH]; intros x s n d t k j Hj H; [lia|].
  cbn [repr_search]. destruct (repr_try x s n d t k) eqn:E; [discriminate|].
  apply (IH x s n d t (S k) j); [|exact H].
  destruct (Nat.eq_dec k j) as [->|]; [contradiction|lia].
Qed.

(** Seventeen digits are enough. *)
Lemma repr_try_17 : forall s m e n d t, 2 ^ 52 <= Zpos m < 2 ^ 53 -> -1074 <= e <= 971 ->
  frac_of m e = (n, d) -> 0 < d -> 0 < n -> sci n d t -> -2 <= t <= 15 ->
  repr_try (S754_finite s m e) s n d t 17 <> None.
Proof.
  intros s m e n d t Hm He Hfr Hd Hn Hs Ht.
  assert (Hval : numer n e = Zpos m * denom d e).
  { unfold frac_of in Hfr. unfold numer, denom. destruct e as [|k|k];
      assert (E1 := f_equal fst Hfr); assert (E2 := f_equal snd Hfr); cbn [fst snd] in E1, E2;
      subst n d.
    - reflexivity.
    - replace (Z.max 0 (- Zpos k)) with 0 by lia. replace (Z.max 0 (Zpos k)) with (Zpos k) by lia.
      rewrite Pos2Z.inj_pow. ring.
    - replace (Z.max 0 (- Zneg k)) with (Zpos k) by lia. replace (Z.max 0 (Zneg k)) with 0 by lia.
      rewrite Pos2Z.inj_pow. ring. }
  unfold repr_try, scale. change (Z.of_nat 17) with 17.
  replace (0 <=? 17 - t) with true by (symmetry; apply Z.leb_le; lia).
  set (T := 10 ^ (17 - t)) in *. assert (HT : 0 < T) by (apply Z.pow_pos_nonneg; lia).
  set (lo := n * T / d). set (r := (n * T) mod d).
  assert (Hdm : n * T = d * lo + r) by (apply Z.div_mod; lia).
  assert (Hr : 0 <= r < d) by (apply Z.mod_pos_bound; lia).
  set (F := match 2 * r ?= d with
            | Eq => if Z.even lo then lo else lo + 1 | Lt => lo | Gt => lo + 1 end).
  assert (HF : - d <= 2 * (F * d - n * T) <= d).
  { unfold F. destruct (Z.compare_spec (2 * r) d) as [H|H|H]; [destruct (Z.even lo)| |]; lia. }
  clearbody F. unfold sci in Hs. fold T in Hs.
  assert (HFp : 0 < F) by nia.
  assert (Ex : feq_exact (float_of_dec s (Z.to_N F) (t - 17)) (S754_finite s m e) = true).
  { assert (EF : Z.to_N F = Npos (Z.to_pos F)) by (destruct F; reflexivity || lia).
    rewrite EF.
    assert (Eden : dec_den (t - 17) = T).
    { unfold dec_den, T. f_equal. lia. }
    assert (Enum : dec_num (Zpos (Z.to_pos F)) (t - 17) = F).
    { unfold dec_num. replace (Z.max 0 (t - 17)) with 0 by lia. rewrite Z2Pos.id by lia. lia. }
    destruct (float_of_dec_rounds s (Z.to_pos F) (t - 17)) as (M & X & R & ->).
    { rewrite Eden, Z2Pos.id by lia.
      assert (H2 : T <= 10 ^ 19) by (apply Z.pow_le_mono_r; lia).
      assert (H3 : 10 ^ 19 <= 2 ^ 1000) by (vm_compute; discriminate).
      assert (H4 : 1 * 2 ^ 1000 <= F * 2 ^ 1000) by (apply Z.mul_le_mono_nonneg_r; [apply Z.pow_nonneg|]; lia).
      lia. }
    rewrite Eden, Enum in R.
    assert (R2 : rounds F T (Zpos m) e).
    { apply rounds_close; try lia.
      - (* the bounds, after multiplication by d *)
        set (N2 := numer 1 e). set (D2 := denom 1 e).
        assert (HN2 : 0 < N2) by (unfold N2, numer; rewrite Z.mul_1_l; apply Z.pow_pos_nonneg; lia).
        assert (HD2 : 0 < D2) by (unfold D2, denom; rewrite Z.mul_1_l; apply Z.pow_pos_nonneg; lia).
        assert (EnF : numer F e = F * N2) by (unfold N2, numer; ring).
        assert (EdT : denom T e = T * D2) by (unfold D2, denom; ring).
        assert (Hval' : n * N2 = Zpos m * (d * D2)).
        { replace (n * N2) with (numer n e) by (unfold N2, numer; ring).
          rewrite Hval. unfold D2, denom. ring. }
        rewrite EnF, EdT.
        assert (Hgap : 10 ^ 16 * N2 <= Zpos m * (D2 * T)).
        { apply (Z.mul_le_mono_pos_r _ _ d); [exact Hd|].
          replace (Zpos m * (D2 * T) * d) with (n * N2 * T) by (rewrite Hval'; ring).
          destruct Hs as [Hs _]. apply (Z.mul_le_mono_nonneg_r _ _ N2) in Hs; lia. }
        assert (Hlt : N2 < T * D2).
        { assert (0 < T * D2) by (apply Z.mul_pos_pos; lia).
          assert (2 ^ 53 < 10 ^ 16) by reflexivity. nia. }
        assert (Hcore : n * T * N2 = Zpos m * (T * D2) * d).
        { replace (n * T * N2) with (n * N2 * T) by ring. rewrite Hval'. ring. }
        assert (HN2d : - (d * N2) <= 2 * (F * N2 * d) - 2 * (n * T * N2) <= d * N2).
        { replace (2 * (F * N2 * d) - 2 * (n * T * N2)) with (2 * (F * d - n * T) * N2) by ring.
          split; [replace (- (d * N2)) with (- d * N2) by ring|]; apply Z.mul_le_mono_nonneg_r; lia. }
        assert (Hd2 : d * N2 < d * (T * D2)) by (apply Z.mul_lt_mono_pos_l; lia).
        split; apply (Z.mul_lt_mono_pos_r d); try exact Hd; lia.
      - intro Em.
        set (N2 := numer 1 e). set (D2 := denom 1 e).
        assert (HN2 : 0 < N2) by (unfold N2, numer; rewrite Z.mul_1_l; apply Z.pow_pos_nonneg; lia).
        assert (HD2 : 0 < D2) by (unfold D2, denom; rewrite Z.mul_1_l; apply Z.pow_pos_nonneg; lia).
        assert (EnF : numer F e = F * N2) by (unfold N2, numer; ring).
        assert (EdT : denom T e = T * D2) by (unfold D2, denom; ring).
        assert (Hval' : n * N2 = Zpos m * (d * D2)).
        { replace (n * N2) with (numer n e) by (unfold N2, numer; ring).
          rewrite Hval. unfold D2, denom. ring. }
        rewrite EnF, EdT.
        assert (Hgap : 10 ^ 16 * N2 <= Zpos m * (D2 * T)).
        { apply (Z.mul_le_mono_pos_r _ _ d); [exact Hd|].
          replace (Zpos m * (D2 * T) * d) with (n * N2 * T) by (rewrite Hval'; ring).
          destruct Hs as [Hs _]. apply (Z.mul_le_mono_nonneg_r _ _ N2) in Hs; lia. }
        assert (Hlt : 2 * N2 < T * D2).
        { rewrite Em in Hgap. assert (0 < T * D2) by (apply Z.mul_pos_pos; lia).
          assert (2 * 2 ^ 52 < 10 ^ 16) by reflexivity. nia. }
        assert (Hcore : n * T * N2 = Zpos m * (T * D2) * d).
        { replace (n * T * N2) with (n * N2 * T) by ring. rewrite Hval'. ring. }
        assert (HN2d : - (d * N2) <= 2 * (F * N2 * d) - 2 * (n * T * N2)).
        { replace (2 * (F * N2 * d) - 2 * (n * T * N2)) with (2 * (F * d - n * T) * N2) by ring.
          replace (- (d * N2)) with (- d * N2) by ring. apply Z.mul_le_mono_nonneg_r; lia. }
        assert (Hd2 : d * (2 * N2) < d * (T * D2)) by (apply Z.mul_lt_mono_pos_l; lia).
        apply (Z.mul_lt_mono_pos_r d); [exact Hd|]. lia. }
    destruct (rounds_unique _ _ _ _ _ _ R R2) as [-> ->].
    unfold finish. replace (e <=? 971) with true by (symmetry; apply Z.leb_le; lia).
    cbn. rewrite eqb_reflx, Pos.eqb_refl, Z.eqb_refl. reflexivity. }
  rewrite Ex. discriminate.
Qed.

Lemma strip_zeros_spec : forall f m e, (0 < m)%N ->
  exists j, 0 <= j /\ snd (strip_zeros f m e) = e + j
    /\ Z.of_N m = Z.of_N (fst (strip_zeros f m e)) * 10 ^ j /\ (0 < fst (strip_zeros f m e))%N.
Proof.
  induction f as [|f IH]; intros m e Hm; cbn [strip_zeros].
  - exists 0. cbn [fst snd]. repeat split; lia.
  - replace (m =? 0)%N with false by (symmetry; apply N.eqb_neq; lia).
    destruct (m mod 10 =? 0)%N eqn:E.
    + apply N.eqb_eq in E. assert (Ed := N.div_mod m 10 ltac:(discriminate)). rewrite E in Ed.
      destruct (IH (m / 10)%N (e + 1)) as (j & Hj & H1 & H2 & H3); [lia|].
      exists (j + 1). repeat split; auto; try lia.
      rewrite Z.pow_add_r by lia. rewrite N.add_0_r in Ed. apply (f_equal Z.of_N) in Ed.
      rewrite N2Z.inj_mul, H2 in Ed. change (Z.of_N 10) with 10 in Ed. rewrite Z.pow_1_r. lia.
    + exists 0. cbn [fst snd]. repeat split; lia.
Qed.

Lemma repeat_digs : forall k, Forall is_dig (repeat 48%N k).
Proof. induction k; cbn [repeat]; constructor; auto. unfold is_dig. lia. Qed.
Lemma dval_zeros : forall k acc, dval acc (repeat 48%N k) = (acc * 10 ^ N.of_nat k)%N.
Proof.
  induction k as [|k IH]; intro acc; cbn [repeat].
  - unfold dval. cbn [fold_left]. rewrite N.mul_1_r. reflexivity.
  - change (48%N :: repeat 48%N k) with ([48%N] ++ repeat 48%N k). rewrite dval_app, IH.
    rewrite Nat2N.inj_succ, N.pow_succ_r'. unfold dval. cbn [fold_left]. lia.
Qed.

(** Fixed notation reads back as the decimal it shows. *)
Lemma layout_parse : forall (s : bool) q e, (0 < q)%N -> -40 <= e ->
  (forall k, (1 <= k)%nat -> (q < 10 ^ N.of_nat k)%N -> (10 ^ N.of_nat (k - 1) <= q)%N ->
             -4 < Z.of_nat k + e <= 16) ->
  parse_float (sign_str s ++ repr_layout q e) = Some (float_of_dec s q e).
Proof.
  intros s q e Hq He Hpt. unfold repr_layout.
  destruct (N_str_digits q) as (k & Ek & Hk & Hu & Hl). rewrite Ek.
  destruct Hl as [[Hl _]|Hl]; [lia|]. specialize (Hpt k Hk Hu Hl).
  rewrite digits_len. set (pt := Z.of_nat k + e) in *.
  replace ((-4 <? pt) && (pt <=? 16)) with true.
  2:{ symmetry. apply andb_true_iff. split; [apply Z.ltb_lt|apply Z.leb_le]; lia. }
  assert (Hds := digits_are k q). assert (Hdv := dval_digits k q Hu).
  assert (Hlen := digits_len k q).
  assert (Hbig : forall x, -60 <= x -> forall m, 1 <= m -> dec_den x <= m * 2 ^ 1000).
  { intros x Hx m Hm. unfold dec_den.
    assert (A : 10 ^ Z.max 0 (- x) <= 10 ^ 60) by (apply Z.pow_le_mono_r; lia).
    assert (B : 10 ^ 60 <= 2 ^ 1000) by (vm_compute; discriminate).
    assert (C : 1 * 2 ^ 1000 <= m * 2 ^ 1000) by (apply Z.mul_le_mono_nonneg_r; [apply Z.pow_nonneg|]; lia).
    lia. }
  assert (Hdec : forall m nd x, (0 < m)%N -> 1 <= Z.of_nat nd + x <= 20 -> -60 <= x ->
            dec_num (Z.of_N m) x * dec_den e = dec_num (Z.of_N q) e * dec_den x ->
            dec_to_float s m nd x = float_of_dec s q e).
  { intros m nd x Hm Hnd Hx Hv. unfold dec_to_float.
    replace (m =? 0)%N with false by (symmetry; apply N.eqb_neq; lia).
    replace (400 <? Z.of_nat nd + x) with false by (symmetry; apply Z.ltb_ge; lia).
    replace (Z.of_nat nd + x <? -400) with false by (symmetry; apply Z.ltb_ge; lia).
    apply float_of_dec_eq; auto; apply Hbig; lia. }
  destruct (pt <=? 0) eqn:E0.
  - apply Z.leb_le in E0.
    change (py "0." ++ repeat 48%N (Z.to_nat (- pt)) ++ digits k q)
      with ([48%N] ++ 46%N :: (repeat 48%N (Z.to_nat (- pt)) ++ digits k q)).
    rewrite parse_float_point.
    + f_equal. cbn [length]. rewrite app_length, repeat_length, Hlen.
      rewrite !dval_app. rewrite dval_zeros. change (dval 0 [48%N]) with 0%N. rewrite N.mul_0_l, Hdv.
      apply Hdec; auto; try lia.
      f_equal; [|f_equal; lia]. f_equal. lia.
    + constructor; [unfold is_dig; lia|constructor].
    + apply Forall_app. split; [apply repeat_digs|exact Hds].
    + discriminate.
    + intro H. apply (f_equal (@length N)) in H. rewrite app_length, Hlen in H. cbn in H. lia.
  - apply Z.leb_gt in E0. destruct (Z.of_nat k <=? pt) eqn:E1.
    + apply Z.leb_le in E1.
      replace (digits k q ++ repeat 48%N (Z.to_nat (pt - Z.of_nat k)) ++ py ".0")
        with ((digits k q ++ repeat 48%N (Z.to_nat (pt - Z.of_nat k))) ++ 46%N :: [48%N])
        by (rewrite <- app_assoc; reflexivity).
      rewrite parse_float_point.
      * f_equal. rewrite app_length, repeat_length, Hlen. cbn [length].
        rewrite !dval_app. rewrite Hdv, dval_zeros. unfold dval at 1. cbn [fold_left].
        assert (Hpos : (0 < q * 10 ^ N.of_nat (Z.to_nat (pt - Z.of_nat k)))%N)
          by (apply N.mul_pos_pos; [exact Hq|apply N.neq_0_lt_0, N.pow_nonzero; lia]).
        apply Hdec; try lia. clear Hpos.
        unfold dec_num, dec_den. change (Z.max 0 (- Z.of_nat 1)) with 0.
           change (Z.max 0 (- - Z.of_nat 1)) with 1.
           replace (Z.max 0 (- e)) with 0 by lia. replace (Z.max 0 e) with e by lia.
           rewrite N2Z.inj_add, !N2Z.inj_mul, N2Z.inj_pow, nat_N_Z, Z2Nat.id by lia.
           replace (pt - Z.of_nat k) with e by (unfold pt; lia).
           rewrite !Z.pow_0_r, Z.pow_1_r. change (Z.of_N (48 - 48)) with 0.
        change (Z.of_N 10) with 10. lia.
      * apply Forall_app. split; [exact Hds|apply repeat_digs].
      * constructor; [unfold is_dig; lia|constructor].
      * intro H. apply (f_equal (@length N)) in H. rewrite app_length, Hlen in H. cbn in H. lia.
      * discriminate.
    + apply Z.leb_gt in E1.
      set (p := Z.to_nat pt). assert (Hp : (1 <= p < k)%nat) by (unfold p; lia).
      change (py ".") with [46%N]. cbn [app].
      rewrite parse_float_point.
      * f_equal. rewrite firstn_skipn, Hdv, firstn_length, skipn_length, Hlen.
        apply Hdec; auto; try lia.
        f_equal; [|f_equal; unfold p; lia]. f_equal. unfold p. lia.
      * rewrite <- (firstn_skipn p) in Hds. apply Forall_app in Hds. tauto.
      * rewrite <- (firstn_skipn p) in Hds. apply Forall_app in Hds. tauto.
      * intro H. apply (f_equal (@length N)) in H. rewrite firstn_length, Hlen in H. cbn in H. lia.
      * intro H. apply (f_equal (@length N)) in H. rewrite skipn_length, Hlen in H. cbn in H. lia.
Qed.

Lemma layout_len : forall q e, (0 < q)%N ->
  (forall k, (1 <= k)%nat -> (q < 10 ^ N.of_nat k)%N -> (10 ^ N.of_nat (k - 1) <= q)%N ->
             -4 < Z.of_nat k + e <= 16) ->
  (3 <= length (repr_layout q e))%nat.
Proof.
  intros q e Hq Hpt. unfold repr_layout.
  destruct (N_str_digits q) as (k & Ek & Hk & Hu & Hl). rewrite Ek.
  destruct Hl as [[Hl _]|Hl]; [lia|]. specialize (Hpt k Hk Hu Hl).
  rewrite digits_len. set (pt := Z.of_nat k + e) in *.
  replace ((-4 <? pt) && (pt <=? 16)) with true.
  2:{ symmetry. apply andb_true_iff. split; [apply Z.ltb_lt|apply Z.leb_le]; lia. }
  destruct (pt <=? 0) eqn:E0; [|destruct (Z.of_nat k <=? pt) eqn:E1].
  - rewrite !app_length, digits_len. cbn. lia.
  - rewrite !app_length, digits_len. cbn. lia.
  - apply Z.leb_gt in E0, E1.
    rewrite !app_length, firstn_length, skipn_length, digits_len. cbn [length py map list_ascii_of_string].
    lia.
Qed.

(** [float(repr(x)) = x]. *)
Theorem repr_roundtrip : forall s m e n d, 2 ^ 52 <= Zpos m < 2 ^ 53 -> -1074 <= e <= 971 ->
  frac_of m e = (n, d) -> d <= n * 1000 -> n < 10 ^ 15 * d ->
  parse_float (repr (S754_finite s m e)) = Some (S754_finite s m e)
  /\ (3 <= length (repr (S754_finite s m e)))%nat.
Proof.
  intros s m e n d Hm He Hfr Hlo Hhi.
  assert (Hd : 0 < d).
  { unfold frac_of in Hfr. destruct e as [|k|k]; assert (E2 := f_equal snd Hfr); cbn [snd] in E2; lia. }
  assert (Hn : 0 < n) by lia.
  destruct (dec_exp_spec n d Hd Hlo Hhi) as [Ht Hsci].
  unfold repr. rewrite Hfr. set (t := dec_exp n d) in *.
  assert (Hsome := repr_search_some 17 (S754_finite s m e) s n d t 1 17 ltac:(lia)
                     (repr_try_17 s m e n d t Hm He Hfr Hd Hn Hsci Ht)).
  destruct (repr_search (S754_finite s m e) s n d t 1 17) as [[q ex]|] eqn:Es; [clear Hsome|contradiction].
  destruct (repr_search_ok 17 s m e n d t 1 q ex Hd Hn Hsci ltac:(lia) ltac:(lia) ltac:(lia) Es)
    as (k & Hk & Eex & Hf & Hq1 & Hq2).
  assert (Hpk : 0 < 10 ^ (Z.of_nat k - 1)) by (apply Z.pow_pos_nonneg; lia).
  assert (Hq : (0 < q)%N) by lia.
  destruct (strip_zeros_spec 20 q ex Hq) as (j & Hj & Hs1 & Hs2 & Hs3).
  destruct (strip_zeros 20 q ex) as [q' ex']. cbn [fst snd] in *.
  assert (Hpt : forall k', (1 <= k')%nat -> (q' < 10 ^ N.of_nat k')%N ->
            (10 ^ N.of_nat (k' - 1) <= q')%N -> -4 < Z.of_nat k' + ex' <= 16).
  { intros k' Hk' Hu Hl.
    apply N2Z.inj_lt in Hu. apply N2Z.inj_le in Hl. rewrite N2Z.inj_pow, nat_N_Z in Hu, Hl.
    rewrite Nat2Z.inj_sub in Hl by lia. change (Z.of_N 10) with 10 in *. change (Z.of_nat 1) with 1 in Hl.
    assert (Hpj : 0 < 10 ^ j) by (apply Z.pow_pos_nonneg; lia).
    assert (A : 10 ^ (Z.of_nat k' - 1 + j) <= 10 ^ Z.of_nat k).
    { rewrite Z.pow_add_r by lia. nia. }
    assert (B : 10 ^ (Z.of_nat k - 1) < 10 ^ (Z.of_nat k' + j)).
    { rewrite (Z.pow_add_r 10 (Z.of_nat k')) by lia. nia. }
    apply Z.pow_le_mono_r_iff in A; try lia. apply Z.pow_lt_mono_r_iff in B; lia. }
  split; [|rewrite app_length; assert (Hlen := layout_len q' ex' Hs3 Hpt); lia].
  rewrite layout_parse; auto; try lia.
  - rewrite <- Hf. f_equal. apply float_of_dec_eq; auto.
    + unfold dec_den. assert (A : 10 ^ Z.max 0 (- ex') <= 10 ^ 60) by (apply Z.pow_le_mono_r; lia).
      assert (B : 10 ^ 60 <= 2 ^ 1000) by (vm_compute; discriminate).
      assert (C : 1 * 2 ^ 1000 <= Z.of_N q' * 2 ^ 1000) by (apply Z.mul_le_mono_nonneg_r; [apply Z.pow_nonneg|]; lia).
      lia.
    + unfold dec_den. assert (A : 10 ^ Z.max 0 (- ex) <= 10 ^ 60) by (apply Z.pow_le_mono_r; lia).
      assert (B : 10 ^ 60 <= 2 ^ 1000) by (vm_compute; discriminate).
      assert (C : 1 * 2 ^ 1000 <= Z.of_N q * 2 ^ 1000) by (apply Z.mul_le_mono_nonneg_r; [apply Z.pow_nonneg|]; lia).
      lia.
    + unfold dec_num, dec_den. rewrite Hs2, Hs1.
      rewrite <- !Z.mul_assoc. f_equal. rewrite <- !Z.pow_add_r by lia. f_equal. lia.
Qed.

(** ** [float] of a whole number *)

Lemma parse_digits : forall k n, (1 <= k <= 300)%nat -> (n < 10 ^ N.of_nat k)%N ->
  parse_float (digits k n) = Some (float_of_Z (Z.of_N n)).
Proof.
  intros k n Hk Hn. rewrite parse_float_digits.
  - rewrite dval_digits by exact Hn. rewrite digits_len. f_equal. unfold dec_to_float.
    destruct n as [|p]; [reflexivity|]. cbn [N.eqb].
    replace (400 <? Z.of_nat k + 0) with false by (symmetry; apply Z.ltb_ge; lia).
    replace (Z.of_nat k + 0 <? -400) with false by (symmetry; apply Z.ltb_ge; lia).
    reflexivity.
  - apply digits_are.
  - intro H. apply (f_equal (@length N)) in H. rewrite digits_len in H. cbn in H. lia.
Qed.

(** A float [repr] writes in fixed notation, as a check. *)
Definition plain (x : float) : bool :=
  match x with
  | S754_zero _ => true
  | S754_finite s m e =>
      let (n, d) := frac_of m e in
      (2 ^ 52 <=? Zpos m) && (Zpos m <? 2 ^ 53) && (-1074 <=? e) && (e <=? 971)
      && (d <=? n * 1000) && (n <? 10 ^ 15 * d)
  | _ => false
  end.

Lemma plain_repr : forall x, plain x = true ->
  parse_float (repr x) = Some x /\ (3 <= length (repr x))%nat.
Proof.
  intros [s|s| |s m e] H; try discriminate.
  - destruct s; vm_compute; auto.
  - unfold plain in H. destruct (frac_of m e) as [n d] eqn:E.
    repeat (apply andb_true_iff in H; destruct H as [H ?H]).
    repeat match goal with
    | H : (_ <=? _) = true |- _ => apply Z.leb_le in H
    | H : (_ <? _) = true |- _ => apply Z.ltb_lt in H
    end.
    apply (repr_roundtrip s m e n d); auto; lia.
Qed.

(** [repr] always shows a point or an exponent, so it is never "9999". *)
Lemma plain_repr_9999 : forall x, plain x = true -> str_eqb (repr x) (py "9999") = false.
Proof.
  intros x H. apply str_eqb_neq. intro E. destruct (plain_repr x H) as [H1 _].
  rewrite E in H1.
  assert (Hx : x = float_of_Z 9999).
  { assert (H2 : parse_float (py "9999") = Some (float_of_Z 9999)) by (vm_compute; reflexivity).
    congruence. }
  assert (H3 : str_eqb (repr (float_of_Z 9999)) (py "9999") = false) by (vm_compute; reflexivity).
  subst x. apply str_eqb_neq in H3. exact (H3 E).
Qed.
