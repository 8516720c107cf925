(** * Decimal digits of every script

    [\d], [int] and [float] accept all decimal digits of Unicode; a text of
    such digits reads as the same text in ASCII digits. *)
From Coq Require Import String Ascii.
From Coq Require Import List NArith ZArith Bool Lia.
From Verif Require Import PyBase PyRegex PyFloat SpecNum SymRegex ReprFacts ProofGroups ProofValues2 Captures.
Import ListNotations.
Local Open Scope string_scope.
Local Open Scope nat_scope.
Local Open Scope list_scope.

Definition nd_all : list N := flat_map (fun z => map (fun k => z + k)%N (upto 10)) nd_zeros.

Lemma in_nd_all : forall c, is_digit c = true -> In c nd_all.
Proof.
  intros c H. unfold is_digit, digit_val in H.
  destruct (find (fun z => ((z <=? c) && (c <? z + 10))%N) nd_zeros) as [z|] eqn:E; [|discriminate].
  apply find_some in E. destruct E as [I E]. apply andb_true_iff in E. destruct E as [E1 E2].
  apply N.leb_le in E1. apply N.ltb_lt in E2. unfold nd_all. apply in_flat_map. exists z. split; [exact I|].
  apply in_map_iff. exists (c - z)%N. split; [lia|]. apply in_upto. lia.
Qed.

Lemma nd_forall : forall f, forallb f nd_all = true -> forall c, is_digit c = true -> f c = true.
Proof. intros f H c Hc. rewrite forallb_forall in H. apply H, in_nd_all, Hc. Qed.

Lemma digit_not_space : forall c, is_digit c = true -> is_space c = false.
Proof.
  intros c H. apply negb_true_iff. revert c H. apply (nd_forall (fun c => negb (is_space c))).
  vm_compute. reflexivity.
Qed.

Lemma digit_val_small : forall c d, digit_val c = Some d -> (d < 10)%N.
Proof.
  intros c d H. unfold digit_val in H.
  destruct (find (fun z => ((z <=? c) && (c <? z + 10))%N) nd_zeros) as [z|] eqn:E; [|discriminate].
  injection H as <-. apply find_some in E. destruct E as [_ E]. apply andb_true_iff in E. destruct E as [E1 E2].
  apply N.leb_le in E1. apply N.ltb_lt in E2. lia.
Qed.

Lemma to_ascii_digit : forall c d, digit_val c = Some d -> to_ascii_char c = dig d.
Proof.
  intros c d H.
  assert (K : (match digit_val c with Some d => to_ascii_char c =? dig d | None => true end)%N = true).
  { apply (nd_forall (fun c => match digit_val c with Some d => (to_ascii_char c =? dig d)%N | None => true end)).
    - vm_compute. reflexivity.
    - unfold is_digit. rewrite H. reflexivity. }
  rewrite H in K. apply N.eqb_eq in K. exact K.
Qed.

Lemma digits_val_app : forall a b acc n, digits_val acc a = Some n -> digits_val acc (a ++ b) = digits_val n b.
Proof.
  induction a as [|c a IH]; intros b acc n H; cbn in *; [congruence|].
  destruct (digit_val c) as [d|]; [|discriminate]. apply IH. exact H.
Qed.

Lemma ascii_digits : forall x n, digits_val 0 x = Some n ->
  map to_ascii_char x = digits (length x) n /\ (n < 10 ^ N.of_nat (length x))%N.
Proof.
  intros x. induction x as [|c x IH] using rev_ind; intros n H.
  - injection H as <-. split; [reflexivity|]. cbn. lia.
  - assert (D : all_digits (x ++ [c])).
    { clear IH. revert n H. generalize 0%N. induction (x ++ [c]) as [|d y IHy]; intros a n H; [constructor|].
      cbn in H. destruct (digit_val d) as [v|] eqn:E; [|discriminate].
      constructor; [unfold is_digit; rewrite E; reflexivity|exact (IHy _ _ H)]. }
    unfold all_digits in D. apply Forall_app in D. destruct D as [Dx _].
    destruct (digits_val_some x 0%N Dx) as (k & Ek). rewrite (digits_val_app x [c] 0%N k Ek) in H.
    cbn in H. destruct (digit_val c) as [d|] eqn:Ed; [|discriminate]. injection H as <-.
    destruct (IH k Ek) as [I1 I2]. pose proof (digit_val_small c d Ed) as Sd.
    rewrite map_app, app_length, Nat.add_1_r. cbn [map]. rewrite I1, (to_ascii_digit c d Ed).
    split; [apply digits_snoc; exact Sd|]. rewrite Nat2N.inj_succ, N.pow_succ_r'. lia.
Qed.

Lemma to_ascii_digits : forall k n, map to_ascii_char (digits k n) = digits k n.
Proof. intros k n. apply to_ascii_id, digs_ascii, digits_are. Qed.

Lemma parse_float_ascii : forall x n, digits_val 0 x = Some n -> parse_float x = parse_float (digits (length x) n).
Proof.
  intros x n H. unfold parse_float. rewrite to_ascii_digits. rewrite (proj1 (ascii_digits x n H)). reflexivity.
Qed.

Lemma float_of_digits : forall x, all_digits x -> x <> [] -> exists f, parse_float x = Some f.
Proof.
  intros x D N. destruct (digits_val_some x 0%N D) as (n & E). rewrite (parse_float_ascii x n E).
  eexists. apply parse_float_digits; [apply digits_are|]. intro F. apply N.
  apply length_zero_iff_nil. rewrite <- (digits_len (length x) n), F. reflexivity.
Qed.
