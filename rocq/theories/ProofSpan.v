(** * How long a validity lasts (C63): proof *)
From Coq Require Import List NArith ZArith Lia.
From Verif Require Import PyBase PyTime Base Taf SpecTime SpecMoment SpecSpan TimeFacts ProofMoment ProofMomentReport.
Import ListNotations.
Local Open Scope list_scope.

Lemma valid_real : forall e code y mo tr x v, taf_parse e code y mo tr = Ok x -> validity_of x v ->
  real_time (t_dt (va_from v)) /\ real_time (t_dt (va_until v)).
Proof.
  intros e code y mo tr x v E H. destruct (taf_moments_ok _ _ _ _ _ _ E) as (_ & V & _ & _ & C).
  assert (K : real_time (t_dt (va_from (ta_valid x))) /\ real_time (t_dt (va_until (ta_valid x)))).
  { unfold valid_moments in V. destruct (va_code (ta_valid x)); [destruct V as [(A & _) (B & _)]|destruct V as (A & B & _)]; auto. }
  destruct H as [->|(p & I & H)]; [exact K|]. rewrite Forall_forall in C. destruct (C p I) as (Ev & A & B & _).
  destruct H as [->| ->]; [rewrite Ev; exact K|split; assumption].
Qed.

Lemma span : forall v, real_time (t_dt (va_from v)) -> real_time (t_dt (va_until v)) -> forall z, va_duration v = z <-> lasts v z.
Proof.
  intros v A B z. unfold va_duration, dt_diff, lasts. pose proof (real_clock_ok _ A) as CA. pose proof (real_clock_ok _ B) as CB. split.
  - intros <-. destruct (Z_le_gt_dec (dt_minutes (t_dt (va_from v))) (dt_minutes (t_dt (va_until v)))) as [L|L].
    + left. exists (Z.to_nat (dt_minutes (t_dt (va_until v)) - dt_minutes (t_dt (va_from v)))). split; [lia|]. apply later_of; [exact CA|exact CB|lia].
    + right. exists (Z.to_nat (dt_minutes (t_dt (va_from v)) - dt_minutes (t_dt (va_until v)))). split; [lia|]. apply later_of; [exact CB|exact CA|lia].
  - intros [(k & -> & L)|(k & -> & L)]; [destruct (later_count _ _ _ CA L) as [E _]|destruct (later_count _ _ _ CB L) as [E _]]; lia.
Qed.

Theorem validity_lasts : forall e code y mo tr x v, taf_parse e code y mo tr = Ok x -> validity_of x v ->
  forall z, va_duration v = z <-> lasts v z.
Proof. intros e code y mo tr x v E H. destruct (valid_real _ _ _ _ _ _ _ E H) as [A B]. exact (span v A B). Qed.
