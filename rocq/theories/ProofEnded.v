(** * Proofs: the lines of the changes of a forecast (C61) *)
From Coq Require Import String Ascii.
From Coq Require Import List NArith ZArith Bool Lia.
From Verif Require Import PyBase PyRegex AeroRegex PyTime Base MetarGroups Trend Metar Taf SpecTime SpecKept SpecMoment SpecClocked ProofClockedTaf
  SpecStr ProofStr ProofStrTaf SpecEnded.
From Verif Require SpecTaf ProofMomentReport.
Import ListNotations.
Local Open Scope string_scope.
Local Open Scope nat_scope.
Local Open Scope list_scope.

Lemma is_fm_iff : forall p, is_fm p = true <-> SpecTaf.is_from p.
Proof.
  intro p. unfold is_fm, SpecTaf.is_from, SpecTaf.ind_code. destruct (tc_code (cf_ind p)) as [c|]; [apply fm_iff|].
  split; [discriminate|]. intros (r & E). discriminate E.
Qed.

Theorem taf_says_ok : forall e code y mo tr x, taf_parse e code y mo tr = Ok x -> taf_says e x.
Proof.
  intros e code y mo tr x E. pose proof (ProofMomentReport.taf_moments_ok _ _ _ _ _ _ E) as (_ & Vx & _).
  apply ProofMomentReport.valid_moments_real in Vx.
  destruct (taf_text_by _ _ _ _ _ _ (ends_first (ta_valid x)) E) as (ty & temps & changes & A & B & C & D).
  - intros w p N F. destruct (c_parsed _ _ _ N) as [_ K]. unfold is_fm in F. unfold ends_first.
    destruct (tc_code (cf_ind p)) as [c|] eqn:Ec; [|discriminate F].
    destruct (K (ex_intro _ c (conj Ec F))) as [U|(z & G & U)]; [left; exact U|right]. exists z. split; [exact (group_own _ _ (proj1 Vx) G)|exact U].
  - exists ty, temps, changes. split; [exact A|]. split; [exact B|]. split; [|exact D]. clear - C.
    induction C as [|p l ps ls [_ K] C IH]; constructor; [|exact IH]. pose proof (is_fm_iff p) as I. split; intro F.
    + rewrite (proj2 I F) in K. exact K.
    + destruct (is_fm p); [destruct (F (proj1 I eq_refl))|exact K].
Qed.
