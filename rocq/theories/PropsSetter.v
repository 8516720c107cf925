(** * Property C74: statements only *)
From Coq Require Import String Ascii.
From Coq Require Import List NArith ZArith Bool Lia.
From Verif Require Import PyBase PyRegex AeroRegex PyFloat PyTime Utils Base MetarGroups Trend Metar Taf AsDict Queries Setter SpecNum SpecDict SpecSetter ProofValues
  ProofSetter PropsFailures.
Import ListNotations.
Local Open Scope string_scope.
Local Open Scope nat_scope.
Local Open Scope list_scope.

(** CAVOK of a METAR can be set to True and False only. *)
Theorem C74_accepts_metar : forall value x, (exists x', metar_set_cavok value x = Ok x') <-> (exists b, value = VBool b).
Proof. exact metar_set_accepts. Qed.
Print Assumptions C74_accepts_metar.

Theorem C74_accepts_taf : forall value x, (exists x', taf_set_cavok value x = Ok x') <-> (exists b, value = VBool b).
Proof. exact taf_set_accepts. Qed.
Print Assumptions C74_accepts_taf.

Theorem C74_rejects : forall value, (forall b, value <> VBool b) ->
  (forall x, metar_set_cavok value x = Raise TypeError) /\ (forall x, taf_set_cavok value x = Raise TypeError).
Proof. exact set_rejects. Qed.
Print Assumptions C74_rejects.

(** Setting it changes that entry of the dictionary and the answer to no
    other question. *)
Theorem C74_metar : forall e same value x x', metar_set_cavok value x = Ok x' -> exists b, value = VBool b
  /\ v_cavok (c_vis (me_common x')) = b
  /\ (forall q, apart_metar q -> fst (on_metar e same q x') = fst (on_metar e same q x))
  /\ (forall d, metar_dict e x = Ok d -> exists d', metar_dict e x' = Ok d' /\ leaves (VDict d') = map (told b) (leaves (VDict d))).
Proof. exact metar_set. Qed.
Print Assumptions C74_metar.

Theorem C74_taf : forall e same value x x', taf_set_cavok value x = Ok x' -> exists b, value = VBool b
  /\ v_cavok (c_vis (ta_common x')) = b
  /\ (forall q, apart_taf q -> fst (on_taf e same q x') = fst (on_taf e same q x))
  /\ (forall d, taf_dict e x = Ok d -> exists d', taf_dict e x' = Ok d' /\ leaves (VDict d') = map (told b) (leaves (VDict d))).
Proof. exact taf_set. Qed.
Print Assumptions C74_taf.

(** The setter looks at nothing else: CAVOK can be set beside a visibility of
    2000 m, and the text goes on saying what it said. *)
Definition set_beside : bool :=
  match read_in 2026 1 "METAR SEQM 162000Z 00000KT 2000 BR OVC002 12/12 Q1020" with
  | Ok x => match metar_set_cavok (VBool true) x, metar_set_cavok (VStr (py "True")) x with
            | Ok x', Raise TypeError =>
              v_cavok (c_vis (me_common x')) && negb (v_cavok (c_vis (me_common x)))
              && match v_vis (c_vis (me_common x')) with Some v => feqb v (float_of_Z 2000) | None => false end
              && str_eqb (metar_str x) (metar_str x')
              && match fst (on_metar some_env true (MAttr Rules) x') with ARules (Some r) => str_eqb r (py "LIFR") | _ => false end
            | _, _ => false
            end
  | _ => false
  end.
Example C74_case : set_beside = true.
Proof. vm_compute. reflexivity. Qed.

Definition set_taf : bool :=
  match taf_parse some_env (py "TAF SEQM 162000Z 1620/1720 00000KT CAVOK TX20/1620Z") (Some 2026%Z) (Some 1%Z) true with
  | Ok x => match taf_set_cavok (VBool false) x with
            | Ok x' => v_cavok (c_vis (ta_common x)) && negb (v_cavok (c_vis (ta_common x'))) && str_eqb (taf_str x) (taf_str x')
            | _ => false
            end
  | _ => false
  end.
Example C74_taf_case : set_taf = true.
Proof. vm_compute. reflexivity. Qed.
