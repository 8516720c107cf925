(** * What should_be_cavok looks at: specification *)
From Coq Require Import String Ascii.
From Coq Require Import List NArith ZArith Bool Lia QArith.
From Verif Require Import PyBase SpecNum SpecGroups SpecRules.
Import ListNotations.
Local Open Scope string_scope.
Local Open Scope nat_scope.
Local Open Scope list_scope.

(** A broken or overcast layer has a height above 1500 feet. *)
Definition high (g : cloud_g) : Prop :=
  cover_in ["BKN"; "OVC"] g = true -> exists n, hundreds_of g = Some n /\ (15 < n)%N.

(** No CB or TCU, nothing below 5000 feet; a vertical visibility stands against
    CAVOK only when [is] behaves as equality ([same]), and then always. *)
Definition passes (same : bool) (g : cloud_g) : Prop :=
  cg_type g <> TyCB /\ cg_type g <> TyTCU
  /\ (forall n, hundreds_of g = Some n -> (50 <= n)%N)
  /\ (same = true -> cover_in ["VV"] g = false).
