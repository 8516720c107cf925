(** * The verdicts on written groups: specification *)
From Coq Require Import String Ascii.
From Coq Require Import List NArith ZArith Bool Lia QArith.
From Verif Require Import PyBase Base MetarGroups SpecNum SpecGroups SpecRules SpecCavok.
Import ListNotations.
Local Open Scope string_scope.
Local Open Scope nat_scope.
Local Open Scope list_scope.

(** No weather, 10 km or more, some layer, and every layer as CAVOK wants it
    ([same]: see [passes]). *)
Definition cavok_written (same : bool) (vis : option vis_g) (ws : list weather_g) (gs : list cloud_g) : Prop :=
  ws = [] /\ (exists q, coded_vis vis = Some q /\ (10000 # 1 <= q)%Q)
  /\ gs <> [] /\ Forall high gs /\ Forall (passes same) gs.

(** The flight rules and the answer of should_be_cavok that the written
    visibility, weather and clouds call for. *)
Definition judged (vis : option vis_g) (ws : list weather_g) (gs : list cloud_g) (c : common) : Prop :=
  flight_rules c = option_map py (category (coded_ceiling gs) (coded_vis vis))
  /\ forall same, (exists c', should_be_cavok same c = Ok (true, c')) <-> cavok_written same vis ws gs.
