(** * Verdicts on every accepted report (C81): specification vocabulary *)
From Coq Require Import String Ascii.
From Coq Require Import List NArith ZArith Bool QArith.
From Verif Require Import PyBase PyFloat PyTime Base MetarGroups SpecNum SpecGroups SpecRules SpecCavok SpecVerdict SpecGrammar SpecStated.
Import ListNotations.
Local Open Scope string_scope.
Local Open Scope nat_scope.
Local Open Scope list_scope.

(** The codes of a part of a report are those of these groups. *)
Definition bears (vis : option vis_g) (ws : list weather_g) (gs : list cloud_g) (c : common) : Prop :=
  opt_all vis_wf vis /\ Forall weather_wf ws /\ Forall cloud_wf gs
  /\ v_code (c_vis c) = option_map vis_spelled vis
  /\ map we_code (gl_list (c_weathers c)) = map (fun g => Some (weather_code g)) ws
  /\ map cl_code (gl_list (c_clouds c)) = map (fun g => Some (cloud_code g)) gs.

(** A broken or overcast layer without a height comes before any broken or
    overcast layer at or below 1500 feet. *)
Definition trips (gs : list cloud_g) : Prop :=
  exists l1 g l2, gs = l1 ++ g :: l2 /\ ~ ceiling_has_height g
    /\ Forall (fun g => cover_in ["BKN"; "OVC"] g = true -> forall n, hundreds_of g = Some n -> (15 < n)%N) l1.

(** The verdicts the codes call for: the flight rules, when there are none,
    when should_be_cavok says True and when it fails. *)
Definition ruled (vis : option vis_g) (ws : list weather_g) (gs : list cloud_g) (c : common) : Prop :=
  judged vis ws gs c
  /\ (flight_rules c = None <-> coded_ceiling gs = None /\ (forall q, coded_vis vis = Some q -> (20000 # 1 <= q)%Q))
  /\ forall same e, should_be_cavok same c = Raise e <-> e = TypeError /\ ws = [] /\ trips gs.

(** All codes of a part are typed, see [typed]. *)
Definition typed_code (c : option str) : Prop := forall s, c = Some s -> typed s.
Definition typed_part (c : common) : Prop :=
  typed_code (v_code (c_vis c)) /\ Forall (fun a => typed_code (we_code a)) (gl_list (c_weathers c))
  /\ Forall (fun a => typed_code (cl_code a)) (gl_list (c_clouds c)).
