(** * The numbers of a report: specification (C58) *)
From Coq Require Import String Ascii.
From Coq Require Import List NArith ZArith QArith Bool Lia.
From Verif Require Import PyBase PyFloat PyTime Base MetarGroups Trend Metar Taf SpecNum.
Import ListNotations.
Local Open Scope string_scope.
Local Open Scope nat_scope.
Local Open Scope list_scope.

(** Either no number, or a finite number between two bounds: never an infinity
    and never "not a number". *)
Definition lies (lo hi : Z) (v : option float) : Prop :=
  forall x, v = Some x -> exists q, fvalue x = Some q /\ (inject_Z lo <= q <= inject_Z hi)%Q.

(** Degrees. *)
Definition dir_lies (d : direction) : Prop := lies 0 360 (dir_value d).
(** Knots: 999 metres per second are 1941.9 knots. *)
Definition wind_lies (w : metar_wind) : Prop :=
  dir_lies (w_dir w) /\ lies 0 1942 (w_speed w) /\ lies 0 1942 (w_gust w).
Definition wvar_lies (w : wind_variation) : Prop := dir_lies (wv_from w) /\ dir_lies (wv_to w).
(** Metres: 99 9/1SM are 200016 metres. *)
Definition vis_lies (v : visibility) : Prop := lies 0 200017 (v_vis v) /\ dir_lies (v_dir v).
Definition minvis_lies (v : visibility) : Prop := lies 0 10000 (v_vis v) /\ dir_lies (v_dir v).
Definition rvr_lies (r : runway_range) : Prop := lies 0 10000 (rr_low r) /\ lies 0 10000 (rr_high r).
(** Metres: 99900 feet are 30449.52 metres. *)
Definition cloud_lies (c : cloud) : Prop := lies 0 30450 (cl_height c).
(** Degrees Celsius. *)
Definition temps_lies (t : temperatures) : Prop := lies (-99) 99 (te_temp t) /\ lies (-99) 99 (te_dewpt t).
(** Hectopascals.  The bound is this high because a number without a unit
    above 2500 is taken to be inches, undivided. *)
Definition press_lies (p : pressure) : Prop := lies 0 338605 (pr_value p).
(** Degrees Celsius and metres. *)
Definition sea_lies (s : sea_state) : Prop := lies (-99) 99 (se_temp s) /\ lies 0 100 (se_height s).
Definition ttemp_lies (t : taf_temp) : Prop := lies (-99) 99 (tt_value t).

(** ** Reports *)

Definition common_lies (c : common) : Prop :=
  wind_lies (c_wind c) /\ vis_lies (c_vis c) /\ Forall cloud_lies (gl_list (c_clouds c)).

Definition metar_lies (x : metar) : Prop :=
  common_lies (me_common x) /\ wvar_lies (me_wvar x) /\ minvis_lies (me_minvis x)
  /\ Forall rvr_lies (gl_list (me_rvr x)) /\ temps_lies (me_temps x) /\ press_lies (me_press x) /\ sea_lies (me_sea x)
  /\ Forall (fun p => common_lies (cp_common p)) (gl_list (me_trends x)).

Definition taf_lies (x : taf) : Prop :=
  common_lies (ta_common x) /\ Forall ttemp_lies (gl_list (ta_max x)) /\ Forall ttemp_lies (gl_list (ta_min x))
  /\ Forall (fun p => common_lies (cf_common p)) (gl_list (ta_changes x)).
