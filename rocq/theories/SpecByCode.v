(** * The code of a group decides its values (C76): specification vocabulary *)
From Coq Require Import String Ascii.
From Coq Require Import List NArith ZArith Bool.
From Verif Require Import PyBase PyTime Base MetarGroups Trend Metar Taf.
Import ListNotations.
Local Open Scope list_scope.

(** Two groups with the same code are the same group. *)
Definition decided {A} (code : A -> option str) (l l' : list A) : Prop :=
  forall a a', In a l -> In a' l' -> code a = code a' -> a = a'.

(** The groups of a METAR and of its trends. *)
Definition metar_parts (x : metar) : list common := me_common x :: map cp_common (gl_list (me_trends x)).
(** The groups of a TAF and of its changes. *)
Definition taf_parts (x : taf) : list common := ta_common x :: map cf_common (gl_list (ta_changes x)).

Definition winds (l : list common) : list metar_wind := map c_wind l.
Definition sights (l : list common) : list visibility := map c_vis l.
Definition phenomena (l : list common) : list weather := flat_map (fun c => gl_list (c_weathers c)) l.
Definition layers (l : list common) : list cloud := flat_map (fun c => gl_list (c_clouds c)) l.

(** Whatever two lists of parts have in common was read alike. *)
Definition alike (l l' : list common) : Prop :=
  decided w_code (winds l) (winds l') /\ decided v_code (sights l) (sights l') /\ decided we_code (phenomena l) (phenomena l') /\ decided cl_code (layers l) (layers l').
