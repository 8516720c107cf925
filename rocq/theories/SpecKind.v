(** * What C69 says: two METARs that differ in their first word *)
From Coq Require Import String Ascii.
From Coq Require Import List NArith ZArith Bool.
From Verif Require Import PyBase PyTime Base MetarGroups Trend Metar SpecGroups SpecText SpecApart.
Import ListNotations.
Local Open Scope string_scope.
Local Open Scope list_scope.

(** The two words a report may begin with, and what they mean. *)
Inductive kind := Routine | Special.
Definition kind_word (k : kind) : str := match k with Routine => py "METAR" | Special => py "SPECI" end.
Definition kind_name (k : kind) : str :=
  match k with Routine => py "Meteorological Aerodrome Report" | Special => py "Special Aerodrome Report" end.
(** The first line of the readable text. *)
Definition kind_line (k : kind) : str := kind_name k ++ py " (" ++ kind_word k ++ py ")" ++ [10%N].

(** Everything that the first word has no part in. *)
Definition but_kind (x : metar) :=
  (me_unparsed x, me_station x, me_time x, me_modifier x,
   (c_wind (me_common x), me_wvar x, c_vis (me_common x), me_minvis x, me_rvr x, c_weathers (me_common x), c_clouds (me_common x),
    me_temps x, me_press x, me_recent x, me_ws x, me_sea x, me_rwy x), me_trends x, me_out x).

(** What the first word decides, given the rest of the raw code, of the body
    and of the readable text. *)
Record shows (k : kind) (raw body trend remark text : str) (x : metar) : Prop := {
  sh_type : ty_code (me_type x) = Some (kind_word k) /\ ty_type (me_type x) = Some (kind_name k);
  sh_raw : me_raw x = kind_word k ++ raw;
  sh_sections : me_sections x = [kind_word k ++ body; trend; remark];
  sh_text : c_string (me_common x) = kind_line k ++ text }.

(** Both readings fail with the same exception, or both succeed and differ in
    nothing but the first word. *)
Definition differ_in_kind (r1 r2 : result metar) : Prop :=
  match r1, r2 with
  | Ok x1, Ok x2 =>
      but_kind x1 = but_kind x2
      /\ exists raw body trend remark text,
           shows Routine raw body trend remark text x1 /\ shows Special raw body trend remark text x2
  | Raise e1, Raise e2 => e1 = e2
  | _, _ => False
  end.

(** The two readings of a report with and without the word METAR in front. *)
Definition announced (r1 r2 : result metar) : Prop :=
  match r1, r2 with
  | Ok x1, Ok x2 =>
      but_kind x1 = but_kind x2 /\ me_type x1 = me_type x2
      /\ me_raw x1 = py "METAR " ++ me_raw x2
      /\ (exists body trend remark, me_sections x1 = [py "METAR " ++ body; trend; remark] /\ me_sections x2 = [body; trend; remark])
      /\ c_string (me_common x1) = kind_line Routine ++ c_string (me_common x2)
  | Raise e1, Raise e2 => e1 = e2
  | _, _ => False
  end.

(** A station word, not mistaken for the remark or the windshear of a runway. *)
Record is_station (w : str) : Prop := {
  is_wf : station_wf w;
  is_kept : starts_with (py "RMK") w = false;
  is_calm : ends_with (py "WS") w = false }.
