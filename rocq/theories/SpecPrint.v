(** * What a METAR prints: specification (C53) *)
From Coq Require Import String Ascii.
From Coq Require Import List NArith ZArith Bool.
From Verif Require Import PyBase PyTime Base Trend Metar SpecText SpecFailures.
Import ListNotations.
Local Open Scope string_scope.
Local Open Scope nat_scope.
Local Open Scope list_scope.

(** A word that holds a time of a trend, such as FM1200. *)
Definition timed (w : str) : Prop := exists x, contains w x /\ period x.

(** One line for every time word after the indicator; the last line shows the
    AT time of the trend, or None. *)
Definition printed_as (p : change_period) : Prop :=
  match ti_code (cp_ind p) with
  | None => cp_out p = []
  | Some c => exists w l, c = w ++ flat_map (fun v => py " " ++ v) l /\ Forall (fun v => ~ In 32%N v /\ timed v) l
      /\ length (cp_out p) = length l
      /\ (l <> [] -> last (cp_out p) [] = match ti_at (cp_ind p) with Some a => time_str a | None => py "None" end)
  end.

(** No FM, TL or AT time was read. *)
Definition untimed (p : change_period) : Prop :=
  t_code (ti_from (cp_ind p)) = None /\ t_code (ti_until (cp_ind p)) = None /\ ti_at (cp_ind p) = None.
