(** * How many trends and changes a text holds: specification (C45, C46) *)
From Coq Require Import String Ascii.
From Coq Require Import List NArith ZArith Bool.
From Verif Require Import PyBase SpecText SpecApart.
Import ListNotations.
Local Open Scope string_scope.
Local Open Scope nat_scope.
Local Open Scope list_scope.

(** Cut the words [l] before the first [k] that is not the last of them; the
    second part is what follows [k]. *)
Fixpoint cut_rest (k : str) (l : list str) : option (list str * list str) :=
  match l with
  | w :: ((_ :: _) as l') =>
      if str_eqb w k then Some ([], l')
      else match cut_rest k l' with Some (a, b) => Some (w :: a, b) | None => None end
  | _ => None
  end.
(** The same, never before the first word; the second part begins with [k]. *)
Definition cut_before (k : str) (ws : list str) : option (list str * list str) :=
  match ws with
  | [] => None
  | w :: l => match cut_rest k l with Some (a, b) => Some (w :: a, k :: b) | None => None end
  end.

(** The trends of the words of a trend section: at most one TEMPO and one
    BECMG open a new trend, whatever the number of them. *)
Definition trend_pieces (ts : list str) : list (list str) :=
  match cut_before (py "TEMPO") ts with
  | None => match cut_before (py "BECMG") ts with None => [ts] | Some (a, b) => [a; b] end
  | Some (a, b) =>
      match cut_before (py "BECMG") a with
      | Some (a1, a2) => [a1; a2; b]
      | None => match cut_before (py "BECMG") b with Some (b1, b2) => [a; b1; b2] | None => [a; b] end
      end
  end.

(** A word that opens a trend; the words of a trend section; the words of a remark. *)
Definition trend_word (w : str) : Prop := begins_any trend_words w = true.
Definition no_remark (w : str) : Prop := starts_with (py "RMK") w = false.
Definition trend_section (ts : list str) : Prop := (exists w l, ts = w :: l /\ trend_word w) /\ Forall no_remark ts.
Definition remark_section (rs : list str) : Prop :=
  rs = [] \/ exists w l, rs = w :: l /\ starts_with (py "RMK") w = true /\ Forall (fun v => ~ opening v) l.
Definition no_underscore (w : str) : Prop := ~ In 95%N w.
