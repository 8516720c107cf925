(** * What the text of a ParserError says (C68): specification *)
From Coq Require Import String Ascii.
From Coq Require Import List NArith ZArith Bool.
From Verif Require Import PyBase.
Import ListNotations.
Local Open Scope string_scope.
Local Open Scope list_scope.

(** The words a reader sees in a text: cut at the blanks. *)
Fixpoint seen (word : str) (s : str) : list str :=
  match s with
  | [] => [word]
  | c :: s' => if N.eqb c 32 then word :: seen [] s' else seen (word ++ [c]) s'
  end.
(** The items of an enumeration: every word but the last ends in a comma. *)
Fixpoint items (words : list str) : option (list str) :=
  match words with
  | [] => None
  | [w] => Some [w]
  | w :: ws => match rev w, items ws with
               | c :: r, Some l => if N.eqb c 44 then Some (rev r :: l) else None
               | _, _ => None
               end
  end.
Definition enumerated (s : str) : option (list str) := items (seen [] s).

(** The text names the groups and then the report. *)
Definition names (text : str) (groups : list str) (report : str) : Prop :=
  exists list_, text = py "failed while processing " ++ list_ ++ py " from: " ++ report /\ enumerated list_ = Some groups.
