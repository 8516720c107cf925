(** * The groups of a section, whatever its words: specification *)
From Coq Require Import String Ascii.
From Coq Require Import List NArith ZArith Bool Lia.
From Verif Require Import PyBase SpecText SpecWords.
Import ListNotations.
Local Open Scope string_scope.
Local Open Scope nat_scope.
Local Open Scope list_scope.

(** Nothing blank in it; it may be empty. *)
Definition solid (w : str) : Prop := Forall (fun c => ~ blank c) w.

(** One or more digits. *)
Definition number (u : str) : bool := match u with [] => false | _ => forallb is_digit u end.

(** The first number followed by a word that begins like 1/2SM: the number and
    those five characters become one word.  What is left of the second word is
    a word of its own; if nothing is left and no word follows, an empty word
    appears at the end.  [None]: there is no such pair. *)
Fixpoint join_first (ws : list str) : option (list str) :=
  match ws with
  | u :: ((v :: rest) as ws') =>
      if number u && frac_like v
      then Some ((u ++ py "_" ++ firstn 5 v)
                 :: match skipn 5 v, rest with
                    | [], [] => [[]]
                    | [], _ => rest
                    | w, _ => w :: rest
                    end)
      else option_map (cons u) (join_first ws')
  | _ => None
  end.
(** At most [n] times. *)
Fixpoint join_times (n : nat) (ws : list str) : list str :=
  match n with
  | O => ws
  | S n' => match join_first ws with Some ws' => join_times n' ws' | None => ws end
  end.
