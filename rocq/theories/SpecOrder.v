(** * Sections put together again: specification *)
From Coq Require Import String Ascii.
From Coq Require Import List NArith ZArith Bool Lia.
From Verif Require Import PyBase SpecText.
Import ListNotations.
Local Open Scope string_scope.
Local Open Scope nat_scope.
Local Open Scope list_scope.

(** A piece that is not empty and does not end in whitespace. *)
Definition closed (p : str) : Prop := p <> [] /\ ~ blank (last p 0%N).
(** A section that is not empty. *)
Definition inked (p : str) : bool := match p with [] => false | _ => true end.
