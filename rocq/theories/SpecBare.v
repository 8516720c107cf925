(** * When the raw code is final: specification (C02) *)
From Coq Require Import String Ascii.
From Coq Require Import List NArith ZArith Bool.
From Verif Require Import PyBase SpecText.
Import ListNotations.
Open Scope list_scope.

(** Some group of the text is made of [=] signs only. *)
Definition bare (s : str) : Prop := exists a e b, s = a ++ e ++ b
  /\ e <> [] /\ Forall (fun c => c = 61%N) e
  /\ (a = [] \/ exists a' c, a = a' ++ [c] /\ blank c)
  /\ (b = [] \/ exists c b', b = c :: b' /\ blank c).
