(** * When an accepted visibility fails: specification *)
From Coq Require Import String Ascii.
From Coq Require Import List NArith ZArith Bool Lia.
From Verif Require Import PyBase PyRegex PyTime SpecNum SpecTime SpecFailures.
Import ListNotations.
Local Open Scope string_scope.
Local Open Scope nat_scope.
Local Open Scope list_scope.

(** A fraction of a kilometre and no whole number before it: 1/2KM, M_1/2KM. *)
Definition bare_km (g : str) : Prop :=
  exists s u a b n k t, g = s ++ u ++ a ++ py "/" ++ b ++ py "KM" ++ t
    /\ In s [[]; py "M"; py "P"] /\ In u [[]; py "_"]
    /\ reads a n /\ length a = 1 /\ reads b k /\ length b = 1
    /\ (t = [] \/ t = [10%N]).

(** The three ways to fail. *)
Definition vision_fails (g : str) (e : exn) : Prop :=
  match e with
  | ValueError => exists x, contains g x /\ no_direction x
  | ZeroDivisionError => exists x, contains g x /\ over_zero x
  | TypeError => bare_km g
  | _ => False
  end.
