(** * What the exact form of C35 says *)
From Coq Require Import String Ascii.
From Coq Require Import List NArith ZArith Bool.
From Verif Require Import PyBase Base Taf SpecTaf.
Import ListNotations.
Local Open Scope list_scope.

(** FM and BECMG changes end what stands before them. *)
Definition ends_others (new : change_fc) : Prop := begins "FM" (cf_code new) \/ begins "BECMG" (cf_code new).

(** Going back over TEMPO and PROB changes one comes to a change whose
    indicator was not recognised. *)
Definition unknown_before (l : list change_fc) : Prop :=
  exists l1 c l2, l = l1 ++ c :: l2 /\ Forall passing l2 /\ ind_code c = None.

(** What adding a change to the changes of a forecast comes to. *)
Inductive added (new : change_fc) (g : grouplist change_fc) : result (grouplist change_fc) -> Prop :=
| AddStuck : ends_others new -> unknown_before (gl_list g) -> added new g (Raise AttributeError)
| AddFull : ~ (ends_others new /\ unknown_before (gl_list g)) -> length (gl_list g) = gl_max g -> added new g (Raise RangeError)
| AddDone l' : ~ (ends_others new /\ unknown_before (gl_list g)) -> length (gl_list g) < gl_max g ->
    chained new (gl_list g) l' -> added new g (Ok (mk_gl (gl_n g) (gl_max g) (l' ++ [new]))).
