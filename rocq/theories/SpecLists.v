(** * Specifications for group lists, dispatch and list dictionaries

    Written without the functions of the model they are about: they only use
    the data types, Python's list operations and regular expression matching. *)
From Coq Require Import String Ascii.
From Coq Require Import List NArith ZArith Bool Lia Sorted.
From Verif Require Import PyBase PyRegex Base AsDict.
Import ListNotations.
Open Scope list_scope.

(** ** C04, C05: histories of a group list *)

(** What a program can do with a list: add an item, call [next], index it,
    run a [for] loop to its end, or run one that it leaves at the first item
    satisfying a test. *)
Inductive list_op (A : Type) :=
| OpAdd (x : A)
| OpNext
| OpGet (i : Z)
| OpLoop
| OpLoopUntil (stop : A -> bool).
Arguments OpAdd {A}.
Arguments OpNext {A}.
Arguments OpGet {A}.
Arguments OpLoop {A}.
Arguments OpLoopUntil {A}.

(** The object after an operation; an operation that raises leaves it alone. *)
Definition op_step {A} (g : grouplist A) (o : list_op A) : grouplist A :=
  match o with
  | OpAdd x => match gl_add x g with Ok g' => g' | Raise _ => g end
  | OpNext => snd (gl_next g)
  | OpGet _ => g
  | OpLoop => snd (gl_collect g)
  | OpLoopUntil stop => snd (gl_for (fun x => if stop x then Some tt else None) g)
  end.

Definition history {A} (g : grouplist A) (ops : list (list_op A)) : grouplist A :=
  fold_left op_step ops g.

(** The items a history tries to add, in order. *)
Fixpoint added {A} (ops : list (list_op A)) : list A :=
  match ops with
  | [] => []
  | OpAdd x :: ops' => x :: added ops'
  | _ :: ops' => added ops'
  end.

(** A history in which every loop runs to its end. *)
Definition complete_op {A} (o : list_op A) : bool :=
  match o with OpAdd _ | OpGet _ | OpLoop => true | _ => false end.

(** ** C03: dispatch *)

Definition accepts {S} (h : handler S) (g : str) : Prop := re_match (h_regexp h) g <> None.

(** [dispatch hs lo gs a]: group by group, [a] says which handler ([Some i])
    or none takes it; [lo] is the first handler still available. *)
Inductive dispatch {S} (hs : list (handler S)) : nat -> list str -> list (option nat) -> Prop :=
| dispatch_nil : forall lo, dispatch hs lo [] []
| dispatch_taken : forall lo g gs a i h,
    lo <= i -> nth_error hs i = Some h -> accepts h g ->
    (forall j h', lo <= j < i -> nth_error hs j = Some h' -> ~ accepts h' g) ->
    dispatch hs (Datatypes.S i) gs a ->
    dispatch hs lo (g :: gs) (Some i :: a)
| dispatch_left : forall lo g gs a,
    (forall j h', lo <= j -> nth_error hs j = Some h' -> ~ accepts h' g) ->
    dispatch hs lo gs a ->
    dispatch hs lo (g :: gs) (None :: a).

(** The groups no handler takes. *)
Fixpoint left_over (gs : list str) (a : list (option nat)) : list str :=
  match gs, a with
  | g :: gs', None :: a' => g :: left_over gs' a'
  | _ :: gs', Some _ :: a' => left_over gs' a'
  | _, _ => []
  end.

(** The handlers that fire, in order. *)
Fixpoint fired (a : list (option nat)) : list nat :=
  match a with
  | [] => []
  | Some i :: a' => i :: fired a'
  | None :: a' => fired a'
  end.

(** The effect: each taken group is handed to its handler, left to right,
    until one raises. *)
Fixpoint effect {S} (hs : list (handler S)) (gs : list str) (a : list (option nat)) (st : S)
  : result S :=
  match gs, a with
  | g :: gs', Some i :: a' =>
      match nth_error hs i with
      | Some h => match re_match (h_regexp h) g with
                  | Some m => match h_handle h m st with
                              | Ok st' => effect hs gs' a' st'
                              | Raise x => Raise x
                              end
                  | None => Ok st
                  end
      | None => Ok st
      end
  | _ :: gs', None :: a' => effect hs gs' a' st
  | _, _ => Ok st
  end.

(** ** C50: the labels *)
Definition ordinals : list string :=
  ["first"; "second"; "third"; "fourth"; "fifth"; "sixth"; "seventh"; "eighth";
   "nineth"; "tenth"]%string.

Definition labelled {A} (f : A -> dict) (l : list A) : dict :=
  combine (map py ordinals) (map (fun x => VDict (f x)) l).
