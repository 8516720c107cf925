(** * The groups of a METAR body as they are written: specification *)
From Coq Require Import String Ascii.
From Coq Require Import List NArith ZArith Bool Lia.
From Verif Require Import PyBase SpecNum SpecGroups SpecText.
Import ListNotations.
Local Open Scope string_scope.
Local Open Scope nat_scope.
Local Open Scope list_scope.

(** A group that is one word, a mixed number of miles (two words), or a
    windshear group (two or three words; [wy]: written RWY, not R). *)
Inductive mtok :=
| MWord (w : str)
| MMixed (two : bool) (n a b : N)
| MWs (wy : bool) (g : ws_g).

Definition frac_word (a b : N) : str := digits 1 a ++ py "/" ++ digits 1 b ++ py "SM".
Definition m_words (t : mtok) : list str :=
  match t with
  | MWord w => [w]
  | MMixed two n a b => [one_or_two two n; frac_word a b]
  | MWs _ WsAll => [py "WS"; py "ALL"; py "RWY"]
  | MWs wy (WsRunway r) => [py "WS"; py (if wy then "RWY" else "R") ++ runway_code r]
  end.
(** The one word the program makes of it. *)
Definition m_joined (t : mtok) : str :=
  match t with
  | MWord w => w
  | MMixed two n a b => one_or_two two n ++ py "_" ++ frac_word a b
  | MWs _ g => ws_token g
  end.

Definition is_mixed (t : mtok) : bool := match t with MMixed _ _ _ _ => true | _ => false end.
Definition is_runway_ws (t : mtok) : bool := match t with MWs _ (WsRunway _) => true | _ => false end.

Definition mtok_wf (t : mtok) : Prop :=
  match t with
  | MWord w => word w
  | MMixed _ _ _ _ => True
  | MWs _ g => ws_wf g
  end.
(** Ordinary one word groups do not look like parts of a longer group. *)
Definition frac_like (v : str) : bool :=
  match v with
  | a :: s :: b :: m :: n :: _ => is_digit a && is_digit b && str_eqb [s; m; n] (py "/SM")
  | _ => false
  end.
Definition mixed_like (u v : str) : bool := forallb is_digit u && frac_like v.
Fixpoint unmixed (l : list mtok) : Prop :=
  match l with
  | MWord u :: l' => match l' with MWord v :: _ => mixed_like u v = false | _ => True end /\ unmixed l'
  | _ :: l' => unmixed l'
  | [] => True
  end.

Definition sheared_like (u v : str) : bool :=
  ends_with (py "WS") u && (starts_with (py "R") v || starts_with (py "ALL") v).
Fixpoint unsheared (l : list mtok) : Prop :=
  match l with
  | MWord u :: l' => match l' with MWord v :: _ => sheared_like u v = false | _ => True end /\ unsheared l'
  | _ :: l' => unsheared l'
  | [] => True
  end.
