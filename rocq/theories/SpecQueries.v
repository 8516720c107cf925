(** * What C65 says: which questions always have the same answer *)
From Coq Require Import List NArith ZArith Bool.
From Verif Require Import PyBase Base MetarGroups Trend Metar Taf Queries.
Import ListNotations.

(** The answers of [x], asked one question after the other, are the answers
    each question has when it is the only one. *)
Definition repeats {Q X} (f : Q -> X -> answer * X) (x : X) (qs : list Q) : Prop :=
  fst (in_turn f qs x) = map (fun q => fst (f q x)) qs.

(** No call of should_be_cavok has said "no". *)
Definition never_no (l : list answer) : Prop := ~ In (ACavok (Ok false)) l.

(** Questions that neither loop over the clouds nor make the code do so. *)
Definition steady_attr (q : ask_attrs) : bool :=
  match q with Cavok | LoopClouds => false | _ => true end.
Definition steady_period (q : ask_period) : bool :=
  match q with PDict | PJson => false | PText => true | PAttr q => steady_attr q end.
Definition steady_metar (x : metar) (q : ask_metar) : bool :=
  match q with
  | MDict | MJson => match gl_list (me_trends x) with [] => true | _ => false end
  | MAttr q => steady_attr q
  | MTrend _ q => steady_period q
  | _ => true
  end.
Definition steady_taf (x : taf) (q : ask_taf) : bool :=
  match q with
  | TDict | TJson => match gl_list (ta_changes x) with [] => true | _ => false end
  | TAttr q => steady_attr q
  | TChange _ q => steady_period q
  | _ => true
  end.
