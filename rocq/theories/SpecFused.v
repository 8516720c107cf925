(** * Groups written in several words, whatever the words: specification *)
From Coq Require Import String Ascii.
From Coq Require Import List NArith ZArith Bool Lia.
From Verif Require Import PyBase SpecText SpecWords SpecJoined.
Import ListNotations.
Local Open Scope string_scope.
Local Open Scope nat_scope.
Local Open Scope list_scope.

(** The first two neighbours, the one fit for the left and the other for the
    right, become one word.  [None]: there are no such neighbours. *)
Fixpoint fuse_first (left right : str -> bool) (fuse : str -> str -> str) (ws : list str) : option (list str) :=
  match ws with
  | u :: ((v :: rest) as ws') =>
      if left u && right v then Some (fuse u v :: rest)
      else option_map (cons u) (fuse_first left right fuse ws')
  | _ => None
  end.
(** At most [n] times. *)
Fixpoint fuse_times (n : nat) (left right : str -> bool) (fuse : str -> str -> str) (ws : list str) : list str :=
  match n with
  | O => ws
  | S n' => match fuse_first left right fuse ws with Some ws' => fuse_times n' left right fuse ws' | None => ws end
  end.

(** ** Windshear: a word that ends in WS and one that begins like R24 or RWY24 *)
Definition after_rwy (v : str) : str := if starts_with (py "RWY") v then skipn 3 v else skipn 1 v.
Definition names_runway (v : str) : bool :=
  starts_with (py "R") v && match after_rwy v with a :: b :: _ => is_digit a && is_digit b | _ => false end.
Definition ends_ws (u : str) : bool := ends_with (py "WS") u.
Definition fuse_runway (u v : str) : str := u ++ py "_R" ++ after_rwy v.

(** A word that ends in WS, the word ALL, and a word that begins with RWY: one
    word, wherever they stand. *)
Fixpoint fuse_all (ws : list str) : list str :=
  match ws with
  | u :: ((v :: ((w :: _) as ws2)) as ws1) =>
      if ends_ws u && str_eqb v (py "ALL") && starts_with (py "RWY") w
      then match fuse_all ws2 with
           | w' :: rest => (u ++ py "_ALL_" ++ w') :: rest
           | [] => []
           end
      else u :: fuse_all ws1
  | _ => ws
  end.

(** ** Changes: a word that ends in PROB30 or PROB40 and one that begins with TEMPO *)
Definition ends_prob (u : str) : bool := ends_with (py "PROB30") u || ends_with (py "PROB40") u.
Definition fuse_prob (u v : str) : str := u ++ py "_" ++ v.

(** The groups of a body, of the words [w :: ws]; of a change and of a whole
    forecast before it is cut. *)
Definition metar_fused (w : str) (ws : list str) : list str :=
  fuse_times 3 ends_ws names_runway fuse_runway (fuse_all (w :: join_times 3 ws)).
Definition probs_fused (ws : list str) : list str := fuse_times 5 ends_prob (starts_with (py "TEMPO")) fuse_prob ws.
Definition change_fused (ws : list str) : list str :=
  match probs_fused ws with w :: rest => w :: join_times 3 rest | [] => [] end.
