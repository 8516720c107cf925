(** * The text of a report: specification vocabulary *)
From Coq Require Import String Ascii.
From Coq Require Import List NArith ZArith Bool Lia.
From Verif Require Import PyBase.
Import ListNotations.
Open Scope list_scope.

(** Whitespace of the Python runtime. *)
Definition blank (c : N) : Prop := is_space c = true.
Definition blanks (s : str) : Prop := Forall blank s.

(** A group as it stands in the text: not empty, no whitespace. *)
Definition word (w : str) : Prop := w <> [] /\ Forall (fun c => ~ blank c) w.

(** What may separate two groups: one space, one newline, one tab, or any run
    of two or more whitespace characters. *)
Definition separator (s : str) : Prop :=
  s = [32%N] \/ s = [10%N] \/ s = [9%N] \/ (2 <= length s /\ blanks s).

(** [laid_out ws t]: the text [t] shows the groups [ws] in some layout. *)
Inductive laid_out : list str -> str -> Prop :=
| one_group w : laid_out [w] w
| next_group w sep ws t : separator sep -> laid_out ws t -> laid_out (w :: ws) (w ++ sep ++ t).

(** Some character that is not whitespace. *)
Definition has_ink (s : str) : Prop := exists c, In c s /\ ~ blank c.

(** No [=] at the beginning or directly after whitespace. *)
Definition glued (s : str) : Prop :=
  forall a b, s = a ++ 61%N :: b -> exists a' c, a = a' ++ [c] /\ ~ blank c.

(** The groups written with single spaces. *)
Definition sentence (ws : list str) : str := join (py " ") ws.

(** ** Sections *)

Definition begins_any (kws : list str) (s : str) : bool := existsb (fun kw => starts_with kw s) kws.

(** No keyword after a space inside the piece. *)
Definition uncut (kws : list str) (p : str) : Prop :=
  forall a b, p = a ++ 32%N :: b -> begins_any kws b = false.

(** The pieces of a text when it is cut before its keywords. *)
Definition pieces (kws : list str) (s : str) (ps : list str) : Prop :=
  s = sentence ps /\ ps <> [] /\ Forall (uncut kws) ps
  /\ Forall (fun p => begins_any kws p = true) (tl ps).

Definition trend_words : list str := [py "NOSIG"; py "TEMPO"; py "BECMG"].
Definition section_words : list str := trend_words ++ [py "RMK"].

(** The body is the first piece unless that begins with a keyword; the
    remark is the last piece that begins with RMK. *)
Definition body_of (ps : list str) : str :=
  match ps with
  | p :: _ => if begins_any section_words p then [] else p
  | [] => []
  end.
Definition trends_of (ps : list str) : list str := filter (begins_any trend_words) ps.
Definition last_remark (ps : list str) : str := last (filter (starts_with (py "RMK")) ps) [].

(** ** PROBnn TEMPO *)

Inductive ctok := Plain (w : str) | ProbTempo (forty : bool).
Definition prob_code (forty : bool) : str := if forty then py "PROB40" else py "PROB30".
Definition ct_words (t : ctok) : list str :=
  match t with Plain w => [w] | ProbTempo n => [prob_code n; py "TEMPO"] end.
Definition ct_joined (t : ctok) : str :=
  match t with Plain w => w | ProbTempo n => prob_code n ++ py "_TEMPO" end.
Definition is_pair (t : ctok) : bool := match t with Plain _ => false | ProbTempo _ => true end.

Definition ends_with (p w : str) : bool := starts_with (rev p) (rev w).

(** Plain words never look like a PROB TEMPO pair. *)
Definition no_stray_pair (l : list ctok) : Prop :=
  Forall (fun t => match t with Plain w => word w | ProbTempo _ => True end) l
  /\ forall A u v B, l = A ++ Plain u :: Plain v :: B ->
       (ends_with (py "PROB30") u || ends_with (py "PROB40") u) && starts_with (py "TEMPO") v = false.

(** ** TAF sections *)

Definition change_words : list str := [py "FM"; py "TEMPO"; py "BECMG"; py "PROB"].

(** Text up to the kind of separator: whitespace and underscores are one. *)
Definition level (s : str) : str := map (fun c => if is_space c || (c =? 95)%N then 32%N else c) s.

(** A token that starts a change. *)
Definition opens (t : ctok) : bool :=
  match t with Plain w => begins_any change_words w | ProbTempo _ => true end.

(** The tokens before the first change and the changes. *)
Fixpoint chunks (l : list ctok) : list ctok * list (list ctok) :=
  match l with
  | [] => ([], [])
  | t :: l' => let (b, cs) := chunks l' in
               if opens t then ([], (t :: b) :: cs) else (t :: b, cs)
  end.

(** Tokens of an ordinary forecast: no underscore or bar, no group ending in TAF. *)
Definition no_taf (w : str) : Prop := ends_with (py "TAF") w = false.
Definition plain_tok (t : ctok) : Prop :=
  match t with Plain w => ~ In 95%N w /\ ~ In 124%N w | ProbTempo _ => True end.
(** No word from the last one before the first change on ends in TAF. *)
Definition taf_apart (w : str) (b : list ctok) (cs : list (list ctok)) : Prop :=
  cs <> [] -> no_taf (last (map ct_joined b) w) /\ Forall no_taf (map ct_joined (concat cs)).
