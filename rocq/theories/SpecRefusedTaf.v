(** * Exactly when a TAF is refused (C84): specification

    As for a METAR (C83): a TAF is refused for the first taken word that cannot
    be read, for a change that cannot be added, or for words that are left. *)
From Coq Require Import String Ascii.
From Coq Require Import List NArith ZArith Bool.
From Verif Require Import PyBase PyRegex AeroRegex PyTime Utils Base Trend Taf SpecNum SpecTime SpecMetar SpecFailures SpecVision SpecGrammar SpecRefused.
Import ListNotations.
Local Open Scope string_scope.
Local Open Scope nat_scope.
Local Open Scope list_scope.

(** ** The visibility of the body, whose pattern does not look at the end *)

Definition sight_bad (x : str) (e : exn) : Prop :=
  match e with
  | ValueError => exists v d n, x = v ++ d /\ reads v n /\ length v = 4 /\ In d [py "EE"; py "EW"; py "WE"; py "WW"]
  | ZeroDivisionError => exists s i u a z n, x = s ++ i ++ u ++ a ++ py "/" ++ z ++ py "SM"
      /\ In s [[]; py "M"; py "P"] /\ (i = [] \/ exists k, reads i k) /\ length i <= 2 /\ In u [[]; py "_"]
      /\ reads a n /\ length a = 1 /\ reads z 0 /\ length z = 1
  | TypeError => exists s u a z n k, x = s ++ u ++ a ++ py "/" ++ z ++ py "KM"
      /\ In s [[]; py "M"; py "P"] /\ In u [[]; py "_"] /\ reads a n /\ length a = 1 /\ reads z k /\ length z = 1
  | _ => False
  end.
(** The word begins with such a visibility. *)
Definition sight_fails (g : str) (e : exn) : Prop := exists x rest, g = x ++ rest /\ sight_bad x e.

(** ** The body *)

Definition taf_order : list regex :=
  [r_TYPE; r_T_AMD_COR; r_STATION; r_TIME; r_T_NIL; r_T_VALID; r_T_CANCELLED; r_T_WIND; r_T_VISIBILITY]
  ++ repeat r_WEATHER 3 ++ repeat r_CLOUD 4 ++ repeat r_T_TEMPERATURE 4.

(** The temperatures among the words, by their first letters. *)
Definition temps (p : str) (t : list (nat * str)) : nat := length (filter (fun z => Nat.leb 16 (fst z) && starts_with p (snd z)) t).

(** A time that the month does not have, a visibility that fails, a third
    maximum or minimum. *)
Definition taf_bad (y mo : Z) (before : list (nat * str)) (z : nat * str) (e : exn) : Prop :=
  match fst z with
  | 3 => e = ValueError /\ exists d h mi, stamped (snd z) d h mi /\ impossible y mo d h
  | 8 => sight_fails (snd z) e
  | 16 | 17 | 18 | 19 => e = RangeError /\ exists p, In p [py "TX"; py "TN"] /\ starts_with p (snd z) = true /\ 2 <= temps p before
  | _ => False
  end.

(** ** The changes *)

Definition change_order : list regex :=
  [r_T_CHANGE_INDICATOR; r_T_VALID; r_T_WIND; r_VISIBILITY] ++ repeat r_WEATHER 3 ++ repeat r_CLOUD 4.

(** A validity without an indicator before it, and visibilities that fail. *)
Definition change_bad (before : list (nat * str)) (z : nat * str) (e : exn) : Prop :=
  match fst z with
  | 1 => e = AttributeError /\ forall g, ~ In (0, g) before
  | 3 => vision_fails (snd z) e
  | _ => False
  end.

(** The words of the body and of a change, see C01, C37, C41 and C42. *)
Definition words_of_taf (code : str) : list str := split_on 32%N (sanitize_visibility (fst (taf_split (normalise code)))).
Definition changes_of (code : str) : list str :=
  filter (fun w => match w with [] => false | _ => true end) (snd (taf_split (normalise code))).
Definition change_text (w : str) : str := replace (py "_") (py " ") w.
Definition words_of_change (w : str) : list str := split_on 32%N (sanitize_visibility (sanitize_change_indicator (change_text w))).

Definition change_refused (w : str) (e : exn) : Prop := exists t u, takes change_order 0 (words_of_change w) t u /\ first_bad change_bad t e.
(** The change is read from the words [t], and the words [u] are left. *)
Definition change_read (w : str) (t : list (nat * str)) (u : list str) : Prop :=
  takes change_order 0 (words_of_change w) t u /\ none_bad change_bad t.

(** The indicator of a change, if it has one. *)
Definition mark_of (t : list (nat * str)) : option str := match t with (0, g) :: _ => Some g | _ => None end.

(** PROB and TEMPO are passed over when FM or BECMG looks for the change before it. *)
Definition passed (o : option str) : Prop :=
  exists g, o = Some g /\ (starts_with (py "PROB") g = true \/ starts_with (py "TEMPO") g = true).
(** FM or BECMG finds a change without an indicator. *)
Definition blocked (marks : list (option str)) (w : str) : Prop :=
  (starts_with (py "FM") (change_text w) = true \/ starts_with (py "BECMG") (change_text w) = true)
  /\ exists a b, marks = a ++ None :: b /\ Forall passed b.

(** All changes [ws] are read, with these indicators; the words [u] are left. *)
Inductive changes_read : list str -> list (option str) -> list str -> Prop :=
| read_none : changes_read [] [] []
| read_next : forall ws marks u w t v, changes_read ws marks u -> change_read w t v -> ~ blocked marks w -> length ws < 8 ->
    changes_read (ws ++ [w]) (marks ++ [mark_of t]) (u ++ v).

(** The first change that fails, that finds one without an indicator, or that
    is the ninth. *)
Definition changes_refused (ws : list str) (e : exn) : Prop :=
  exists a w b marks u, ws = a ++ w :: b /\ changes_read a marks u
    /\ (change_refused w e
        \/ (exists t v, change_read w t v)
           /\ ((blocked marks w /\ e = AttributeError) \/ (~ blocked marks w /\ length a = 8 /\ e = RangeError))).

(** ** The report *)

Definition taf_refused (y mo : Z) (truncate : bool) (code : str) (e : exn) : Prop :=
  (code = [] /\ e = AssertionError)
  \/ (code <> [] /\ exists t u, takes taf_order 0 (words_of_taf code) t u
       /\ (first_bad (taf_bad y mo) t e
           \/ (none_bad (taf_bad y mo) t
               /\ (changes_refused (changes_of code) e
                   \/ (exists marks v, changes_read (changes_of code) marks v /\ truncate = true /\ u ++ v <> [] /\ e = ParserError))))).
