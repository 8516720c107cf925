(** * Exactly when a METAR is refused (C83): specification

    The words of a report are offered to the patterns in a fixed order; a word
    is taken by the first pattern, from the one after the last that took a
    word on, that accepts it.  The report is refused for the first taken word
    that cannot be read. *)
From Coq Require Import String Ascii.
From Coq Require Import List NArith ZArith Bool.
From Verif Require Import PyBase PyRegex AeroRegex PyTime Utils Base MetarGroups Trend Metar SpecNum SpecTime SpecFailures SpecVision SpecGrammar.
Import ListNotations.
Local Open Scope string_scope.
Local Open Scope nat_scope.
Local Open Scope list_scope.

(** [takes ps i gs t u]: of the words [gs], those of [t] are taken, each by the
    pattern of the given number, [i] being the first that is still free; those
    of [u] are left. *)
Inductive takes (ps : list regex) : nat -> list str -> list (nat * str) -> list str -> Prop :=
| takes_end : forall i, takes ps i [] [] []
| takes_word : forall i k p g gs t u,
    i <= k -> nth_error ps k = Some p -> accepts p g -> (forall j q, i <= j < k -> nth_error ps j = Some q -> ~ accepts q g) ->
    takes ps (S k) gs t u -> takes ps i (g :: gs) ((k, g) :: t) u
| takes_not : forall i g gs t u,
    (forall j q, i <= j -> nth_error ps j = Some q -> ~ accepts q g) -> takes ps i gs t u -> takes ps i (g :: gs) t (g :: u).

(** [bad a z e]: after the words [a] were taken, the word [z] raises [e]. *)
Definition none_bad (bad : list (nat * str) -> nat * str -> exn -> Prop) (t : list (nat * str)) : Prop :=
  forall a z b e, t = a ++ z :: b -> ~ bad a z e.
Definition first_bad (bad : list (nat * str) -> nat * str -> exn -> Prop) (t : list (nat * str)) (e : exn) : Prop :=
  exists a z b, t = a ++ z :: b /\ none_bad bad a /\ bad a z e.

(** ** The body *)

Definition metar_order : list regex :=
  [r_TYPE; r_STATION; r_TIME; r_MODIFIER; r_WIND; r_WIND_VARIATION; r_VISIBILITY; r_MINIMUM_VISIBILITY] ++ repeat r_RUNWAY_RANGE 3
  ++ repeat r_WEATHER 3 ++ repeat r_CLOUD 4 ++ [r_TEMPERATURES] ++ repeat r_PRESSURE 2 ++ [r_RECENT_WEATHER] ++ repeat r_WINDSHEAR 3
  ++ [r_SEA_STATE; r_RUNWAY_STATE].

(** A word that begins with a time group. *)
Definition stamped (g : str) (d h mi : N) : Prop := exists x rest, g = x ++ rest /\ stamp x d h mi.

(** A time that the month does not have, and visibilities that fail. *)
Definition body_bad (y mo : Z) (before : list (nat * str)) (z : nat * str) (e : exn) : Prop :=
  match fst z with
  | 2 => e = ValueError /\ exists d h mi, stamped (snd z) d h mi /\ impossible y mo d h
  | 6 => vision_fails (snd z) e
  | 7 => e = ValueError /\ exists x, contains (snd z) x /\ no_direction x
  | _ => False
  end.

(** The report is of the last two hours that Python knows. *)
Definition at_the_end (y mo : Z) (t : list (nat * str)) : Prop :=
  y = 9999%Z /\ mo = 12%Z /\ exists g h mi, In (2, g) t /\ stamped g 31 h mi /\ (22 <= h)%N.

(** ** The trends *)

Definition trend_order : list regex :=
  [r_CHANGE_INDICATOR; r_TREND_TIME_PERIOD; r_TREND_TIME_PERIOD; r_WIND; r_VISIBILITY] ++ repeat r_WEATHER 3 ++ repeat r_CLOUD 4.

(** A period without an indicator before it, and visibilities that fail. *)
Definition trend_bad (before : list (nat * str)) (z : nat * str) (e : exn) : Prop :=
  match fst z with
  | 1 | 2 => e = TypeError /\ forall g, ~ In (0, g) before
  | 4 => vision_fails (snd z) e
  | _ => False
  end.

(** The words of a report and of a trend, see C01, C28, C36, C41 and C45. *)
Definition words_of_body (code : str) : list str := split_on 32%N (sanitize_body (section 0 (metar_sections (normalise code)))).
Definition trends_of (code : str) : list str :=
  filter (fun w => match w with [] => false | _ => true end) (trend_codes (section 1 (metar_sections (normalise code)))).
Definition words_of_trend (w : str) : list str := split_on 32%N (sanitize_visibility (replace (py "_") (py " ") w)).

Definition trend_refused (over : Prop) (w : str) (e : exn) : Prop :=
  (over /\ e = OverflowError) \/ (~ over /\ exists t u, takes trend_order 0 (words_of_trend w) t u /\ first_bad trend_bad t e).
(** The trend is read, and the words [u] are left. *)
Definition trend_read (over : Prop) (w : str) (u : list str) : Prop :=
  ~ over /\ exists t, takes trend_order 0 (words_of_trend w) t u /\ none_bad trend_bad t.

(** The first trend that fails, or else a third one. *)
Definition trends_refused (over : Prop) (ws : list str) (e : exn) : Prop :=
  exists a w b us, ws = a ++ w :: b /\ Forall2 (trend_read over) a us /\ length a <= 2
    /\ (trend_refused over w e \/ (length a = 2 /\ (exists u, trend_read over w u) /\ e = RangeError)).

(** ** The report *)

Definition metar_refused (y mo : Z) (truncate : bool) (code : str) (e : exn) : Prop :=
  (code = [] /\ e = AssertionError)
  \/ (code <> [] /\ exists t u, takes metar_order 0 (words_of_body code) t u
       /\ (first_bad (body_bad y mo) t e
           \/ (none_bad (body_bad y mo) t
               /\ (trends_refused (at_the_end y mo t) (trends_of code) e
                   \/ (exists us, Forall2 (trend_read (at_the_end y mo t)) (trends_of code) us /\ length us <= 2
                         /\ truncate = true /\ u ++ concat us <> [] /\ e = ParserError))))).
