(** * When the constructor of a TAF may fail: specification *)
From Coq Require Import String Ascii.
From Coq Require Import List NArith ZArith Bool Lia.
From Verif Require Import PyBase PyTime SpecNum SpecTime SpecText SpecTaf SpecFailures.
Import ListNotations.
Local Open Scope string_scope.
Local Open Scope nat_scope.
Local Open Scope list_scope.

(** ** The words of a text: what stands between whitespace or underscores *)

Definition apart (c : N) : bool := is_space c || N.eqb c 95.

Fixpoint fields (s : str) : list str :=
  match s with
  | [] => [[]]
  | c :: s' => if apart c then [] :: fields s'
               else match fields s' with w :: ws => (c :: w) :: ws | [] => [[c]] end
  end.
Definition filled (w : str) : bool := match w with [] => false | _ => true end.
Definition words_of (s : str) : list str := filter filled (fields s).

(** ** Change words nothing can be made of *)

(** FM and a time of a month. *)
Definition from_time (w : str) : Prop :=
  exists d h mi rest, w = fm_code d h mi ++ rest /\ (1 <= d <= 31)%N /\ (h <= 23)%N /\ (mi <= 59)%N.

Definition broken (w : str) : Prop :=
  (starts_with (py "FM") w = true /\ ~ from_time w)
  \/ (starts_with (py "PROB") w = true /\ w <> py "PROB30" /\ w <> py "PROB40")
  \/ (starts_with (py "TEMPO") w = true /\ w <> py "TEMPO").

(** Whitespace other than a space, a newline or a tab. *)
Definition odd_blank (c : N) : Prop := is_space c = true /\ c <> 32%N /\ c <> 10%N /\ c <> 9%N.

(** The words that begin like a change. *)
Definition change_count (s : str) : nat := length (filter (begins_any change_words) (words_of s)).

(** The report or the clock is in the last month there is. *)
Definition last_month (y mo : Z) : Prop := y = 9999%Z /\ mo = 12%Z.

(** What must be true of a TAF, read in the month [mo] of [y] when the clock
    shows [cmo] of [cy], for an exception. *)
Definition taf_fails (cy cmo y mo : Z) (truncate : bool) (code : str) (e : exn) : Prop :=
  match e with
  | AssertionError => code = []
  | ParserError => truncate = true
  | ZeroDivisionError => exists x, contains (unsigned code) x /\ over_zero x
  | TypeError => exists x, contains (unsigned code) x /\ fraction_km x
  | ValueError => (exists x, contains (unsigned code) x /\ no_direction x)
                  \/ (exists x d h mi, contains (unsigned code) x /\ stamp x d h mi /\ impossible y mo d h)
  | RangeError => In 124%N (unsigned code) \/ 9 <= change_count (unsigned code)
                  \/ 3 <= places [py "TX"] (unsigned code) \/ 3 <= places [py "TN"] (unsigned code)
  | AttributeError => In 124%N (unsigned code) \/ Exists odd_blank (unsigned code)
                      \/ Exists broken (words_of (unsigned code))
  | OverflowError => last_month y mo \/ last_month cy cmo
  | IndexError | KeyError => False
  end.
