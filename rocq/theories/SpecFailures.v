(** * When the constructors may fail: specification *)
From Coq Require Import String Ascii.
From Coq Require Import List NArith ZArith Bool Lia.
From Verif Require Import PyBase PyRegex PyTime SpecNum SpecTime.
Import ListNotations.
Local Open Scope string_scope.
Local Open Scope nat_scope.
Local Open Scope list_scope.

(** [x] occurs in [s]. *)
Definition contains (s x : str) : Prop := exists a b, s = a ++ x ++ b.

(** A text of decimal digits with value [n]. *)
Definition reads (x : str) (n : N) : Prop := x <> [] /\ digits_val 0 x = Some n.

(** A fraction of a mile over zero: n/0SM. *)
Definition over_zero (x : str) : Prop :=
  exists a z n, x = a ++ py "/" ++ z ++ py "SM" /\ reads a n /\ reads z 0.

(** A fraction of a kilometre: n/mKM. *)
Definition fraction_km (x : str) : Prop :=
  exists a b n m, x = a ++ py "/" ++ b ++ py "KM" /\ reads a n /\ reads b m.

(** A four character visibility with a direction that is no compass point. *)
Definition no_direction (x : str) : Prop :=
  exists v d, x = v ++ d /\ In d [py "EE"; py "EW"; py "WE"; py "WW"]
    /\ (v = py "////" \/ (length v = 4 /\ exists n, reads v n)).

(** A time group ddhhmmZ. *)
Definition stamp (x : str) (d h mi : N) : Prop :=
  exists a b c, x = a ++ b ++ c ++ py "Z" /\ reads a d /\ reads b h /\ reads c mi
    /\ length a = 2 /\ length b = 2 /\ length c = 2 /\ (1 <= d <= 31)%N /\ (h <= 24)%N /\ (mi <= 59)%N.
(** There is no such time in the month. *)
Definition impossible (y mo : Z) (d h : N) : Prop := ~ real_date y mo (Z.of_N d) \/ h = 24%N.

(** A trend period: FM, TL or AT, hhmm. *)
Definition period (x : str) : Prop :=
  exists p a b h mi, x = p ++ a ++ b /\ In p [py "FM"; py "TL"; py "AT"] /\ reads a h /\ reads b mi
    /\ length a = 2 /\ length b = 2.

(** The report without its equal signs. *)
Definition unsigned (code : str) : str := filter (fun c => negb (N.eqb c 61)) code.

(** The number of places where one of the words begins. *)
Fixpoint places (ws : list str) (s : str) : nat :=
  match s with
  | [] => 0
  | _ :: s' => (if existsb (fun w => starts_with w s) ws then 1 else 0) + places ws s'
  end.
Definition trend_words : list str := [py "NOSIG"; py "TEMPO"; py "BECMG"].

(** What must be true of a METAR, read in the given month, for an exception. *)
Definition metar_fails (y mo : Z) (truncate : bool) (code : str) (e : exn) : Prop :=
  match e with
  | AssertionError => code = []
  | ParserError => truncate = true
  | ZeroDivisionError => exists x, contains (unsigned code) x /\ over_zero x
  | TypeError => exists x, contains (unsigned code) x /\ (fraction_km x \/ period x)
  | ValueError => (exists x, contains (unsigned code) x /\ no_direction x)
                  \/ (exists x d h mi, contains (unsigned code) x /\ stamp x d h mi /\ impossible y mo d h)
  | RangeError => contains (unsigned code) (py "TEMPO") /\ contains (unsigned code) (py "BECMG")
                  /\ 3 <= places trend_words (unsigned code)
  | OverflowError => y = 9999%Z /\ mo = 12%Z
                     /\ exists x h mi, contains (unsigned code) x /\ stamp x 31 h mi /\ (22 <= h)%N
  | AttributeError | IndexError | KeyError => False
  end.
