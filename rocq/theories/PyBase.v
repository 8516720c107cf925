(** * Python values used by the model: strings, exceptions, lists.

    A Python [str] is modelled as the list of its code points.  Everything in
    this file models the Python language / standard library, not the
    repository; the repository files are cited where they are modelled. *)
From Coq Require Import String Ascii.
From Coq Require Import List NArith ZArith Bool Lia.
Import ListNotations.
Open Scope list_scope.

Definition str := list N.

(** String literals.  Source literals are ASCII, except the degree sign. *)
Definition py (s : string) : str := map N_of_ascii (list_ascii_of_string s).
Arguments py s%string.

Definition degree_sign : str := [176%N].

Fixpoint str_eqb (a b : str) : bool :=
  match a, b with
  | [], [] => true
  | x :: a', y :: b' => N.eqb x y && str_eqb a' b'
  | _, _ => false
  end.

Lemma str_eqb_eq : forall a b, str_eqb a b = true <-> a = b.
Proof.
  induction a as [|x a IH]; destruct b as [|y b]; simpl; split; intro H;
    try reflexivity; try discriminate.
  - apply andb_true_iff in H. destruct H as [H1 H2].
    apply N.eqb_eq in H1. apply IH in H2. congruence.
  - injection H as -> ->. apply andb_true_iff. split.
    apply N.eqb_refl. apply IH. reflexivity.
Qed.

Lemma str_eqb_refl : forall a, str_eqb a a = true.
Proof. intro a. apply str_eqb_eq. reflexivity. Qed.

Lemma str_eqb_neq : forall a b, str_eqb a b = false <-> a <> b.
Proof.
  intros a b. split; intro H.
  - intro E. apply str_eqb_eq in E. congruence.
  - destruct (str_eqb a b) eqn:E; auto. apply str_eqb_eq in E. contradiction.
Qed.

Definition str_eq_dec : forall a b : str, {a = b} + {a <> b} := list_eq_dec N.eq_dec.

(** ** Exceptions

    A computation that may raise is a [result]; the constructors are the
    Python exception classes the modelled code can raise. *)
Inductive exn :=
| AssertionError | ValueError | TypeError | AttributeError | ZeroDivisionError
| RangeError | ParserError | OverflowError | IndexError | KeyError.

Inductive result (A : Type) :=
| Ok (a : A)
| Raise (e : exn).
Arguments Ok {A} a.
Arguments Raise {A} e.

Definition bind {A B} (x : result A) (f : A -> result B) : result B :=
  match x with Ok a => f a | Raise e => Raise e end.

Declare Scope res_scope.
Notation "x <- e ;; f" := (bind e (fun x => f))
  (at level 61, e at next level, right associativity) : res_scope.
Open Scope res_scope.

Definition exn_eqb (a b : exn) : bool :=
  match a, b with
  | AssertionError, AssertionError | ValueError, ValueError | TypeError, TypeError
  | AttributeError, AttributeError | ZeroDivisionError, ZeroDivisionError
  | RangeError, RangeError | ParserError, ParserError | OverflowError, OverflowError
  | IndexError, IndexError | KeyError, KeyError => true
  | _, _ => false
  end.

(** ** Character classes of the Python runtime (Unicode 14, CPython 3.11) *)

(** [str.isspace] and the [\s] class of [re]. *)
Definition is_space (c : N) : bool :=
  ((9 <=? c) && (c <=? 13))%N || ((28 <=? c) && (c <=? 32))%N
  || (c =? 133)%N || (c =? 160)%N || (c =? 5760)%N
  || ((8192 <=? c) && (c <=? 8202))%N || (c =? 8232)%N || (c =? 8233)%N
  || (c =? 8239)%N || (c =? 8287)%N || (c =? 12288)%N.

(** Code points of the zero digit of every run of ten decimal digits
    (category Nd): the [\d] class of [re] and what [int]/[float] accept. *)
Definition nd_zeros : list N :=
  [48; 1632; 1776; 1984; 2406; 2534; 2662; 2790; 2918; 3046; 3174; 3302; 3430; 3558;
   3664; 3792; 3872; 4160; 4240; 6112; 6160; 6470; 6608; 6784; 6800; 6992; 7088; 7232;
   7248; 42528; 43216; 43264; 43472; 43504; 43600; 44016; 65296; 66720; 68912; 69734;
   69872; 69942; 70096; 70384; 70736; 70864; 71248; 71360; 71472; 71904; 72016; 72784;
   73040; 73120; 92768; 92864; 93008; 120782; 120792; 120802; 120812; 120822; 123200;
   123632; 125264; 130032]%N.

(** Decimal value of a code point, if it is a decimal digit. *)
Definition digit_val (c : N) : option N :=
  match find (fun z => ((z <=? c) && (c <? z + 10))%N) nd_zeros with
  | Some z => Some (c - z)%N
  | None => None
  end.

Definition is_digit (c : N) : bool :=
  match digit_val c with Some _ => true | None => false end.

(** ASCII digit. *)
Definition dig (n : N) : N := (48 + n)%N.

(** ** str methods *)

Fixpoint starts_with (p s : str) : bool :=
  match p, s with
  | [], _ => true
  | x :: p', y :: s' => N.eqb x y && starts_with p' s'
  | _ :: _, [] => false
  end.

Fixpoint lstrip (s : str) : str :=
  match s with
  | c :: s' => if is_space c then lstrip s' else s
  | [] => []
  end.

Definition strip (s : str) : str := rev (lstrip (rev (lstrip s))).

(** [s.split(sep)] for a one character separator. *)
Fixpoint split_on (sep : N) (s : str) : list str :=
  match s with
  | [] => [[]]
  | c :: s' =>
      if N.eqb c sep then [] :: split_on sep s'
      else match split_on sep s' with
           | w :: ws => (c :: w) :: ws
           | [] => [[c]]
           end
  end.

Fixpoint join (sep : str) (l : list str) : str :=
  match l with
  | [] => []
  | [x] => x
  | x :: l' => x ++ sep ++ join sep l'
  end.

(** [s.replace(old, new)].  The empty [old] inserts [new] everywhere. *)
Fixpoint replace_empty (new s : str) : str :=
  match s with
  | [] => new
  | c :: s' => new ++ c :: replace_empty new s'
  end.

(** [skip] counts the characters of the current occurrence still to be
    dropped, which keeps the recursion structural. *)
Fixpoint replace_go (old new : str) (skip : nat) (s : str) : str :=
  match s with
  | [] => []
  | c :: s' =>
      match skip with
      | S k => replace_go old new k s'
      | O => if starts_with old s
             then new ++ replace_go old new (length old - 1) s'
             else c :: replace_go old new O s'
      end
  end.

Definition replace (old new s : str) : str :=
  match old with
  | [] => replace_empty new s
  | _ => replace_go old new O s
  end.

(** [s.replace(c, "")] and [s.replace(c, d)] for single characters are common;
    they are the same function, see [replace_char_del]/[replace_char]. *)
Definition remove_char (c : N) (s : str) : str := filter (fun x => negb (N.eqb x c)) s.
Definition subst_char (c d : N) (s : str) : str := map (fun x => if N.eqb x c then d else x) s.

Lemma replace_char : forall c d s, replace [c] [d] s = subst_char c d s.
Proof.
  intros c d s. unfold replace. induction s as [|x s IH]; simpl; auto.
  rewrite N.eqb_sym. destruct (N.eqb x c) eqn:E; simpl; rewrite IH; reflexivity.
Qed.

Lemma replace_char_del : forall c s, replace [c] [] s = remove_char c s.
Proof.
  intros c s. unfold replace. induction s as [|x s IH]; simpl; auto.
  rewrite N.eqb_sym. destruct (N.eqb x c) eqn:E; simpl; rewrite IH; reflexivity.
Qed.

(** [dict.get] on a literal dictionary; [None] is never a key. *)
Fixpoint assoc {A} (k : str) (l : list (str * A)) : option A :=
  match l with
  | [] => None
  | (k', v) :: l' => if str_eqb k k' then Some v else assoc k l'
  end.

Definition dict_get {A} (l : list (str * A)) (k : option str) : option A :=
  match k with Some k => assoc k l | None => None end.

Definition mem (s : str) (l : list str) : bool := existsb (str_eqb s) l.

(** Truth value of an optional string ([None] and [""] are false). *)
Definition truthy (s : option str) : bool :=
  match s with Some (_ :: _) => true | _ => false end.

Definition opt_str_eqb (a : option str) (b : str) : bool :=
  match a with Some a => str_eqb a b | None => false end.

(** [str(x)] of an optional string inside [format]: [None] prints as "None". *)
Definition fmt_opt (s : option str) : str :=
  match s with Some s => s | None => py "None" end.

(** ** Integers *)

Fixpoint nat_digits_fuel (fuel : nat) (n : N) (acc : str) : str :=
  match fuel with
  | O => acc
  | S f => let acc' := dig (n mod 10) :: acc in
           if (n <? 10)%N then acc' else nat_digits_fuel f (n / 10) acc'
  end.

(** Decimal digits of a natural number ([str(n)]). *)
Definition N_str (n : N) : str := nat_digits_fuel (S (N.to_nat (N.log2 n))) n [].

(** [str(z)] of an int. *)
Definition Z_str (z : Z) : str :=
  match z with
  | Zneg p => py "-" ++ N_str (Npos p)
  | _ => N_str (Z.to_N z)
  end.

(** Zero padding ["{:0wd}"]: the sign counts in the width. *)
Definition zfill_N (w : nat) (n : N) : str :=
  let s := N_str n in repeat 48%N (w - length s) ++ s.
Definition Z_pad (w : nat) (z : Z) : str :=
  match z with
  | Zneg p => py "-" ++ zfill_N (w - 1) (Npos p)
  | _ => zfill_N w (Z.to_N z)
  end.

Fixpoint digits_val (acc : N) (s : str) : option N :=
  match s with
  | [] => Some acc
  | c :: s' => match digit_val c with
               | Some d => digits_val (acc * 10 + d) s'
               | None => None
               end
  end.

(** [int(s)] restricted to strings of decimal digits.  Simplification: the
    optional sign, surrounding whitespace and underscores of the full grammar
    are not accepted here; the modelled code only applies [int] to strings
    captured by [\d]-only groups and to ["//"], for which this is exact. *)
Definition int_of_str (s : str) : result Z :=
  match s with
  | [] => Raise ValueError
  | _ => match digits_val 0 s with
         | Some n => Ok (Z.of_N n)
         | None => Raise ValueError
         end
  end.

(** [int(x)] where [x] may be [None]. *)
Definition int_of_opt (s : option str) : result Z :=
  match s with Some s => int_of_str s | None => Raise TypeError end.
