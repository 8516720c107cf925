(** * Specifications: numbers

    The exact rational value of a binary64 number and what it means for a
    decoded value to be a given number, exactly or within a tolerance. *)
From Coq Require Import String Ascii.
From Coq Require Import List NArith ZArith Bool Lia QArith Qabs.
From Coq Require Import Floats.SpecFloat.
From Verif Require Import PyBase PyFloat.
Import ListNotations.
Open Scope list_scope.

(** (-1)^s * m * 2^e *)
Definition fvalue (x : float) : option Q :=
  match x with
  | S754_zero _ => Some (0 # 1)
  | S754_finite s m e =>
      let n := if s then Zneg m else Zpos m in
      Some (match e with
            | Zneg k => n # (Pos.pow 2 k)
            | Z0 => n # 1
            | Zpos k => (n * Zpos (Pos.pow 2 k)) # 1
            end)
  | _ => None
  end.

(** The value is present and is exactly [q]. *)
Definition is_num (o : option float) (q : Q) : Prop :=
  exists x v, o = Some x /\ fvalue x = Some v /\ (v == q)%Q.

(** The value is present and differs from [q] by at most [eps]. *)
Definition within (eps : Q) (o : option float) (q : Q) : Prop :=
  exists x v, o = Some x /\ fvalue x = Some v /\ (Qabs (v - q) <= eps)%Q.

(** The value is present and differs from [q >= 0] by at most [eps * q]. *)
Definition is_close (eps : Q) (o : option float) (q : Q) : Prop :=
  exists x v, o = Some x /\ fvalue x = Some v /\ (Qabs (v - q) <= eps * q)%Q.

(** The same, with absence matching absence. *)
Definition opt_num (o : option float) (q : option Q) : Prop :=
  match q with Some q => is_num o q | None => o = None end.
Definition opt_within (eps : Q) (o : option float) (q : option Q) : Prop :=
  match q with Some q => within eps o q | None => o = None end.
Definition opt_close (eps : Q) (o : option float) (q : option Q) : Prop :=
  match q with Some q => is_close eps o q | None => o = None end.

Definition ofN (n : N) : Q := inject_Z (Z.of_N n).

(** A binary64 number proper: canonical mantissa, exponent in range. *)
Definition fvalid (x : float) : Prop := valid_binary 53 1024 x = true.

(** A finite binary64 number. *)
Definition sound (x : float) : Prop := fvalid x /\ exists q, fvalue x = Some q.

(** Its exact value. *)
Definition exact (o : option float) : option Q :=
  match o with Some x => fvalue x | None => None end.

(** Decimal digits of [n], exactly [k] of them. *)
Fixpoint digits (k : nat) (n : N) : str :=
  match k with
  | O => []
  | S k' => digits k' (n / 10) ++ [dig (n mod 10)]
  end.
